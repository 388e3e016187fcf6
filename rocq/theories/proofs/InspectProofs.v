From stdpp Require Import strings list gmap relations sorting.
From Coq Require Import Ascii ZArith Lia.
From Verif.model Require Import GoStr Version Desc Nexus Pacman Graph RepoDb Plan Inspect.
From Verif.spec Require Import VersionSpec RepoSpec GraphSpec PlanSpec InspectSpec.
From Verif.proofs Require Import RepoProofs FetchProofs GraphProofs LayerProofs PlanProofs PlanProps DerivedProofs.

Local Open Scope string_scope.

Lemma byte_le_antisym a b : byte_le a b -> byte_le b a -> a = b.
Proof.
  revert b. induction a as [|x a IH]; intros [|y b]; cbn; try done.
  intros [H1|[-> H1]] [H2|[E H2]]; [lia|subst; lia|lia|]. f_equal. by apply IH.
Qed.

Lemma listed_sort (P : string -> Prop) l : NoDup l -> (forall x, x ∈ l <-> P x) -> listed P (sort_strings l).
Proof.
  intros H1 H2. split; [apply sort_strings_sorted|]. split; [by rewrite sort_strings_perm|].
  intros x. by rewrite sort_strings_perm.
Qed.

Lemma keep_deps_from (all : gmap string (list string)) args : forall (m : gmap string (list string)) a,
  fold_left (fun m a => <[a := default [] (all !! a)]> m) args m !! a =
  if decide (a ∈ args) then Some (default [] (all !! a)) else m !! a.
Proof.
  induction args as [|b args IH]; intros m a; cbn [fold_left]; [done|]. rewrite IH.
  destruct (decide (a ∈ args)) as [H|H].
  - rewrite decide_True by (by right). done.
  - destruct (decide (a = b)) as [->|N].
    + rewrite decide_True by (by left). by rewrite lookup_insert.
    + rewrite decide_False, lookup_insert_ne by (congruence || by intros [?|?]%elem_of_cons). done.
Qed.

Lemma keep_deps_lookup (all : gmap string (list string)) args a :
  keep_deps all args !! a = if decide (a ∈ args) then Some (default [] (all !! a)) else None.
Proof. unfold keep_deps. by rewrite keep_deps_from. Qed.

Lemma mapM_trees (f : string -> option (list dep_tree)) (Q : dep_tree -> Prop) l :
  (forall d, d ∈ l -> exists ts, f d = Some ts /\ Q (DepTree d ts)) ->
  exists ts, mapM (fun d => DepTree d <$> f d) l = Some ts /\ map root_of ts = l /\ Forall Q ts.
Proof.
  induction l as [|d l IH]; intros H; [by exists []|].
  destruct (H d) as (ts & E & Hq); [by left|].
  destruct IH as (tss & E' & Hm & HQ); [intros x Hx; apply H; by right|].
  exists (DepTree d ts :: tss). cbn [mapM]. rewrite E, E'. cbn. rewrite Hm. split; [done|]. split; [done|]. by constructor.
Qed.

Lemma tc_head (R : string -> string -> Prop) q r : tc R q r -> exists y, R q y.
Proof. intros H. destruct H; eauto. Qed.

(** ** The recorded dependencies *)
Section recorded.
  Context (R : string -> string -> Prop) (db : gmap string (list string)) (inplan : string -> Prop).
  Context (Hdb : forall q deps, db !! q = Some deps -> NoDup deps /\ q ∉ deps /\ forall r, r ∈ deps <-> tc R q r)
    (Hnone : forall q, inplan q -> db !! q = None -> forall r, ~ R q r)
    (Hclosed : forall q r, inplan q -> tc R q r -> inplan r)
    (Hkeys : forall q, is_Some (db !! q) -> inplan q).

  Lemma recorded q : inplan q -> NoDup (default [] (db !! q)) /\ forall r, r ∈ default [] (db !! q) <-> tc R q r.
  Proof.
    intros Hq. destruct (db !! q) as [deps|] eqn:E; cbn [default id].
    - by destruct (Hdb q deps E) as (H1 & _ & H2).
    - split; [constructor|]. intros r. split; [by intros ?%elem_of_nil|]. intros H.
      destruct (tc_head _ _ _ H) as [y Hy]. by destruct (Hnone q Hq E y).
  Qed.

  Lemma recorded_irrefl q : inplan q -> ~ tc R q q.
  Proof.
    intros Hq H. destruct (db !! q) as [deps|] eqn:E.
    - destruct (Hdb q deps E) as (_ & H1 & H2). by apply H1, H2.
    - destruct (tc_head _ _ _ H) as [y Hy]. by destruct (Hnone q Hq E y).
  Qed.

  Lemma recorded_shorter q r : inplan q -> tc R q r ->
    length (default [] (db !! r)) < length (default [] (db !! q)).
  Proof.
    intros Hq H. assert (inplan r) as Hr by (by eapply Hclosed).
    destruct (recorded q Hq) as [_ Mq], (recorded r Hr) as [Nr Mr].
    apply (submseteq_length (r :: default [] (db !! r))). apply NoDup_submseteq.
    - constructor; [|done]. rewrite Mr. by apply recorded_irrefl.
    - intros x [->|Hx]%elem_of_cons; [by apply Mq|]. apply Mq. apply Mr in Hx. by transitivity r.
  Qed.

  Lemma recurse_tree fuel : forall p, inplan p -> length (default [] (db !! p)) < fuel ->
    exists ts, recurse_deps fuel db p = Some ts /\ tree_of (tc R) (DepTree p ts).
  Proof.
    induction fuel as [|f IH]; intros p Hp Hf; [lia|]. cbn [recurse_deps].
    destruct (recorded p Hp) as [Np Mp].
    destruct (mapM_trees (recurse_deps f db) (tree_of (tc R)) (sort_strings (default [] (db !! p)))) as (ts & E & Hm & HQ).
    { intros d Hd. rewrite sort_strings_perm in Hd. apply Mp in Hd. apply IH; [by eapply Hclosed|].
      pose proof (recorded_shorter p d Hp Hd). lia. }
    exists ts. split; [done|]. constructor; [|done]. rewrite Hm. by apply listed_sort.
  Qed.

  Lemma forest fuel l : (forall p, p ∈ l -> inplan p) -> (forall p, p ∈ l -> length (default [] (db !! p)) < fuel) ->
    exists ts, mapM (fun p => DepTree p <$> recurse_deps fuel db p) l = Some ts /\ map root_of ts = l /\
      Forall (tree_of (tc R)) ts.
  Proof. intros H1 H2. apply mapM_trees. intros d Hd. apply recurse_tree; auto. Qed.

  Lemma inverted o r : oracle_ok o ->
    let inv := invert_dependencies db (ask (sub o 0) (elements (dom (D := gset string) db))) in
    listed (fun p => inplan p /\ tc R p r) (default [] (inv !! r)) /\
    (inv !! r = None <-> forall p, inplan p -> ~ tc R p r).
  Proof.
    intros Ho. cbv zeta.
    destruct (invert_spec db (ask (sub o 0) (elements (dom (D := gset string) db)))) as [H1 H2].
    { rewrite (ask_perm _ _ (sub_ok o 0 Ho)). symmetry. apply fst_map_to_list_dom. }
    { intros p l E. by destruct (Hdb p l E). }
    assert (forall p, (exists deps, db !! p = Some deps /\ r ∈ deps) <-> inplan p /\ tc R p r) as M.
    { intros p. split.
      - intros (deps & E & Hr). split; [by apply Hkeys; eauto|]. destruct (Hdb p deps E) as (_ & _ & H). by apply H.
      - intros [Hp Ht]. destruct (recorded p Hp) as [_ M]. apply M in Ht. destruct (db !! p) as [deps|]; [by exists deps|].
        by apply elem_of_nil in Ht. }
    split.
    - destruct (invert_dependencies _ _ !! r) as [l|] eqn:E; cbn [default id].
      + destruct (H1 r l E) as (_ & S & N & I). split; [done|]. split; [done|]. intros x. by rewrite I, M.
      + split; [constructor|]. split; [constructor|]. intros x. split; [by intros ?%elem_of_nil|].
        intros Hx. apply M in Hx as (deps & Ed & Hr). destruct (proj1 (H2 r) E x deps Ed Hr).
    - rewrite H2. split.
      + intros H p Hp Ht. destruct (proj2 (M p) (conj Hp Ht)) as (deps & E & Hr). by destruct (H p deps E).
      + intros H p deps E Hr. destruct (proj1 (M p)) as [Hp Ht]; [by exists deps|]. by apply (H p).
  Qed.
End recorded.

Lemma sort_listed P l : listed P l -> listed P (sort_strings l).
Proof. intros (_ & N & M). by apply listed_sort. Qed.

Lemma sorted_default (m : gmap string (list string)) q :
  default [] ((sort_strings <$> m) !! q) = sort_strings (default [] (m !! q)).
Proof. rewrite lookup_fmap. by destruct (m !! q). Qed.

(** ** Plans *)
Section plan.
  Context (nx : nexus) (nr : bool) (o : oracle) (pkgs : list string) (pre : gmap string desc)
    (cfg : install_deps) (update le : bool) (ip : install_plan).
  Context (Hnx : nexus_ok nx) (HR : ~ available nx "R") (Ho : oracle_ok o)
    (Hc : standard_config nr cfg) (Hav : forall p, p ∈ pkgs -> available nx p)
    (Hp : resolve_installation_reqs o pkgs pre cfg nx update le nr = PlanOk ip).

  Lemma inspect_plan :
    (forall q deps, ip_depdb ip !! q = Some deps -> NoDup deps /\ q ∉ deps /\ forall r, r ∈ deps <-> tc (needs nx nr) q r) /\
    (forall q, planned ip q -> ip_depdb ip !! q = None -> forall r, ~ needs nx nr q r) /\
    (forall q r, planned ip q -> tc (needs nx nr) q r -> planned ip r).
  Proof.
    destruct (plan_deps nx nr o pkgs pre cfg update le Hnx HR Ho Hc Hav ip Hp) as [H1 H2].
    destruct (plan_closure nx nr o pkgs pre cfg update le Hnx HR Ho Hc Hav ip Hp) as [H3 _].
    split; [done|]. split.
    - intros q [Hq|[deps Hq]] E; [|congruence]. by apply H1.
    - intros q r Hq Ht. apply H3. apply H3 in Hq. induction Ht as [a b Hab|a b c Hab _ IH].
      + eapply closure_needs; [done|done|]. by split.
      + apply IH. eapply closure_needs; [done|done|]. by split.
  Qed.

  Lemma planned_in_names q : planned ip q -> q ∈ planned_names ip.
  Proof.
    intros [H|[deps H]]; apply elem_of_app; [by left|right]. apply elem_of_list_fmap. exists (q, deps). split; [done|].
    by apply elem_of_map_to_list.
  Qed.

  Lemma deps_bound q : planned ip q -> length (default [] (ip_depdb ip !! q)) < S (length (planned_names ip)).
  Proof.
    intros Hq. destruct inspect_plan as (H1 & H2 & H3).
    destruct (recorded _ _ _ H1 H2 q Hq) as [N M]. apply PeanoNat.Nat.lt_succ_r.
    apply submseteq_length, NoDup_submseteq; [done|]. intros x Hx. apply planned_in_names. apply M in Hx. by eapply H3.
  Qed.
End plan.
