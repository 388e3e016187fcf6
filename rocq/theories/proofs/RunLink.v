(** Planning establishes what the theorems on runs assume; example worlds. *)
From stdpp Require Import strings list gmap.
From Coq Require Import Ascii ZArith Lia.
From Verif.model Require Import GoStr Version Desc Nexus Pacman Graph Fs Rollback.
From Verif.spec Require Import RepoSpec GraphSpec LibSpec.
From Verif.proofs Require Import GoStrLemmas RepoProofs GraphProofs PlanProofs PlanProps DerivedProofs
  FsProofs RollbackProofs RunProofs RunProps RunProps2.

Local Open Scope string_scope.

(** The packages found in a library (cmd/plan.go 102-124). *)
Definition found (f : fsys) (lib : list string) (dirs : list (string * option desc)) : gmap string desc :=
  if fs_dir_exists f lib then prior_installed dirs ∅ else ∅.

Lemma prior_installed_in dirs m p d : prior_installed dirs m !! p = Some d ->
  (p <> "" /\ d_package d = p /\ exists x, (x, Some d) ∈ dirs) \/ m !! p = Some d.
Proof.
  revert m. induction dirs as [|[x o] dirs IH]; intros m; cbn [prior_installed]; [by right|].
  intros H. apply IH in H as [(H1 & H2 & y & H3)|H].
  - left. split; [done|]. split; [done|]. exists y. by right.
  - destruct o as [d0|]; [|by right]. cbn [scan_installed] in H.
    destruct (String.eqb_spec (d_package d0) "") as [E|E]; [by right|].
    destruct (decide (p = d_package d0)) as [->|Hne].
    + rewrite lookup_insert in H. assert (d0 = d) as -> by congruence. left.
      split; [done|]. split; [done|]. exists x. by left.
    + rewrite lookup_insert_ne in H by done. by right.
Qed.

Lemma planned_run_ok c f dirs nx nr o pkgs cfg update ip keys add add' :
  nexus_ok nx -> ~ available nx "R" -> oracle_ok o -> standard_config nr cfg ->
  (forall p, p ∈ pkgs -> available nx p) -> tree_ok f -> lists_library f (rc_library c) dirs ->
  resolve_installation_reqs o pkgs (found f (rc_library c) dirs) cfg nx update
    (fs_dir_exists f (rc_library c)) nr = PlanOk ip ->
  add' ≡ₚ add -> NoDup add ->
  (forall p, p ∈ get_all_packages ip keys add -> r_name p) ->
  run_ok c (RunInput ip keys add add' (found f (rc_library c) dirs)) f.
Proof.
  intros H1 H2 H3 H4 H5 T (L1 & L2 & L3) E Ha Hd Hn.
  set (pre := found f (rc_library c) dirs) in *.
  assert (forall p d, pre !! p = Some d -> p <> "" /\ f (rc_library c ++ [p])%list = Some Dir) as P.
  { intros p d Hp. unfold pre, found in Hp. destruct (fs_dir_exists f (rc_library c)); [|done].
    apply prior_installed_in in Hp as [(Hp1 & Hp2 & x & Hp3)|Hp]; [|done].
    split; [done|]. apply L2. rewrite <- Hp2. apply (L3 x); [done|]. by rewrite Hp2. }
  assert (pre !! "" = None) as P0.
  { apply eq_None_not_Some. intros [d Hp]. by apply P in Hp as [? _]. }
  destruct (plan_ok_inv nx nr o pkgs pre cfg update (fs_dir_exists f (rc_library c)) H1 H2 H3 H4 H5 ip E)
    as (_ & st & ls & db & _ & _ & _ & _ & _ & Eo & _ & Ec & _).
  destruct (outdated_spec nx pre _ _ H1 P0 (H3 _ _) Eo) as [O1 O2].
  split; cbn [ri_plan ri_additional ri_additional' ri_preinstalled]; try done.
  - intros x Hx. apply O1 in Hx as (d & _ & Hx & _). by exists d.
  - rewrite Ec. unfold fs_dir_exists. destruct (f (rc_library c)) as [[]|]; cbn; split; congruence.
  - intros p [d Hp]. by apply P in Hp as [_ ?].
Qed.

(** ** Frame for a library made by the run *)
Lemma created_frame c i sc w f f' q : run_ok c i f -> world_ok c i sc w f -> ip_create_library (ri_plan i) = true ->
  ~ sc q -> ~ in_dir (rc_library c) q ->
  interrupted (rc_library c) sc (required i) (ri_additional i) (run_changes (r_install c i w f)) f f' ->
  f' q = f q \/ (in_dir q (rc_library c) /\ f q = None /\ f' q = Some Dir).
Proof.
  intros Hok Hw Hc Hsc Hq. destruct (create_nothing c i f Hok Hc) as (Nu & No & _).
  unfold r_install. rewrite Hc. cbn [andb].
  destruct (rc_strict c); [by intros [->|[]]; left|].
  destruct (mkdir_all (rc_library c) f) as [g|] eqn:Em; [|by intros [->|[]]; left].
  destruct (mkdir_some _ _ _ Em) as [G1 G2].
  assert (g q = f q \/ (in_dir q (rc_library c) /\ f q = None /\ g q = Some Dir)) as Hg.
  { rewrite G1. destruct (below q (rc_library c)) eqn:E; [|by left].
    apply below_spec in E. destruct (G2 q E) as [->| ->]; [by right|by left]. }
  assert (prepare_ops c i = [OMkdirAll (rc_library c)]) as Ep.
  { by rewrite (prepare_eq c i f Hok), Hc, Nu, No. }
  rewrite Ep.
  assert (forall f', interrupted (rc_library c) sc (required i) (ri_additional i) [OMkdirAll (rc_library c)] f f' ->
    f' q = f q \/ (in_dir q (rc_library c) /\ f q = None /\ f' q = Some Dir)) as K1.
  { intros h. cbn [interrupted interrupted_op exec]. rewrite Em. cbn [default from_option id].
    intros [->|[H|[->|[]]]]; [by left| |done]. destruct (H q) as [?|?]; auto. }
  destruct (rw_download_fails w); unfold run_changes; cbn [rt_prepare rt_install rt_rollback rt_cleanup].
  { rewrite app_nil_r. apply K1. }
  rewrite interrupted_app. intros [H|H]; [by apply K1|].
  cbn [run_ops fold_left exec] in H. rewrite Em in H. cbn [default from_option id] in H.
  assert (forall h, install_frame (rc_library c) sc (required i) (ri_additional i) g h -> h q = g q) as K2.
  { intros h [Hh _]. apply Hh; [done|]. intros p _ [s ->]. apply Hq. exists (p :: s). by rewrite slot_eq. }
  assert (rw_install w g q = g q) as K3.
  { apply K2. destruct Hw as (_ & H' & _). rewrite Ep in H'. cbn [run_ops fold_left exec] in H'. by rewrite Em in H'. }
  assert (forall h f', interrupted (rc_library c) sc (required i) (ri_additional i)
      (rollback_ops c i w h) h f' -> f' q = h q) as K4.
  { intros h h'. unfold rollback_ops. rewrite Hc. destruct (negb _ && _); [|by intros [->|[]]].
    cbn [rollback fst interrupted interrupted_op exec]. intros [->|[Hh|[->|[]]]]; [done| |].
    - destruct (Hh q) as [?|[? _]]; done.
    - unfold remove_all. destruct (below _ q) eqn:E; [by apply below_spec in E|done]. }
  assert (forall h, cleanup_ops c i h = []) as C.
  { intros h. unfold cleanup_ops. by rewrite (plan_updates c i f Hok), (plan_additional c i f Hok), Nu, No. }
  rewrite interrupted_app in H. destruct H as [H|H].
  { cbn [interrupted interrupted_op exec] in H. destruct H as [->|[H|[->|[]]]]; [done| |].
    - by rewrite (K2 _ H).
    - by rewrite K3. }
  cbn [run_ops fold_left exec] in H. rewrite C, app_nil_r in H. apply K4 in H. by rewrite H, K3.
Qed.

(** ** Example file systems and worlds *)

(** A file system given by its entries. *)
Fixpoint fs_of (l : list (list string * node)) : fsys := fun q =>
  match l with
  | [] => None
  | (p, n) :: l' => if decide (q = p) then Some n else fs_of l' q
  end.

Definition tree_okb (l : list (list string * node)) : bool :=
  forallb (fun kn => match kn.1 with
                     | [] => true
                     | _ => match fs_of l (removelast kn.1) with Some Dir => true | _ => false end
                     end) l.

Lemma fs_of_some l q n : fs_of l q = Some n -> (q, n) ∈ l.
Proof.
  induction l as [|[p m] l IH]; cbn [fs_of]; [done|]. destruct (decide (q = p)) as [->|].
  - intros [= ->]. by left.
  - intros H. right. by apply IH.
Qed.

Lemma tree_okb_sound l : tree_okb l = true -> tree_ok (fs_of l).
Proof.
  unfold tree_okb. rewrite forallb_forall. intros H q x Hq.
  destruct (fs_of l (q ++ [x])%list) as [n|] eqn:E; [|done].
  apply fs_of_some, elem_of_list_In, H in E. cbn [fst] in E.
  destruct (q ++ [x])%list eqn:Eq; [by destruct q|]. rewrite <- Eq, removelast_last in E.
  by destruct (fs_of l q) as [[]|].
Qed.

Definition letterb (c : ascii) : bool :=
  let n := nat_of_ascii c in (Nat.leb 65 n && Nat.leb n 90) || (Nat.leb 97 n && Nat.leb n 122).
Definition name_charb (c : ascii) : bool :=
  let n := nat_of_ascii c in letterb c || (Nat.leb 48 n && Nat.leb n 57) || Ascii.eqb c "."%char.
Fixpoint all_charsb (s : string) : bool :=
  match s with "" => true | String c r => name_charb c && all_charsb r end.
Definition r_nameb (s : string) : bool := match s with "" => false | String c r => letterb c && all_charsb r end.

Lemma letterb_sound c : letterb c = true -> letter c.
Proof.
  unfold letterb, letter. intros H. apply orb_true_iff in H as [H|H]; apply andb_true_iff in H as [H1 H2];
    apply Nat.leb_le in H1; apply Nat.leb_le in H2; lia.
Qed.

Lemma r_nameb_sound s : r_nameb s = true -> r_name s.
Proof.
  destruct s as [|c s]; [done|]. cbn [r_nameb r_name]. intros H. apply andb_true_iff in H as [H1 H2].
  split; [by apply letterb_sound|]. induction s as [|d s IH]; [done|]. cbn in *.
  apply andb_true_iff in H2 as [H2 H3]. split; [|by apply IH]. unfold name_charb in H2.
  apply orb_true_iff in H2 as [H2|H2]; [apply orb_true_iff in H2 as [H2|H2]|].
  - left. by apply letterb_sound.
  - right. left. apply andb_true_iff in H2 as [A B]. apply Nat.leb_le in A. apply Nat.leb_le in B. lia.
  - right. right. by apply Ascii.eqb_eq.
Qed.

Lemma r_nameb_all l : forallb r_nameb l = true -> forall p, p ∈ l -> r_name p.
Proof. rewrite forallb_forall. intros H p Hp. apply r_nameb_sound, H. by apply elem_of_list_In. Qed.

(** R makes the directory of package [p] with a DESCRIPTION that says [v]. *)
Definition put (lib : list string) (p v : string) (g : fsys) : fsys := fun q =>
  if decide (q = (lib ++ [p])%list) then Some Dir
  else if decide (q = (lib ++ [p; "DESCRIPTION"])%list) then Some (File v) else g q.

(** Installing a planned package: skipped when something is there. *)
Definition put_new (lib : list string) (p v : string) (g : fsys) : fsys :=
  if fs_dir_exists g lib && negb (fs_exists g (lib ++ [p])%list) then put lib p v g else g.

(** Installing a tarball: whatever is there is replaced. *)
Definition put_over (lib : list string) (p v : string) (g : fsys) : fsys :=
  if fs_dir_exists g lib then put lib p v (remove_all (lib ++ [p]) g) else g.

Definition good_step (lib : list string) (all add : list string) (h : fsys -> fsys) : Prop :=
  forall g, install_frame lib (fun _ => False) all add g (h g) /\ (tree_ok g -> tree_ok (h g)).

Lemma good_id lib all add : good_step lib all add (fun g => g).
Proof. intros g. by repeat split. Qed.

Lemma good_comp lib all add h k : good_step lib all add h -> good_step lib all add k ->
  good_step lib all add (fun g => k (h g)).
Proof.
  intros Hh Hk g. destruct (Hh g) as [[A1 A2] A3], (Hk (h g)) as [[B1 B2] B3]. split; [split|].
  - intros q Hsc Hq. by rewrite B1, A1.
  - intros p Hp Ha Hd s. specialize (A2 p Hp Ha Hd). rewrite (B2 p Hp Ha); [apply A2|]. by rewrite (A2 []).
  - auto.
Qed.

Lemma put_out lib p v g q : ~ in_dir (lib ++ [p])%list q -> put lib p v g q = g q.
Proof.
  intros H. unfold put. destruct (decide _) as [->|].
  { exfalso. apply H. exists []. by rewrite app_nil_r. }
  destruct (decide _) as [->|]; [|done]. exfalso. apply H. exists ["DESCRIPTION"]. by rewrite <- app_assoc.
Qed.

Lemma put_tree lib p v g : tree_ok g -> g lib = Some Dir ->
  (forall s, s <> [] -> g ((lib ++ [p]) ++ s)%list = None) -> tree_ok (put lib p v g).
Proof.
  intros T Hl Hs q x H. unfold put in H.
  assert (put lib p v g lib = Some Dir) as L.
  { rewrite put_out; [done|]. intros [s E]. rewrite slot_eq in E. by apply lib_neq in E. }
  destruct (decide _) as [E|_]; [apply app_inj_tail in E as [-> ->]; done|].
  destruct (decide _) as [E|_].
  { change [p; "DESCRIPTION"] with ([p] ++ ["DESCRIPTION"])%list in E. rewrite app_assoc in E.
    apply app_inj_tail in E as [-> ->]. unfold put. by destruct (decide _). }
  pose proof (T _ _ H) as Hq. unfold put.
  destruct (decide _) as [->|]; [done|]. destruct (decide _) as [->|]; [|done].
  change [p; "DESCRIPTION"] with ([p] ++ ["DESCRIPTION"])%list in Hq. rewrite app_assoc in Hq.
  by rewrite Hs in Hq.
Qed.

Lemma not_in_other lib (x p : string) s : x <> p -> ~ in_dir (lib ++ [p])%list (lib ++ x :: s)%list.
Proof. intros H [t E]. rewrite slot_eq in E. by apply app_cons_inj in E as [? _]. Qed.

Lemma dir_exists_true g q : fs_dir_exists g q = true -> g q = Some Dir.
Proof. unfold fs_dir_exists. by destruct (g q) as [[]|]. Qed.

Lemma put_new_good lib all add p v : p ∈ all -> good_step lib all add (put_new lib p v).
Proof.
  intros Hp g. unfold put_new. destruct (fs_dir_exists g lib) eqn:E1; [|apply good_id].
  destruct (fs_exists g (lib ++ [p])%list) eqn:E2; [apply good_id|]. cbn [negb andb].
  apply dir_exists_true in E1. unfold fs_exists in E2. destruct (g (lib ++ [p])%list) eqn:E3; [done|].
  split; [split|].
  - intros q _ Hq. apply put_out. by apply Hq.
  - intros x _ _ Hx s. apply put_out, not_in_other. intros ->. congruence.
  - intros T. apply put_tree; [done..|]. intros s _. rewrite slot_eq. by apply tree_none.
Qed.

Lemma put_over_good lib all add p v : p ∈ all -> p ∈ add -> good_step lib all add (put_over lib p v).
Proof.
  intros Hp Ha g. unfold put_over. destruct (fs_dir_exists g lib) eqn:E1; [|apply good_id].
  apply dir_exists_true in E1.
  assert (forall q, ~ in_dir (lib ++ [p])%list q -> put lib p v (remove_all (lib ++ [p]) g) q = g q) as K.
  { intros q Hq. rewrite put_out by done. unfold remove_all. destruct (below _ q) eqn:E; [|done].
    by apply below_spec in E. }
  split; [split|].
  - intros q _ Hq. apply K. by apply Hq.
  - intros x _ Hx _ s. apply K, not_in_other. intros ->. done.
  - intros T. apply put_tree.
    + by apply remove_tree.
    + by rewrite remove_lib.
    + intros s _. unfold remove_all. rewrite (proj2 (below_spec _ _)); [done|]. by exists s.
Qed.

Lemma good_world c i d e1 e2 h f : good_step (rc_library c) (required i) (ri_additional i) h ->
  world_ok c i (fun _ => False) (RunWorld d h e1 e2) f.
Proof. intros H. split; [by intros q []|]. apply H. Qed.
