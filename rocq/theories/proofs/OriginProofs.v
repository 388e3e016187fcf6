(** Proofs about origins and suggestions. *)
From stdpp Require Import strings list gmap relations sorting.
From Coq Require Import Ascii ZArith Lia.
From Verif.model Require Import GoStr Version Desc Nexus Pacman Graph RepoDb Plan Origins.
From Verif.spec Require Import VersionSpec RepoSpec GraphSpec PlanSpec OriginSpec.
From Verif.proofs Require Import RepoProofs FetchProofs GraphProofs LayerProofs PlanProofs PlanProps SettingsProofs.

Local Open Scope string_scope.

Lemma in_slice s l : string_in_slice s l = true <-> s ∈ l.
Proof.
  induction l as [|e l IH]; cbn [string_in_slice]; [by rewrite elem_of_nil|]. rewrite elem_of_cons.
  destruct (String.eqb_spec s e) as [-> |H]; [by intuition|]. rewrite IH. intuition congruence.
Qed.

Lemma in_slice_decide s l : string_in_slice s l = bool_decide (s ∈ l).
Proof.
  destruct (string_in_slice s l) eqn:E; symmetry; [apply bool_decide_eq_true_2|apply bool_decide_eq_false_2]; rewrite <- in_slice; [done|].
  by rewrite E.
Qed.

Definition dl_for (nx : nexus) (q : string) : pkg_dl := let '(d, c, _) := get_package_go nx q in PkgDl c d.

Lemma dl_for_name nx q : nexus_ok nx -> available nx q -> d_package (dl_package (dl_for nx q)) = q.
Proof.
  intros H (d & c & E). unfold dl_for, get_package_go. rewrite E. cbn [dl_package]. apply (offered_name nx H). by exists c.
Qed.

Lemma perm_filter_map {A B} (f : A -> B) (g : B -> bool) (l : list A) :
  List.filter g (map f l) = map f (List.filter (fun x => g (f x)) l).
Proof. induction l as [|x l IH]; cbn [map List.filter]; [done|]. destruct (g (f x)); cbn [map]; by rewrite IH. Qed.

Lemma perm_lfilter {A} (g : A -> bool) (l l' : list A) : l ≡ₚ l' -> List.filter g l ≡ₚ List.filter g l'.
Proof.
  induction 1 as [|x l l' H IH|x y l|l1 l2 l3 H1 IH1 H2 IH2]; cbn [List.filter]; [done| | |by etrans].
  - destruct (g x); [by constructor|done].
  - destruct (g y), (g x); try done. apply Permutation_swap.
Qed.

Lemma in_lfilter {A} (g : A -> bool) (l : list A) x : x ∈ List.filter g l <-> x ∈ l /\ g x = true.
Proof. rewrite !elem_of_list_In, filter_In. done. Qed.

Lemma nodup_lfilter {A} (g : A -> bool) (l : list A) : NoDup l -> NoDup (List.filter g l).
Proof.
  induction 1 as [|x l H _ IH]; cbn [List.filter]; [constructor|]. destruct (g x); [|done].
  constructor; [|done]. rewrite in_lfilter. by intros [? _].
Qed.

(** The request and the other planned packages make up the plan. *)
Lemma planned_split (pkgs names : list string) : NoDup pkgs -> NoDup names -> (forall p, p ∈ pkgs -> p ∈ names) ->
  names ≡ₚ (pkgs ++ List.filter (fun q => negb (string_in_slice q pkgs)) names)%list.
Proof.
  intros H1 H2 H3. apply NoDup_Permutation; [done| |].
  - apply NoDup_app. split; [done|]. split; [|by apply nodup_lfilter]. intros x Hx [_ H]%in_lfilter.
    apply in_slice in Hx. by rewrite Hx in H.
  - intros x. rewrite elem_of_app, in_lfilter. split; [|intros [H|[H _]]; auto]. intros H.
    destruct (string_in_slice x pkgs) eqn:E; [left; by apply in_slice|by right].
Qed.

Lemma origins_exact nx nr o pkgs pre cfg update le ip :
  nexus_ok nx -> ~ available nx "R" -> oracle_ok o -> standard_config nr cfg ->
  (forall p, p ∈ pkgs -> available nx p) -> NoDup pkgs ->
  resolve_installation_reqs o pkgs pre cfg nx update le nr = PlanOk ip ->
  origin_lines nx pkgs ip ≡ₚ
    map (fun dl => origin_of (bool_decide (d_package (dl_package dl) ∈ pkgs)) dl) (ip_downloads ip).
Proof.
  intros H1 H2 H3 H4 H5 Hn E.
  destruct (plan_downloads nx nr o pkgs pre cfg update le H1 H2 H3 H4 H5 ip E) as (D & _ & _).
  destruct (plan_closure nx nr o pkgs pre cfg update le H1 H2 H3 H4 H5 ip E) as (Hc & Hnd).
  assert (forall q, q ∈ planned_names ip <-> closure cfg nx pkgs q) as Hp.
  { intros q. rewrite <- Hc. unfold planned_names, planned. rewrite elem_of_app, elem_of_list_fmap. split.
    - intros [H|([k v] & -> & H)]; [by left|right]. apply elem_of_map_to_list in H. eauto.
    - intros [H|[v H]]; [by left|right]. exists (q, v). split; [done|]. by apply elem_of_map_to_list. }
  assert (forall q, q ∈ planned_names ip -> d_package (dl_package (dl_for nx q)) = q) as Hd.
  { intros q Hq. apply dl_for_name; [done|]. apply Hp in Hq. by eapply closure_available. }
  change (ip_downloads ip ≡ₚ map (dl_for nx) (planned_names ip)) in D.
  unfold origin_lines, log_user_repos, log_dependency_repos. cbn [get_packages ap_packages].
  change (map (fun p => let '(d, c, _) := get_package_go nx p in PkgDl c d) pkgs) with (map (dl_for nx) pkgs).
  assert (forall p, p ∈ pkgs -> p ∈ planned_names ip) as Hu.
  { intros p Hin. apply Hp. exists p. split; [done|]. apply rtc_refl. }
  rewrite (perm_lfilter _ _ _ D), D. rewrite perm_filter_map, !map_map.
  transitivity (map (fun q => origin_of (bool_decide (q ∈ pkgs)) (dl_for nx q)) (planned_names ip)).
  - rewrite (planned_split pkgs (planned_names ip) Hn Hnd Hu) at 2. rewrite map_app. apply eq_subrelation; [apply _|]. f_equal.
    + apply map_ext_in. intros q Hq. apply elem_of_list_In in Hq. by rewrite bool_decide_eq_true_2.
    + assert (List.filter (fun x => negb (string_in_slice (d_package (dl_package (dl_for nx x))) pkgs)) (planned_names ip)
        = List.filter (fun q => negb (string_in_slice q pkgs)) (planned_names ip)) as ->.
      { apply filter_ext_in. intros q Hq. apply elem_of_list_In in Hq. by rewrite Hd. }
      apply map_ext_in. intros q Hq. apply elem_of_list_In, in_lfilter in Hq as [_ Hq].
      rewrite in_slice_decide in Hq. by destruct (bool_decide (q ∈ pkgs)).
  - apply eq_subrelation; [apply _|]. apply map_ext_in. intros q Hq. apply elem_of_list_In in Hq. by rewrite Hd.
Qed.

(** ** Suggestions *)

Lemma types_names (l : list (source_type * gmap string desc)) (s : gset string) p :
  p ∈ fold_left (fun (s : gset string) tm => s ∪ dom (D := gset string) tm.2) l s <-> p ∈ s \/ exists tm, tm ∈ l /\ is_Some (tm.2 !! p).
Proof.
  revert s. induction l as [|tm l IH]; intros s; cbn [fold_left].
  - split; [by left|]. intros [H|(tm & H & _)]; [done|by apply elem_of_nil in H].
  - rewrite IH, elem_of_union, elem_of_dom. split.
    + intros [[H|H]|(x & H & H')]; [by left|right; exists tm; split; [by left|done]|right; exists x; split; [by right|done]].
    + intros [H|(x & [-> |H]%elem_of_cons & H')]; [by left; left|by left; right|right; by exists x].
Qed.

Lemma all_names nx p : p ∈ all_names_set nx <-> exists db tm, db ∈ nx_db nx /\ tm ∈ db_types db /\ is_Some (tm.2 !! p).
Proof.
  unfold all_names_set.
  assert (forall (dbs : list repo_db) (s : gset string),
    p ∈ fold_left (fun (s : gset string) db => fold_left (fun (s : gset string) tm => s ∪ dom (D := gset string) tm.2) (db_types db) s) dbs s <->
    p ∈ s \/ exists db tm, db ∈ dbs /\ tm ∈ db_types db /\ is_Some (tm.2 !! p)) as H.
  { induction dbs as [|db dbs IH]; intros s; cbn [fold_left].
    - split; [by left|]. intros [H|(db & tm & H & _)]; [done|by apply elem_of_nil in H].
    - rewrite IH, types_names. split.
      + intros [[H|(tm & H)]|(d & tm & H & H')]; [by left|right; exists db, tm; split; [by left|done]|right; exists d, tm; split; [by right|done]].
      + intros [H|(d & tm & [-> |H]%elem_of_cons & H')]; [by left; left|left; right; by exists tm|right; by exists d, tm]. }
  rewrite H. split; [intros [H'|H']; [by apply elem_of_empty in H'|done]|by right].
Qed.

Lemma known_names nx p : p ∈ all_names_set nx <-> known_word nx p.
Proof.
  rewrite all_names. unfold known_word. split.
  - intros (db & [st m] & H1 & H2 & H3). by exists db, st, m.
  - intros (db & st & m & H1 & H2 & H3). by exists db, (st, m).
Qed.

Lemma ignored_unknown nx l p : known_word (ignore_packages nx l) p <-> known_word nx p /\ p ∉ l.
Proof.
  unfold ignore_packages. revert nx. induction l as [|x l IH]; intros nx; cbn [fold_left].
  - split; [|by intros [? _]]. intros H. split; [done|by intros ?%elem_of_nil].
  - rewrite IH, not_elem_of_cons. unfold known_word, ignore_package. cbn [nx_db]. split.
    + intros ((db & st & m & H1 & H2 & H3) & Hl). apply elem_of_list_fmap in H1 as (db0 & -> & H0). cbn [db_types] in H2.
      apply elem_of_list_fmap in H2 as ([st0 m0] & [= -> ->] & H2). cbn [fst snd] in H3.
      destruct (decide (p = x)) as [-> |Hx]; [rewrite lookup_delete in H3; by destruct H3|].
      rewrite lookup_delete_ne in H3 by congruence. split; [|done]. by exists db0, st0, m0.
    + intros ((db & st & m & H1 & H2 & H3) & Hx & Hl). split; [|done].
      eexists. exists st, (delete x m). split; [apply elem_of_list_fmap; exists db; split; [reflexivity|done]|].
      split; [apply elem_of_list_fmap; by exists (st, m)|]. by rewrite lookup_delete_ne.
Qed.

Lemma available_known nx p : available nx p -> known_word nx p.
Proof.
  intros (d & c & E). apply get_package_spec in E as (l1 & db & l2 & E & (_ & _ & (m & (a & b & Et & _) & Hm)) & _).
  exists db. eexists. exists m. split; [rewrite E; apply elem_of_app; right; by left|]. split; [rewrite Et; apply elem_of_app; right; by left|by eexists].
Qed.

Lemma origin_tells pkgs dl : tells pkgs dl (origin_of (bool_decide (d_package (dl_package dl) ∈ pkgs)) dl).
Proof. split; [done|]. split; [done|]. split; [done|]. split; [done|]. cbn [origin_of og_user]. by rewrite bool_decide_eq_true. Qed.

(** The lines as a set, also when the request names a package twice. *)
Lemma origins_set nx nr o pkgs pre cfg update le ip l :
  nexus_ok nx -> ~ available nx "R" -> oracle_ok o -> standard_config nr cfg ->
  (forall p, p ∈ pkgs -> available nx p) ->
  resolve_installation_reqs o pkgs pre cfg nx update le nr = PlanOk ip ->
  l ∈ origin_lines nx pkgs ip <->
  exists dl, dl ∈ ip_downloads ip /\ l = origin_of (bool_decide (d_package (dl_package dl) ∈ pkgs)) dl.
Proof.
  intros H1 H2 H3 H4 H5 E.
  destruct (plan_downloads nx nr o pkgs pre cfg update le H1 H2 H3 H4 H5 ip E) as (D & D2 & _).
  destruct (plan_closure nx nr o pkgs pre cfg update le H1 H2 H3 H4 H5 ip E) as (Hc & Hnd).
  change (ip_downloads ip ≡ₚ map (dl_for nx) (planned_names ip)) in D.
  unfold origin_lines, log_user_repos, log_dependency_repos. cbn [get_packages ap_packages].
  change (map (fun p => let '(d, c, _) := get_package_go nx p in PkgDl c d) pkgs) with (map (dl_for nx) pkgs).
  rewrite elem_of_app, !elem_of_list_fmap. split.
  - intros [(dl & -> & Hdl)|(dl & -> & Hdl)].
    + apply elem_of_list_fmap in Hdl as (p & -> & Hp). exists (dl_for nx p). split.
      * rewrite D. apply elem_of_list_fmap_1. assert (planned ip p) as [H|[v H]].
        { apply Hc. exists p. split; [done|]. apply rtc_refl. }
        -- unfold planned_names. apply elem_of_app. by left.
        -- unfold planned_names. apply elem_of_app. right. apply elem_of_list_fmap. exists (p, v). split; [done|]. by apply elem_of_map_to_list.
      * rewrite dl_for_name by auto. by rewrite bool_decide_eq_true_2.
    + apply in_lfilter in Hdl as [Hdl Hn]. exists dl. split; [done|]. rewrite in_slice_decide in Hn.
      by destruct (bool_decide (d_package (dl_package dl) ∈ pkgs)).
  - intros (dl & Hdl & ->). destruct (decide (d_package (dl_package dl) ∈ pkgs)) as [Hin|Hout].
    + left. exists dl. rewrite bool_decide_eq_true_2 by done. split; [done|]. apply elem_of_list_fmap.
      exists (d_package (dl_package dl)). split; [|done]. unfold dl_for, get_package_go. rewrite (D2 dl Hdl). by destruct dl.
    + right. exists dl. rewrite bool_decide_eq_false_2 by done. split; [done|]. apply in_lfilter. split; [done|].
      rewrite in_slice_decide. by rewrite bool_decide_eq_false_2.
Qed.

Lemma exists_in_repo p dbs : pkg_exists_in_repo p dbs = true <-> exists st m, (st, m) ∈ dbs /\ is_Some (m !! p).
Proof.
  induction dbs as [|[st m] l IH]; cbn [pkg_exists_in_repo snd].
  - split; [done|]. by intros (st & m & H & _); apply elem_of_nil in H.
  - unfold pkg_exists. destruct (m !! p) as [d|] eqn:E.
    + split; [|done]. intros _. exists st, m. split; [by left|by eexists].
    + rewrite IH. split; intros (st' & m' & H & Hs); exists st', m'; (split; [|done]); [by right|].
      apply elem_of_cons in H as [[= -> ->]|H]; [|done]. rewrite E in Hs. by destruct Hs.
Qed.

Lemma from_repo_sound nx p repo d c : get_package_from_repo nx p repo = Some (d, c) ->
  exists db, db ∈ nx_db nx /\ (repo = "" \/ ru_name (db_repo db) = repo) /\ pc_repo c = db_repo db /\
    descs_of (db_types db) (pc_type c) !! p = Some d.
Proof.
  unfold get_package_from_repo. set (st := match _ with Some c => pc_type c | None => _ end). generalize st. clear st. intros st.
  induction (nx_db nx) as [|db l IH]; cbn [get_package_from_repo_loop]; [done|].
  assert (get_package_from_repo_loop st p repo l = Some (d, c) -> exists db', db' ∈ db :: l /\ (repo = "" \/ ru_name (db_repo db') = repo) /\
    pc_repo c = db_repo db' /\ descs_of (db_types db') (pc_type c) !! p = Some d) as IH'.
  { intros H. destruct (IH H) as (db' & Hd & Hr). exists db'. split; [by right|done]. }
  destruct (negb (String.eqb repo "") && negb (String.eqb (ru_name (db_repo db)) repo)) eqn:Er; [exact IH'|].
  destruct (descs_of (db_types db) st !! p) as [d'|] eqn:E; [|exact IH'].
  intros [= <- <-]. exists db. split; [by left|]. split; [|by split].
  destruct (String.eqb_spec repo ""); [by left|]. destruct (String.eqb_spec (ru_name (db_repo db)) repo); [by right|done].
Qed.
