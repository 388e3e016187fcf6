From stdpp Require Import strings list gmap relations sorting.
From Coq Require Import Ascii ZArith Lia.
From Verif.model Require Import GoStr Version Desc Nexus Pacman Graph RepoDb Plan.
From Verif.spec Require Import VersionSpec RepoSpec GraphSpec PlanSpec.
From Verif.proofs Require Import RepoProofs FetchProofs GraphProofs LayerProofs PlanProofs PlanProps.

Local Open Scope string_scope.

(** ** Customizations *)
Lemma is_customization_set_spec k cs p :
  is_customization_set k cs p = true <-> exists c, (p, c) ∈ concat cs /\ k ∈ cu_keys c.
Proof.
  unfold is_customization_set. rewrite existsb_exists. split.
  - intros (m & Hm & H). apply existsb_exists in H as ([q c] & Hq & H). cbn in H.
    apply andb_true_iff in H as [->%String.eqb_eq H]. apply existsb_elem in H.
    exists c. split; [|done]. apply elem_of_list_In, in_concat. by exists m.
  - intros (c & H & Hk). apply elem_of_list_In, in_concat in H as (m & Hm & H). exists m. split; [done|].
    apply existsb_exists. exists (p, c). split; [done|]. cbn. rewrite String.eqb_refl. by apply existsb_elem.
Qed.

Lemma setting_concat {A} k (f : custom -> A) cs p v :
  setting k f cs p v <-> exists c, (p, c) ∈ concat cs /\ k ∈ cu_keys c /\ f c = v.
Proof.
  unfold setting. split.
  - intros (m & c & H1 & H2 & H3). exists c. split; [|done]. apply elem_of_list_In, in_concat.
    exists m. rewrite <- !elem_of_list_In. done.
  - intros (c & H & H3). apply elem_of_list_In, in_concat in H as (m & H1 & H2).
    exists m, c. apply elem_of_list_In in H1, H2. done.
Qed.

Lemma config_for_set p b cfg q :
  config_for (set_suggests p b cfg) q =
  if decide (q = p) then with_suggests (id_default cfg) b else config_for cfg q.
Proof.
  unfold config_for, set_suggests. cbn [id_deps id_default]. case_decide as E.
  - subst. by rewrite lookup_insert.
  - by rewrite lookup_insert_ne by congruence.
Qed.

Lemma set_cfg_spec sug pkgs cfg : 
  id_default (set_cfg_customizations sug pkgs cfg) = id_default cfg /\
  forall q, config_for (set_cfg_customizations sug pkgs cfg) q =
    if decide (sug = true /\ q ∈ pkgs) then with_suggests (id_default cfg) true else config_for cfg q.
Proof.
  unfold set_cfg_customizations. destruct sug.
  2:{ split; [done|]. intros q. by rewrite decide_False by (by intros [? _]). }
  revert cfg. induction pkgs as [|p pkgs IH]; intros cfg; cbn [fold_left].
  - split; [done|]. intros q. rewrite decide_False; [done|]. intros [_ H]. by apply elem_of_nil in H.
  - destruct (IH (set_suggests p true cfg)) as [H1 H2]. split; [by rewrite H1|]. intros q.
    rewrite H2, config_for_set. cbn [set_suggests id_default].
    destruct (decide (true = true /\ q ∈ pkgs)) as [[_ Hq]|Hq], (decide (q = p)) as [Hp|Hp],
      (decide (true = true /\ q ∈ p :: pkgs)) as [N|N]; try done; exfalso.
    + apply N. split; [done|]. by right.
    + apply N. split; [done|]. by right.
    + apply N. subst. split; [done|]. by left.
    + destruct N as [_ [?|?]%elem_of_cons]; [done|]. by apply Hq.
Qed.

(** One pass over the entries, for packages customized at most once. *)
Lemma apply_custom_db cs kv cfg nx cfg' nx' :
  apply_custom cs kv (cfg, nx) = Some (cfg', nx') ->
  nx_db nx' = nx_db nx /\ nx_default nx' = nx_default nx /\ id_default cfg' = id_default cfg /\
  (forall q, q <> kv.1 -> nx_packages nx' !! q = nx_packages nx !! q).
Proof.
  destruct kv as [p v]. cbn [apply_custom fst].
  destruct (is_customization_set "Suggests" cs p), (is_customization_set "Repo" cs p),
    (is_customization_set "Type" cs p); unfold set_package_repo, set_package_type;
    try (destruct (find_repo _ _); [|done]); try (destruct (set_type _); [|done]);
    intros [= <- <-]; cbn; repeat (split; [done|]); intros q Hq;
    rewrite ?lookup_insert_ne by congruence; done.
Qed.

Lemma apply_custom_cfg cs p v cfg nx cfg' nx' q :
  apply_custom cs (p, v) (cfg, nx) = Some (cfg', nx') ->
  config_for cfg' q =
  if decide (q = p /\ is_customization_set "Suggests" cs p = true)
  then with_suggests (id_default cfg) (cu_suggests v) else config_for cfg q.
Proof.
  cbn [apply_custom]. intros E.
  assert (cfg' = if is_customization_set "Suggests" cs p then set_suggests p (cu_suggests v) cfg else cfg) as ->.
  { destruct (if is_customization_set "Repo" cs p then _ else _) as [nx1|]; [|done].
    destruct (if is_customization_set "Type" cs p then _ else _) as [nx2|]; [|done].
    by injection E as <- <-. }
  destruct (is_customization_set "Suggests" cs p).
  - rewrite config_for_set. destruct (decide (q = p)); [rewrite decide_True|rewrite decide_False]; try done.
    by intros [? _].
  - by rewrite decide_False by (by intros [_ ?]).
Qed.

Lemma apply_customs_spec cs l cfg nx cfg' nx' :
  apply_customs cs l (cfg, nx) = Some (cfg', nx') -> NoDup l.*1 ->
  nx_db nx' = nx_db nx /\ nx_default nx' = nx_default nx /\ id_default cfg' = id_default cfg /\
  (forall q, q ∉ l.*1 -> nx_packages nx' !! q = nx_packages nx !! q /\ config_for cfg' q = config_for cfg q) /\
  (forall q v, (q, v) ∈ l -> config_for cfg' q =
     if is_customization_set "Suggests" cs q then with_suggests (id_default cfg) (cu_suggests v)
     else config_for cfg q).
Proof.
  revert cfg nx. induction l as [|[p v] l IH]; intros cfg nx E Hnd; cbn [apply_customs] in E.
  - injection E as <- <-. repeat (split; [done|]). intros q v H. by apply elem_of_nil in H.
  - destruct (apply_custom cs (p, v) (cfg, nx)) as [[cfg1 nx1]|] eqn:E1; [|done].
    cbn [fmap list_fmap fst] in Hnd. apply NoDup_cons in Hnd as [Hp Hnd].
    destruct (IH cfg1 nx1 E Hnd) as (A1 & A2 & A3 & A4 & A5).
    destruct (apply_custom_db _ _ _ _ _ _ E1) as (B1 & B2 & B3 & B4).
    pose proof (fun q => apply_custom_cfg _ _ _ _ _ _ _ q E1) as C.
    split; [by rewrite A1|]. split; [by rewrite A2|]. split; [by rewrite A3|]. split.
    + intros q Hq. cbn [fmap list_fmap fst] in Hq. apply not_elem_of_cons in Hq as [Hq1 Hq2].
      destruct (A4 q Hq2) as [-> ->]. rewrite B4 by done. rewrite C. split; [done|].
      rewrite decide_False; [done|]. by intros [? _].
    + intros q w Hq. apply elem_of_cons in Hq as [[= -> ->]|Hq].
      * destruct (A4 p Hp) as [_ ->]. rewrite C. destruct (is_customization_set "Suggests" cs p).
        -- by rewrite decide_True.
        -- by rewrite decide_False by (by intros [_ ?]).
      * rewrite (A5 q w Hq), B3. case_match; [done|]. rewrite C. rewrite decide_False; [done|].
        intros [-> _]. apply Hp. apply elem_of_list_fmap. by exists (p, w).
Qed.

(** Without the distinctness assumption. *)
Lemma apply_customs_frame cs l cfg nx cfg' nx' nr :
  apply_customs cs l (cfg, nx) = Some (cfg', nx') ->
  standard_config nr cfg -> pd_depends (id_default cfg) = true -> pd_imports (id_default cfg) = true ->
  pd_linkingto (id_default cfg) = true -> pd_no_recommended (id_default cfg) = nr ->
  nx_db nx' = nx_db nx /\ standard_config nr cfg'.
Proof.
  revert cfg nx. induction l as [|[p v] l IH]; intros cfg nx E Hs D1 D2 D3 D4; cbn [apply_customs] in E.
  - by injection E as <- <-.
  - destruct (apply_custom cs (p, v) (cfg, nx)) as [[cfg1 nx1]|] eqn:E1; [|done].
    destruct (apply_custom_db _ _ _ _ _ _ E1) as (B1 & B2 & B3 & B4).
    destruct (IH cfg1 nx1 E) as [A1 A2]; rewrite ?B3; try done.
    + intros q. rewrite settings_config, (apply_custom_cfg _ _ _ _ _ _ _ q E1).
      case_decide; [|rewrite <- settings_config; apply Hs].
      destruct (id_default cfg). simpl in *. by subst.
    + split; [by rewrite A1|done].
Qed.

Lemma plan_customizations_frame sug pkgs cs nr nx cfg' nx' :
  set_plan_customizations sug pkgs cs (default_config nr) nx = Some (cfg', nx') ->
  nx_db nx' = nx_db nx /\ standard_config nr cfg'.
Proof.
  intros E. unfold set_plan_customizations in E.
  destruct (set_cfg_spec sug pkgs (default_config nr)) as [H1 H2].
  apply (apply_customs_frame _ _ _ _ _ _ nr) in E; rewrite ?H1; try done.
  intros q. rewrite settings_config, H2.
  destruct (decide (sug = true /\ q ∈ pkgs)); [|rewrite <- settings_config; apply default_config_standard].
  cbn. done.
Qed.

Lemma suggests_settings sug pkgs cs nr nx cfg' nx' : customs_distinct cs ->
  set_plan_customizations sug pkgs cs (default_config nr) nx = Some (cfg', nx') ->
  forall p,
    (forall b, setting "Suggests" cu_suggests cs p b -> pd_suggests (settings_for cfg' p) = b) /\
    ((forall b, ~ setting "Suggests" cu_suggests cs p b) ->
       (pd_suggests (settings_for cfg' p) = true <-> sug = true /\ p ∈ pkgs)).
Proof.
  intros Hd E p. rewrite settings_config. unfold set_plan_customizations in E.
  destruct (set_cfg_spec sug pkgs (default_config nr)) as [H1 H2].
  destruct (apply_customs_spec _ _ _ _ _ _ E Hd) as (_ & _ & _ & A & B). split.
  - intros b Hb. apply setting_concat in Hb as (c & Hc & Hk & <-). rewrite (B p c Hc).
    rewrite (proj2 (is_customization_set_spec "Suggests" cs p)); [done|]. by exists c.
  - intros Hn. assert (config_for cfg' p = config_for (set_cfg_customizations sug pkgs (default_config nr)) p) as ->.
    { destruct (decide (p ∈ (concat cs).*1)) as [Hp|Hp]; [|by apply A].
      apply elem_of_list_fmap in Hp as ([q c] & -> & Hc). cbn [fst] in *. rewrite (B q c Hc).
      destruct (is_customization_set "Suggests" cs q) eqn:Es; [|done].
      apply is_customization_set_spec in Es as (c' & Hc' & Hk). exfalso.
      apply (Hn (cu_suggests c')). apply setting_concat. by exists c'. }
    rewrite H2. destruct (decide (sug = true /\ p ∈ pkgs)) as [D|D]; [done|].
    unfold config_for, default_config. cbn [id_deps id_default]. rewrite lookup_empty. cbn. by split.
Qed.

(** Pins. *)
Lemma apply_customs_pins cs l cfg nx cfg' nx' :
  apply_customs cs l (cfg, nx) = Some (cfg', nx') -> NoDup l.*1 ->
  forall q v, (q, v) ∈ l ->
    (is_customization_set "Repo" cs q = true ->
       exists db c, db ∈ nx_db nx /\ ru_name (db_repo db) = cu_repo v /\
         nx_packages nx' !! q = Some c /\ pc_repo c = db_repo db) /\
    (is_customization_set "Type" cs q = true ->
       exists st c, set_type (cu_type v) = Some st /\ nx_packages nx' !! q = Some c /\ pc_type c = st).
Proof.
  revert cfg nx. induction l as [|[p v] l IH]; intros cfg nx E Hnd q w Hq; cbn [apply_customs] in E.
  { by apply elem_of_nil in Hq. }
  destruct (apply_custom cs (p, v) (cfg, nx)) as [[cfg1 nx1]|] eqn:E1; [|done].
  cbn [fmap list_fmap fst] in Hnd. apply NoDup_cons in Hnd as [Hp Hnd].
  destruct (apply_custom_db _ _ _ _ _ _ E1) as (B1 & B2 & B3 & B4).
  apply elem_of_cons in Hq as [[= -> ->]|Hq].
  2:{ destruct (IH cfg1 nx1 E Hnd q w Hq) as [I1 I2]. rewrite B1 in I1. done. }
  destruct (apply_customs_spec _ _ _ _ _ _ E Hnd) as (_ & _ & _ & A & _).
  destruct (A p Hp) as [-> _]. clear -E1. cbn [apply_custom] in E1.
  destruct (is_customization_set "Repo" cs p).
  - unfold set_package_repo in E1. destruct (find_repo (nx_db nx) (cu_repo v)) as [db|] eqn:F; [|done].
    apply find_repo_spec in F as [F1 F2]. destruct (is_customization_set "Type" cs p).
    + unfold set_package_type in E1. destruct (set_type (cu_type v)) as [st|] eqn:T; [|done].
      injection E1 as <- <-. cbn [nx_packages]. split; intros _.
      * eexists db, _. rewrite lookup_insert. split; [done|]. split; [done|]. split; [done|].
        cbn [pc_repo]. rewrite lookup_insert. done.
      * eexists st, _. rewrite lookup_insert. done.
    + injection E1 as <- <-. cbn [nx_packages]. split; [|done]. intros _.
      eexists db, _. by rewrite lookup_insert.
  - split; [done|]. intros T. rewrite T in E1. unfold set_package_type in E1.
    destruct (set_type (cu_type v)) as [st|] eqn:T'; [|done]. injection E1 as <- <-. cbn [nx_packages].
    eexists st, _. by rewrite lookup_insert.
Qed.

Lemma pins_settings sug pkgs cs nr nx cfg' nx' : customs_distinct cs ->
  set_plan_customizations sug pkgs cs (default_config nr) nx = Some (cfg', nx') ->
  (forall p repo, setting "Repo" cu_repo cs p repo -> repo <> "" ->
     forall d c, get_package nx' p = Some (d, c) -> ru_name (pc_repo c) = repo) /\
  (forall p t, setting "Type" cu_type cs p t ->
     exists st, set_type t = Some st /\ forall d c, get_package nx' p = Some (d, c) -> pc_type c = st) /\
  (forall p, p ∉ (concat cs).*1 -> get_package nx' p = get_package nx p).
Proof.
  intros Hd E. unfold set_plan_customizations in E.
  pose proof (apply_customs_pins _ _ _ _ _ _ E Hd) as P.
  destruct (apply_customs_spec _ _ _ _ _ _ E Hd) as (B1 & B2 & _ & A & _). split; [|split].
  - intros p repo Hs Hr d c Hg. apply setting_concat in Hs as (v & Hv & Hk & <-).
    destruct (P p v Hv) as [P1 _]. destruct P1 as (db & c' & _ & Hn & Hc' & Hp).
    { apply is_customization_set_spec. by exists v. }
    apply get_package_spec in Hg as (l1 & db' & l2 & _ & (_ & Ha & _) & -> & _).
    specialize (Ha c' Hc'). rewrite Hp, Hn in Ha. symmetry. by apply Ha.
  - intros p t Hs. apply setting_concat in Hs as (v & Hv & Hk & <-).
    destruct (P p v Hv) as [_ P1]. destruct P1 as (st & c' & Hst & Hc' & Ht).
    { apply is_customization_set_spec. by exists v. }
    exists st. split; [done|]. intros d c Hg.
    apply get_package_spec in Hg as (l1 & db' & l2 & _ & (Hw & _) & _).
    unfold wanted_type in Hw. rewrite Hc' in Hw. rewrite Ht in Hw.
    destruct Hw as [[_ ->]|[-> _]]; [done|]. exfalso. by apply (set_type_not_default (cu_type v) STDefault).
  - intros p Hp. destruct (A p Hp) as [Hpk _]. unfold get_package. rewrite Hpk, B1, B2.
    assert (forall st ex dbs, get_package_loop (nx_packages nx') p st ex dbs =
      get_package_loop (nx_packages nx) p st ex dbs) as L.
    { intros st ex dbs. induction dbs as [|db dbs IH]; [done|]. cbn [get_package_loop].
      unfold is_correct_repo. rewrite Hpk. case_match; [|done]. case_match; [done|]. apply IH. }
    destruct (nx_packages nx !! p); by rewrite L.
Qed.

(** ** Availability under the settings *)
Lemma no_record_db nx nx' p : nx_db nx' = nx_db nx -> no_record nx p -> no_record nx' p.
Proof. unfold no_record. by intros ->. Qed.

Lemma nexus_ok_db nx nx' : nx_db nx' = nx_db nx -> nexus_ok nx -> nexus_ok nx'.
Proof. unfold nexus_ok. by intros ->. Qed.

Lemma ignore_db_lookup nx l p db st :
  db ∈ nx_db (ignore_packages nx l) ->
  exists db0, db0 ∈ nx_db nx /\ descs_of (db_types db) st !! p =
    if decide (p ∈ l) then None else descs_of (db_types db0) st !! p.
Proof.
  unfold ignore_packages. revert nx. induction l as [|x l IH]; intros nx H; cbn [fold_left] in H.
  - exists db. split; [done|]. rewrite decide_False; [done|]. intros ?%elem_of_nil. done.
  - destruct (IH _ H) as (db1 & H1 & E1). unfold ignore_package in H1. cbn [nx_db] in H1.
    apply elem_of_list_fmap in H1 as (db0 & -> & H0). exists db0. split; [done|]. rewrite E1.
    cbn [db_types]. rewrite descs_of_delete.
    destruct (decide (p ∈ l)).
    + rewrite decide_True; [done|by right].
    + destruct (decide (p = x)) as [->|].
      * rewrite lookup_delete, decide_True; [done|by left].
      * rewrite lookup_delete_ne by congruence. rewrite decide_False; [done|].
        intros [?|?]%elem_of_cons; done.
Qed.

Lemma nexus_ok_ignore nx l : nexus_ok nx -> nexus_ok (ignore_packages nx l).
Proof.
  intros H db st p d Hdb Hl. destruct (ignore_db_lookup nx l p db st Hdb) as (db0 & H0 & E).
  apply descs_record in Hl. rewrite E in Hl. case_decide; [done|]. apply descs_record in Hl. by eapply H.
Qed.

Lemma no_record_ignore nx l p : (p ∈ l \/ no_record nx p) -> no_record (ignore_packages nx l) p.
Proof.
  intros H db st d Hdb. apply descs_no_record. destruct (ignore_db_lookup nx l p db st Hdb) as (db0 & H0 & E).
  rewrite E. case_decide; [done|]. destruct H as [|H]; [done|]. apply descs_no_record. intros d'. by apply H.
Qed.

(** ** The request *)
Lemma add_new_spec names pkgs p : p ∈ add_new pkgs names <-> p ∈ pkgs \/ p ∈ names.
Proof.
  unfold add_new. revert pkgs. induction names as [|n names IH]; intros pkgs; cbn [fold_left].
  - split; [by left|]. intros [|H]; [done|]. by apply elem_of_nil in H.
  - rewrite IH. destruct (existsb (String.eqb n) pkgs) eqn:E.
    + apply existsb_elem in E. split; [intros [|]; [by left|right; by right]|].
      intros [|[->|]%elem_of_cons]; [by left|by left|by right].
    + rewrite elem_of_app, elem_of_list_singleton, elem_of_cons. tauto.
Qed.

Lemma add_new_nodup names pkgs : NoDup pkgs -> NoDup (add_new pkgs names).
Proof.
  unfold add_new. revert pkgs. induction names as [|n names IH]; intros pkgs H; cbn [fold_left]; [done|].
  destruct (existsb (String.eqb n) pkgs) eqn:E; [by apply IH|]. apply IH, NoDup_app. split; [done|]. split.
  - intros x Hx ->%elem_of_list_singleton. apply not_true_iff_false in E. apply E. by apply existsb_elem.
  - apply NoDup_singleton.
Qed.

Lemma dep_names_spec m p : deps_ok m -> p ∈ dep_names m <-> is_Some (m !! p).
Proof.
  intros H. unfold dep_names. rewrite elem_of_list_fmap. split.
  - intros ([k v] & -> & Hk). apply elem_of_map_to_list in Hk. cbn. rewrite (H k v Hk). eauto.
  - intros [v Hv]. exists (p, v). split; [cbn [snd]; by rewrite (H p v Hv)|]. by apply elem_of_map_to_list.
Qed.

Lemma combined_ok d sug : desc_deps_ok d -> deps_ok (get_combined_dependencies d sug).
Proof.
  intros (H1 & H2 & H3 & _) k v. unfold get_combined_dependencies.
  destruct sug; rewrite ?lookup_union_Some_raw; intros H; destruct_and?; naive_solver.
Qed.

Lemma combined_spec d sug p : is_Some (get_combined_dependencies d sug !! p) <->
  listed_in d p \/ (sug = true /\ is_Some (d_suggests d !! p)).
Proof.
  unfold get_combined_dependencies, listed_in.
  destruct sug; rewrite <- !(elem_of_dom (D := gset string)), ?dom_union_L, ?elem_of_union; naive_solver.
Qed.

Lemma add_desc_deps_spec o sug i descs pkgs p : oracle_ok o -> Forall desc_deps_ok descs ->
  p ∈ add_desc_deps o sug i descs pkgs <->
  p ∈ pkgs \/ exists d, d ∈ descs /\ (listed_in d p \/ (sug = true /\ is_Some (d_suggests d !! p))).
Proof.
  intros Ho H. revert i pkgs. induction H as [|d descs Hd H IH]; intros i pkgs; cbn [add_desc_deps].
  - split; [by left|]. intros [|(d & Hd & _)]; [done|]. by apply elem_of_nil in Hd.
  - rewrite IH, add_new_spec, (ask_perm _ _ (sub_ok o i Ho)), dep_names_spec, combined_spec by by apply combined_ok.
    split.
    + intros [[|Hc]|(d' & Hd' & Hc)]; [by left|right; exists d; split; [by left|done]|].
      right. exists d'. split; [by right|done].
    + intros [|(d' & [->|Hd']%elem_of_cons & Hc)]; [by left; left|left; by right|]. right. by exists d'.
Qed.

Lemma default_base p : default_packages p = Some KBase <-> p ∈ r_base.
Proof.
  rewrite <- base_spec. unfold default_packages. destruct (existsb (String.eqb p) base_packages) eqn:E.
  - split; [|done]. intros _. by apply existsb_elem.
  - apply not_true_iff_false in E. rewrite existsb_elem in E.
    split; [|done]. destruct (existsb _ recommended_packages); done.
Qed.

Lemma plan_request_spec o cfg tarballs descriptions p : oracle_ok o ->
  Forall desc_deps_ok tarballs -> Forall desc_deps_ok descriptions ->
  p ∈ plan_request o cfg tarballs descriptions <->
  wanted cfg tarballs descriptions p /\ p ∉ r_base.
Proof.
  intros Ho Ht Hd. unfold plan_request, remove_base_packages, wanted.
  rewrite elem_of_list_In, filter_In, <- elem_of_list_In.
  rewrite (add_desc_deps_spec _ true _ _ _ _ (sub_ok o 1 Ho) Hd).
  rewrite (add_desc_deps_spec _ false _ _ _ _ (sub_ok o 0 Ho) Ht).
  assert ((match default_packages p with Some KBase => false | _ => true end) = true <-> p ∉ r_base) as ->.
  { rewrite <- default_base. destruct (default_packages p) as [[]|]; naive_solver. }
  naive_solver.
Qed.

(** ** The whole of [planInstall] *)
Section install.
  Context (o : oracle) (cfg : plan_config) (nx : nexus) (tarballs descriptions : list desc)
    (installed : gmap string desc) (le : bool).
  Context (Ho : oracle_ok o) (Hnx : nexus_ok nx) (HR : no_record nx "R").

  Let result := plan_install o cfg nx tarballs descriptions installed le.
  Let pkgs := plan_request (sub o 0) cfg tarballs descriptions.
  Let nr := cf_no_recommended cfg.

  Lemma plan_install_cases :
    (set_plan_customizations (cf_suggests cfg) (cf_packages cfg) (cf_customs cfg) (default_config nr)
       (ignore_packages nx (cf_ignore cfg)) = None /\ result = PIFatal) \/
    exists deps nx', set_plan_customizations (cf_suggests cfg) (cf_packages cfg) (cf_customs cfg)
        (default_config nr) (ignore_packages nx (cf_ignore cfg)) = Some (deps, nx') /\
      nexus_ok nx' /\ ~ available nx' "R" /\ standard_config nr deps /\
      (forall p, p ∈ cf_ignore cfg -> ~ available nx' p) /\
      ((exists p, p ∈ pkgs /\ ~ available nx' p) /\
         result = PIMissing (ap_missing (get_packages nx' pkgs)) \/
       (forall p, p ∈ pkgs -> available nx' p) /\
         result = match resolve_installation_reqs (sub o 1) pkgs installed deps nx'
                          (negb (cf_no_update cfg)) le nr with
                  | PlanOk p => PIPlan nx' p
                  | PlanError => PIPanic | PlanPanic => PIPanic | PlanOutOfFuel => PIOutOfFuel
                  end).
  Proof.
    unfold result, plan_install. cbv zeta. fold nr pkgs.
    destruct (set_plan_customizations _ _ _ _ _) as [[deps nx']|] eqn:E; [|by left]. right.
    exists deps, nx'. split; [done|]. destruct (plan_customizations_frame _ _ _ _ _ _ _ E) as [F1 F2].
    split; [by apply (nexus_ok_db _ _ F1), nexus_ok_ignore|].
    split; [apply no_record_unavailable, (no_record_db _ _ _ F1), no_record_ignore; by right|].
    split; [done|]. split.
    { intros p Hp. apply no_record_unavailable, (no_record_db _ _ _ F1), no_record_ignore. by left. }
    assert (forall p, p ∈ ap_missing (get_packages nx' pkgs) <-> p ∈ pkgs /\ ~ available nx' p) as M.
    { intros p. cbn [get_packages ap_missing]. rewrite elem_of_list_In, filter_In, <- elem_of_list_In.
      unfold get_package_go, available, offered. destruct (get_package nx' p) as [[d c]|]; cbn; naive_solver. }
    destruct (ap_missing (get_packages nx' pkgs)) as [|m ms] eqn:Em.
    - right. split; [|done]. intros p Hp. destruct (available_dec nx' p) as [|N]; [done|]. exfalso.
      assert (p ∈ @nil string) as Hx; [|by apply elem_of_nil in Hx].
      apply M. split; [done|]. intros (d & c & Ed). congruence.
    - left. split; [|done]. exists m. apply M. by left.
  Qed.

  Lemma plan_install_spec nx' ip : result = PIPlan nx' ip ->
    Forall desc_deps_ok tarballs -> Forall desc_deps_ok descriptions ->
    exists deps, set_plan_customizations (cf_suggests cfg) (cf_packages cfg) (cf_customs cfg)
        (default_config nr) (ignore_packages nx (cf_ignore cfg)) = Some (deps, nx') /\
    (forall q, planned ip q <-> exists p, wanted cfg tarballs descriptions p /\ p ∉ r_base /\
       rtc (pulls deps nx') p q) /\
    NoDup (planned_names ip) /\
    (forall q, planned ip q -> available nx' q /\ q ∉ cf_ignore cfg) /\
    (forall dl, dl ∈ ip_downloads ip ->
       get_package nx' (d_package (dl_package dl)) = Some (dl_package dl, dl_config dl)).
  Proof.
    intros E Ht Hd. destruct plan_install_cases as [[_ H]|(deps & nx1 & Es & H1 & H2 & H3 & H4 & H5)]; [congruence|].
    destruct H5 as [[_ H5]|[Hav H5]]; [congruence|]. rewrite E in H5.
    destruct (resolve_installation_reqs _ _ _ _ _ _ _ _) as [ip'| | |] eqn:Er; try done.
    injection H5 as -> ->. exists deps. split; [done|].
    destruct (plan_closure _ _ _ _ _ _ _ _ H1 H2 (sub_ok o 1 Ho) H3 Hav _ Er) as [C1 C2].
    destruct (plan_downloads _ _ _ _ _ _ _ _ H1 H2 (sub_ok o 1 Ho) H3 Hav _ Er) as (_ & D & _).
    split; [|split; [done|split; [|done]]].
    - intros q. rewrite C1. unfold closure, pkgs.
      pose proof (fun p => plan_request_spec (sub o 0) cfg tarballs descriptions p (sub_ok o 0 Ho) Ht Hd) as P.
      split; intros (p & Hp & Hr).
      + apply P in Hp as [Hp1 Hp2]. by exists p.
      + destruct Hr as [Hb Hr]. exists p. split; [by apply P|done].
    - intros q Hq. apply C1 in Hq. assert (available nx1 q) as Ha by (by eapply closure_available).
      split; [done|]. intros Hi. by apply (H4 q).
  Qed.

  Lemma plan_install_ignores nx' ip p : result = PIPlan nx' ip -> p ∈ cf_ignore cfg -> ~ planned ip p.
  Proof.
    intros E Hp Hpl. destruct plan_install_cases as [[_ H]|(deps & nx1 & Es & H1 & H2 & H3 & H4 & H5)]; [congruence|].
    destruct H5 as [[_ H5]|[Hav H5]]; [congruence|]. rewrite E in H5.
    destruct (resolve_installation_reqs _ _ _ _ _ _ _ _) as [ip'| | |] eqn:Er; try done.
    injection H5 as -> ->.
    destruct (plan_closure _ _ _ _ _ _ _ _ H1 H2 (sub_ok o 1 Ho) H3 Hav _ Er) as [C1 C2].
    apply (H4 p Hp). eapply closure_available; [done|]. by apply C1.
  Qed.
End install.
