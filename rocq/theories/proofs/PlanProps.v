From stdpp Require Import strings list gmap relations sorting.
From Coq Require Import Ascii ZArith Lia.
From Verif.model Require Import GoStr Version Desc Nexus Pacman Graph RepoDb Plan.
From Verif.spec Require Import VersionSpec RepoSpec GraphSpec PlanSpec.
From Verif.proofs Require Import RepoProofs FetchProofs GraphProofs LayerProofs PlanProofs.

Local Open Scope string_scope.

Lemma oracle_nodup o l : oracle_ok o -> NoDup l -> NoDup (ask o l).
Proof. intros Ho H. by rewrite (ask_perm o l Ho). Qed.

Lemma fst_map_to_list_dom {A} (m : gmap string A) :
  (map_to_list m).*1 ≡ₚ elements (dom (D := gset string) m).
Proof.
  apply NoDup_Permutation; [apply NoDup_fst_map_to_list|apply NoDup_elements|].
  intros x. rewrite elem_of_elements, elem_of_dom, elem_of_list_fmap. split.
  - intros ([k v] & -> & H). apply elem_of_map_to_list in H. eauto.
  - intros [v H]. exists (x, v). split; [done|]. by apply elem_of_map_to_list.
Qed.

Lemma no_record_unavailable nx p : no_record nx p -> ~ available nx p.
Proof.
  intros H (d & c & E). apply get_package_spec in E as (l1 & db & l2 & E & (_ & _ & Hl) & _).
  apply (H db) in Hl; [done|]. rewrite E. apply elem_of_app. right. by left.
Qed.

(** ** Plans in terms of closures *)
Section plan.
  Context (nx : nexus) (nr : bool) (o : oracle) (pkgs : list string) (pre : gmap string desc)
    (cfg : install_deps) (update le : bool).
  Context (Hnx : nexus_ok nx) (HR : ~ available nx "R") (Ho : oracle_ok o)
    (Hc : standard_config nr cfg) (Hav : forall p, p ∈ pkgs -> available nx p).

  Let result := resolve_installation_reqs o pkgs pre cfg nx update le nr.

  Lemma plan_ok_inv ip : result = PlanOk ip ->
    ~ has_cycle (needed_in nx nr cfg pkgs) /\ exists starting ls db,
      plan_layers nx nr cfg pkgs (starting :: ls) /\ plan_depdb nx nr (starting :: ls) db /\
      ip_starting ip = starting /\ ip_depdb ip = db /\
      ip_downloads ip = pack nx starting (ask (sub o 4) (elements (dom (D := gset string) db))) /\
      get_outdated pre (ap_packages (get_packages nx
        (ask (sub o 3) (elements (dom (D := gset string) pre))))) = Some (ip_outdated ip) /\
      ip_installed ip = pre /\ ip_create_library ip = negb le /\ ip_update ip = update.
  Proof.
    intros E. destruct (plan_cases nx nr Hnx HR o pkgs pre cfg update le Ho Hc Hav)
      as [[_ H]|(Hac & ls & db & H1 & H2 & H)]; fold result in H; rewrite E in H; [done|].
    split; [done|]. cbv zeta in H. destruct (get_outdated _ _) as [out|] eqn:Eo; [|done].
    destruct ls as [|starting ls]; [done|]. injection H as ->. exists starting, ls, db.
    cbn [ip_starting ip_depdb ip_downloads ip_outdated ip_installed ip_create_library ip_update].
    by repeat (split; [done|]).
  Qed.

  Lemma plan_closure ip : result = PlanOk ip ->
    (forall q, planned ip q <-> closure cfg nx pkgs q) /\ NoDup (planned_names ip).
  Proof.
    intros E. destruct (plan_ok_inv ip E) as (_ & st & ls & db & (Hnd & _ & Hm & H0) & (Hd & _) & <- & <- & _).
    cbn [tail] in Hd. cbn [concat] in Hnd, Hm. apply NoDup_app in Hnd as (N1 & N2 & N3). split.
    - intros q. rewrite <- Hm, elem_of_app. unfold planned. by rewrite Hd.
    - unfold planned_names. apply NoDup_app. split; [done|]. split.
      + intros x Hx Hx'. apply elem_of_list_fmap in Hx' as ([k v] & -> & Hk).
        apply elem_of_map_to_list in Hk. apply (N2 k); [done|]. apply Hd. eauto.
      + apply NoDup_fst_map_to_list.
  Qed.

  Lemma plan_deps ip : result = PlanOk ip ->
    (forall q, q ∈ ip_starting ip <-> closure cfg nx pkgs q /\ forall r, ~ needs nx nr q r) /\
    (forall q deps, ip_depdb ip !! q = Some deps ->
       NoDup deps /\ q ∉ deps /\ forall r, r ∈ deps <-> tc (needs nx nr) q r).
  Proof.
    intros E. destruct (plan_ok_inv ip E) as (Hac & st & ls & db & (Hnd & _ & Hm & H0) & (Hd & Hd') & <- & <- & _).
    split.
    - intros q. rewrite <- H0. symmetry. apply in_layer_0.
    - intros q deps Hq. destruct (Hd' q deps Hq) as [H1 H2]. split; [done|]. split; [|done].
      intros Hin. apply Hac. exists q. apply H2 in Hin.
      assert (closure cfg nx pkgs q) as Hcq.
      { apply Hm. cbn [concat]. apply elem_of_app. right. apply Hd. eauto. }
      clear -Hin Hcq HR Hc.
      assert (forall a b, tc (needs nx nr) a b -> closure cfg nx pkgs a ->
        tc (needed_in nx nr cfg pkgs) a b) as M; [|by apply M].
      induction 1 as [a b Hab|a b c Hab _ IH]; intros Ha; [by apply tc_once|].
      eapply tc_l; [by split|]. apply IH. by eapply closure_needs.
  Qed.

  Lemma closure_available q : closure cfg nx pkgs q -> available nx q.
  Proof.
    intros (p & Hp & Hr). apply rtc_inv_r in Hr as [->|(x & _ & [[H|H] _])]; [by apply Hav| |].
    - by destruct H as (? & _ & _ & ? & _).
    - by destruct H as (? & _ & _ & _ & ?).
  Qed.

  Lemma plan_downloads ip : result = PlanOk ip ->
    ip_downloads ip ≡ₚ map (fun q => let '(d, c, _) := get_package_go nx q in PkgDl c d) (planned_names ip) /\
    (forall dl, dl ∈ ip_downloads ip ->
       get_package nx (d_package (dl_package dl)) = Some (dl_package dl, dl_config dl)) /\
    map (fun dl => d_package (dl_package dl)) (ip_downloads ip) ≡ₚ planned_names ip.
  Proof.
    intros E. destruct (plan_closure ip E) as [Hpl _].
    destruct (plan_ok_inv ip E) as (_ & st & ls & db & _ & _ & E1 & E2 & -> & _).
    assert (st ++ ask (sub o 4) (elements (dom (D := gset string) db)) ≡ₚ planned_names ip) as HP.
    { unfold planned_names. rewrite E1, E2. f_equiv.
      rewrite (ask_perm _ _ (sub_ok o 4 Ho)). symmetry. apply fst_map_to_list_dom. }
    assert (forall q, q ∈ planned_names ip -> available nx q) as Hpa.
    { intros q Hq. apply closure_available, Hpl. unfold planned_names in Hq.
      apply elem_of_app in Hq as [Hq|Hq]; [by left|]. right.
      apply elem_of_list_fmap in Hq as ([k v] & -> & Hk). apply elem_of_map_to_list in Hk. eauto. }
    split; [unfold pack; by rewrite HP|]. split.
    - intros dl Hdl. unfold pack in Hdl. rewrite HP in Hdl.
      apply elem_of_list_fmap in Hdl as (q & -> & Hq). destruct (Hpa q Hq) as (d & c & Ed).
      unfold get_package_go. rewrite Ed. cbn.
      assert (offered nx q d) as Hof by (by exists c).
      by rewrite (offered_name nx Hnx q d Hof).
    - unfold pack. rewrite map_map, HP. rewrite <- (map_id (planned_names ip)) at 2.
      apply eq_subrelation; [apply _|]. apply map_ext_in. intros q Hq. apply elem_of_list_In in Hq.
      destruct (Hpa q Hq) as (d & c & Ed). unfold get_package_go. rewrite Ed. cbn.
      apply (offered_name nx Hnx). by exists c.
  Qed.
End plan.

(** ** Outdated packages *)
Lemma get_outdated_perm pre l l' : l ≡ₚ l' ->
  match get_outdated pre l, get_outdated pre l' with
  | None, None => True
  | Some r, Some r' => r ≡ₚ r'
  | _, _ => False
  end.
Proof.
  induction 1 as [|x l l' H IH|x y l|l1 l2 l3 H1 IH1 H2 IH2]; cbn [get_outdated]; [done|..].
  - destruct (pre !! _); [|done]. destruct (compare_version_strings _ _); [|done].
    destruct (get_outdated pre l), (get_outdated pre l'); try done. case_match; [by constructor|done].
  - destruct (pre !! d_package (dl_package y)), (pre !! d_package (dl_package x)); try done;
      repeat (destruct (compare_version_strings _ _); try done);
      destruct (get_outdated pre l); try done; repeat case_match; try done; constructor.
  - destruct (get_outdated pre l1), (get_outdated pre l2), (get_outdated pre l3); try done. by etrans.
Qed.

Lemma get_outdated_elem pre l r : get_outdated pre l = Some r -> forall x,
  x ∈ r <-> exists dl d, dl ∈ l /\ pre !! d_package (dl_package dl) = Some d /\
    x = Outdated (d_package (dl_package dl)) (d_version d) (d_version (dl_package dl)) /\
    exists c, compare_version_strings (d_version (dl_package dl)) (d_version d) = Some c /\ (c > 0)%Z.
Proof.
  revert r. induction l as [|dl l IH]; cbn [get_outdated]; intros r E x.
  - injection E as <-. split; [intros H; by apply elem_of_nil in H|].
    intros (dl & d & H & _). by apply elem_of_nil in H.
  - assert (forall Q : Prop, (Q <-> exists d, pre !! d_package (dl_package dl) = Some d /\
      x = Outdated (d_package (dl_package dl)) (d_version d) (d_version (dl_package dl)) /\
      exists c, compare_version_strings (d_version (dl_package dl)) (d_version d) = Some c /\ (c > 0)%Z) ->
      (forall r', get_outdated pre l = Some r' -> (Q \/ x ∈ r' <-> exists dl0 d, dl0 ∈ dl :: l /\
        pre !! d_package (dl_package dl0) = Some d /\
        x = Outdated (d_package (dl_package dl0)) (d_version d) (d_version (dl_package dl0)) /\
        exists c, compare_version_strings (d_version (dl_package dl0)) (d_version d) = Some c /\ (c > 0)%Z)))
      as M.
    { intros Q HQ r' Er'. rewrite HQ, (IH r' Er' x). split.
      - intros [(d & H)|(dl0 & d & H1 & H2)]; [exists dl, d; split; [by left|done]|].
        exists dl0, d. split; [by right|done].
      - intros (dl0 & d & H1 & H2). apply elem_of_cons in H1 as [->|H1]; [left; by exists d|].
        right. by exists dl0, d. }
    destruct (pre !! d_package (dl_package dl)) as [d|] eqn:Ed.
    + destruct (compare_version_strings _ _) as [c|] eqn:Ec; [|done].
      destruct (get_outdated pre l) as [r'|] eqn:Er'; [|done]. injection E as <-.
      destruct (Z.gtb_spec c 0) as [Hc|Hc].
      * rewrite elem_of_cons. apply M; [|done]. split.
        -- intros ->. exists d. split; [done|]. split; [done|]. exists c. split; [done|lia].
        -- intros (d' & [= <-] & -> & _). done.
      * rewrite <- (M False); [by split; [right|intros [[]|]]| |done]. split; [done|].
        intros (d' & [= <-] & _ & c' & Ec' & Hc'). rewrite Ec in Ec'. injection Ec' as <-. lia.
    + rewrite <- (M False); [by split; [right|intros [[]|]]| |exact E]. split; [done|]. by intros (d' & ? & _).
Qed.

Lemma get_outdated_names pre l r : get_outdated pre l = Some r ->
  sublist (map op_package r) (map (fun dl => d_package (dl_package dl)) l).
Proof.
  revert r. induction l as [|dl l IH]; cbn [get_outdated]; intros r E.
  - injection E as <-. constructor.
  - cbn [map]. destruct (pre !! _); [|by apply sublist_cons, IH].
    destruct (compare_version_strings _ _); [|done]. destruct (get_outdated pre l) as [r'|]; [|done].
    injection E as <-. case_match; cbn [map op_package]; [apply sublist_skip|apply sublist_cons]; by apply IH.
Qed.

(** The library reported by the scan: every package filed under its own, non-empty, name. *)
Definition library_ok (pre : gmap string desc) : Prop :=
  forall p d, pre !! p = Some d -> d_package d = p /\ p <> "".

Lemma outdated_spec nx pre keys r : nexus_ok nx -> pre !! "" = None ->
  keys ≡ₚ elements (dom (D := gset string) pre) ->
  get_outdated pre (ap_packages (get_packages nx keys)) = Some r ->
  (forall x, x ∈ r <-> exists d d', pre !! op_package x = Some d /\ offered nx (op_package x) d' /\
     op_old x = d_version d /\ op_new x = d_version d' /\
     exists c, compare_version_strings (d_version d') (d_version d) = Some c /\ (c > 0)%Z) /\
  NoDup (map op_package r).
Proof.
  intros Hnx H0 Hk E. unfold get_packages in E. cbn [ap_packages] in E.
  assert (forall dl q, dl = (let '(d, c, _) := get_package_go nx q in PkgDl c d) ->
    (exists d' , offered nx q d' /\ dl_package dl = d' /\ d_package d' = q) \/ dl_package dl = empty_desc) as Hdl.
  { intros dl q ->. unfold get_package_go. destruct (get_package nx q) as [[d c]|] eqn:Eq.
    - left. exists d. assert (offered nx q d) as Hof by (by exists c).
      split; [done|]. split; [done|]. by apply (offered_name nx Hnx).
    - by right. }
  split.
  - intros x. rewrite (get_outdated_elem _ _ _ E x). split.
    + intros (dl & d & H1 & H2 & -> & c & H3). apply elem_of_list_fmap in H1 as (q & Hq & Hin).
      destruct (Hdl dl q Hq) as [(d' & Hof & <- & Hn)|He].
      * cbn. rewrite Hn in *. exists d, (dl_package dl). split; [done|]. split; [done|].
        split; [done|]. split; [done|]. by exists c.
      * rewrite He in H2. cbn in H2. congruence.
    + intros (d & d' & H1 & Hof & H2 & H3 & H4). destruct Hof as [c Hof].
      exists (PkgDl c d'), d. cbn [dl_package].
      assert (d_package d' = op_package x) as -> by (apply (offered_name nx Hnx); by exists c).
      split; [|split; [done|split; [|done]]].
      * apply elem_of_list_fmap. exists (op_package x). unfold get_package_go. rewrite Hof. split; [done|].
        rewrite Hk, elem_of_elements, elem_of_dom. eauto.
      * destruct x. simpl in *. by subst.
  - apply get_outdated_names in E as Hs.
    (* entries for unknown packages have the empty name, which is not installed *)
    clear Hs. assert (NoDup keys) as Hnd by (rewrite Hk; apply NoDup_elements). clear Hk.
    revert r E. induction Hnd as [|q keys Hq Hnd IH]; cbn [map]; intros r E.
    + injection E as <-. constructor.
    + cbn [get_outdated] in E.
      destruct (get_package_go nx q) as [[dq cq] bq] eqn:Eq. cbn [dl_package] in E.
      destruct (pre !! d_package dq) as [d|] eqn:Ed; [|by apply IH].
      destruct (compare_version_strings _ _) as [c|]; [|done].
      destruct (get_outdated pre _) as [r'|] eqn:Er'; [|done]. injection E as <-.
      destruct (c >? 0)%Z; [|by apply IH]. cbn [map op_package]. constructor; [|by apply IH].
      intros Hin. apply elem_of_list_fmap in Hin as (x & Hx & Hxr).
      apply (get_outdated_elem _ _ _ Er' x) in Hxr as (dl & d0 & H1 & H2 & -> & _).
      cbn [op_package] in Hx. apply elem_of_list_fmap in H1 as (q' & Hq' & Hin').
      destruct (Hdl dl q' Hq') as [(d' & _ & <- & Hn)|He].
      * destruct (Hdl (PkgDl cq dq) q) as [(d'' & _ & E'' & Hn')|He']; [by rewrite Eq| |].
        -- cbn in E''. subst d''. apply Hq. congruence.
        -- cbn in He'. subst dq. cbn in Ed. congruence.
      * rewrite He in H2. cbn in H2. congruence.
Qed.

(** Panics of the comparison. *)
Lemma get_outdated_some pre l :
  (forall dl d, dl ∈ l -> pre !! d_package (dl_package dl) = Some d ->
     compare_version_strings (d_version (dl_package dl)) (d_version d) <> None) ->
  exists r, get_outdated pre l = Some r.
Proof.
  induction l as [|dl l IH]; intros H; cbn [get_outdated]; [by eexists|].
  destruct IH as [r Er]; [intros dl' d' H1; apply H; by right|]. rewrite Er.
  destruct (pre !! _) as [d|] eqn:Ed; [|by eexists].
  destruct (compare_version_strings _ _) eqn:Ec; [by eexists|]. exfalso. by eapply (H dl d); [left|..].
Qed.

(** ** Determinism *)
Lemma plan_same nx nr o o' pkgs pkgs' pre cfg update le :
  nexus_ok nx -> ~ available nx "R" -> oracle_ok o -> oracle_ok o' -> standard_config nr cfg ->
  (forall p, p ∈ pkgs <-> p ∈ pkgs') -> (forall p, p ∈ pkgs -> available nx p) ->
  match resolve_installation_reqs o pkgs pre cfg nx update le nr,
        resolve_installation_reqs o' pkgs' pre cfg nx update le nr with
  | PlanOk a, PlanOk b => same_plan a b
  | PlanError, PlanError | PlanPanic, PlanPanic => True
  | _, _ => False
  end.
Proof.
  intros Hnx HR Ho Ho' Hc Hsame Hav.
  assert (forall p, p ∈ pkgs' -> available nx p) as Hav' by (intros p Hp; by apply Hav, Hsame).
  assert (forall q, closure cfg nx pkgs q <-> closure cfg nx pkgs' q) as Hcl.
  { intros q. split; intros (x & Hx & H); exists x; (split; [by apply Hsame|exact H]). }
  assert (forall (R R' : string -> string -> Prop), (forall a b, R a b -> R' a b) -> has_cycle R -> has_cycle R') as Hcyc.
  { intros R R' HRR [x Hx]. exists x. revert Hx. generalize x at 2 4. clear -HRR. intros y Hx.
    induction Hx; [by apply tc_once, HRR|]. eapply tc_l; [by apply HRR|done]. }
  pose proof (plan_cases nx nr Hnx HR o pkgs pre cfg update le Ho Hc Hav) as C.
  pose proof (plan_cases nx nr Hnx HR o' pkgs' pre cfg update le Ho' Hc Hav') as C'.
  pose proof (plan_downloads nx nr o pkgs pre cfg update le Hnx HR Ho Hc Hav) as D.
  pose proof (plan_downloads nx nr o' pkgs' pre cfg update le Hnx HR Ho' Hc Hav') as D'.
  destruct C as [[Hcy ->]|(Hac & ls & db & HL & HD & E)],
    C' as [[Hcy' ->]|(Hac' & ls' & db' & HL' & HD' & E')]; [done|..].
  { destruct Hac'. revert Hcy. apply Hcyc. intros a b [H1 H2]. split; [by apply Hcl|done]. }
  { destruct Hac. revert Hcy'. apply Hcyc. intros a b [H1 H2]. split; [by apply Hcl|done]. }
  cbv zeta in E, E'. unfold plan_layers in HL'.
  setoid_rewrite <- Hcl in HL'.
  pose proof (get_outdated_perm pre
    (ap_packages (get_packages nx (ask (sub o 3) (elements (dom (D := gset string) pre)))))
    (ap_packages (get_packages nx (ask (sub o' 3) (elements (dom (D := gset string) pre)))))) as P.
  feed specialize P.
  { cbn [get_packages ap_packages]. apply Permutation_map.
    by rewrite (ask_perm _ _ (sub_ok o 3 Ho)), (ask_perm _ _ (sub_ok o' 3 Ho')). }
  destruct (get_outdated pre (ap_packages (get_packages nx (ask (sub o 3) _)))) as [r|],
    (get_outdated pre (ap_packages (get_packages nx (ask (sub o' 3) _)))) as [r'|]; try done;
    [|by rewrite E, E'].
  destruct HL as (N & F & M & Z0), HL' as (N' & F' & M' & Z0').
  destruct ls as [|st ls].
  { destruct ls' as [|st' ls']; [by rewrite E, E'|]. exfalso.
    apply Forall_cons in F' as [F' _]. destruct st' as [|x st']; [done|].
    assert (x ∈ concat (@nil (list string))) as Hx; [|by apply elem_of_nil in Hx].
    apply M, M'. cbn [concat]. apply elem_of_app. left. by left. }
  destruct ls' as [|st' ls'].
  { exfalso. apply Forall_cons in F as [F _]. destruct st as [|x st]; [done|].
    assert (x ∈ concat (@nil (list string))) as Hx; [|by apply elem_of_nil in Hx].
    apply M', M. cbn [concat]. apply elem_of_app. left. by left. }
  destruct (D _ E) as (D1 & _), (D' _ E') as (D1' & _).
  rewrite E, E'. unfold same_plan. cbn [ip_starting ip_depdb ip_downloads ip_outdated ip_installed
    ip_create_library ip_update] in *.
  cbn [concat] in *. apply NoDup_app in N as (N1 & N2 & N3). apply NoDup_app in N' as (N1' & N2' & N3').
  destruct HD as [K V], HD' as [K' V']. cbn [tail] in *.
  assert (forall q, q ∈ st <-> q ∈ st') as Est.
  { intros q. rewrite <- (in_layer_0 st ls), <- (in_layer_0 st' ls'), Z0, Z0'. done. }
  assert (forall q, is_Some (db !! q) <-> is_Some (db' !! q)) as Edom.
  { intros q. rewrite K, K'. split; intros H.
    - assert (q ∈ (st' ++ concat ls')%list) as Hq by (apply M', M, elem_of_app; by right).
      apply elem_of_app in Hq as [Hq|]; [|done]. apply Est in Hq. by destruct (N2 q).
    - assert (q ∈ (st ++ concat ls)%list) as Hq by (apply M, M', elem_of_app; by right).
      apply elem_of_app in Hq as [Hq|]; [|done]. apply Est in Hq. by destruct (N2' q). }
  assert (st ≡ₚ st') as Pst by (by apply NoDup_Permutation).
  split; [done|]. split.
  { intros q. specialize (Edom q). destruct (db !! q) as [l|] eqn:Eq, (db' !! q) as [l'|] eqn:Eq'; try done.
    - destruct (V q l Eq) as [V1 V2], (V' q l' Eq') as [V1' V2']. apply NoDup_Permutation; [done|done|].
      intros x. by rewrite V2, V2'.
    - destruct Edom as [H _]. destruct H; [eauto|done].
    - destruct Edom as [_ H]. destruct H; [eauto|done]. }
  split; [|done]. rewrite D1, D1'. apply Permutation_map. unfold planned_names. cbn [ip_starting ip_depdb].
  f_equiv; [done|]. rewrite !fst_map_to_list_dom. apply NoDup_Permutation; [apply NoDup_elements..|].
  intros x. rewrite !elem_of_elements, !elem_of_dom. apply Edom.
Qed.

Lemma plan_deterministic nx nr o o' pkgs pre cfg update le :
  nexus_ok nx -> ~ available nx "R" -> oracle_ok o -> oracle_ok o' -> standard_config nr cfg ->
  (forall p, p ∈ pkgs -> available nx p) ->
  match resolve_installation_reqs o pkgs pre cfg nx update le nr,
        resolve_installation_reqs o' pkgs pre cfg nx update le nr with
  | PlanOk a, PlanOk b => same_plan a b
  | PlanError, PlanError | PlanPanic, PlanPanic => True
  | _, _ => False
  end.
Proof. intros Hnx HR Ho Ho' Hc Hav. by apply plan_same. Qed.

Lemma plan_succeeds nx nr o pkgs pre cfg update le :
  nexus_ok nx -> ~ available nx "R" -> oracle_ok o -> standard_config nr cfg ->
  (forall p, p ∈ pkgs -> available nx p) -> pkgs <> [] ->
  (forall p d d', pre !! p = Some d -> offered nx p d' ->
     compare_version_strings (d_version d') (d_version d) <> None) ->
  pre !! "" = None ->
  ~ has_cycle (fun a b => closure cfg nx pkgs a /\ needs nx nr a b) ->
  exists ip, resolve_installation_reqs o pkgs pre cfg nx update le nr = PlanOk ip.
Proof.
  intros Hnx HR Ho Hc Hav Hne Hv H0 Hac.
  destruct (plan_cases nx nr Hnx HR o pkgs pre cfg update le Ho Hc Hav)
    as [[Hcy _]|(_ & ls & db & (N & F & M & _) & _ & E)]; [done|]. cbv zeta in E.
  destruct (get_outdated_some pre (ap_packages (get_packages nx (ask (sub o 3)
    (elements (dom (D := gset string) pre)))))) as [r Er].
  { intros dl d H1 H2. apply elem_of_list_fmap in H1 as (q & -> & _).
    unfold get_package_go in *. destruct (get_package nx q) as [[d' c]|] eqn:Eq; cbn in *; [|congruence].
    assert (offered nx q d') as Hof by (by exists c).
    rewrite (offered_name nx Hnx q d' Hof) in H2. by eapply Hv. }
  rewrite Er in E. destruct ls as [|st ls]; [|by eexists]. exfalso.
  destruct pkgs as [|p pkgs]; [done|].
  assert (p ∈ concat (@nil (list string))) as Hp; [|by apply elem_of_nil in Hp].
  apply M. exists p. split; [by left|done].
Qed.

Lemma plan_error_cycle nx nr o pkgs pre cfg update le :
  nexus_ok nx -> ~ available nx "R" -> oracle_ok o -> standard_config nr cfg ->
  (forall p, p ∈ pkgs -> available nx p) ->
  resolve_installation_reqs o pkgs pre cfg nx update le nr = PlanError <->
  has_cycle (fun a b => closure cfg nx pkgs a /\ needs nx nr a b).
Proof.
  intros Hnx HR Ho Hc Hav.
  destruct (plan_cases nx nr Hnx HR o pkgs pre cfg update le Ho Hc Hav) as [[Hcy E]|(Hac & ls & db & _ & _ & E)].
  - by rewrite E.
  - cbv zeta in E. rewrite E. destruct (get_outdated _ _); [destruct ls|]; split; done.
Qed.
