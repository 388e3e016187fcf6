(** C141: installing again. *)
From stdpp Require Import strings list gmap.
From Coq Require Import Ascii ZArith Lia.
From Verif.model Require Import GoStr Version Desc Nexus RepoDb Pacman Graph Plan Fs Rollback Stamp Yml Sched Install Download Tarballs Together.
From Verif.spec Require Import RepoSpec GraphSpec PlanSpec SchedSpec LibSpec InstallSpec TarballSpec TogetherSpec AgainSpec.
From Verif.proofs Require Import VersionProofs GraphProofs PlanProofs PlanProps DerivedProofs FsProofs RollbackProofs RunProofs RunProps RunLink ExampleChecks ExampleWorlds RunProps2 SchedProofs SchedProps SchedLink
  TogetherProofs WholeProofs TogetherEnd ToyR.
From Verif.props Require Import P_Graph P_Library P_Sched P_Together P_Exact2 P_Exact5.

Local Open Scope string_scope.

(** ** The workers have nothing to do *)

Record at_rest {X : Type} (f : fsys) (ls : list label) (st : tstate X) : Prop := {
  ar_fs : t_fs st = f;
  ar_stopped : t_stopped st = false;
  ar_copies : t_copies st = [];
  ar_work : forall p w, t_work st !! p = Some w -> w = WLook \/ w = WEnd (-999) false None;
  ar_finish : forall p r, Finish p r ∈ ls -> r = ROk true
}.

(** If all packages of the plan are in the library, R is not run, no file is changed, the
    program does not stop, no package fails, and the end is success. *)
Theorem C141_idle : forall e Rs j f ls st, job_ok j ->
  (forall p, in_plan j p -> fs_dir_exists f (join_path (e_library e) p) = true) ->
  together e Rs j (tinitial _ j f) ls st ->
  at_rest f ls st /\
  (forall errs, returned (t_sched st) errs -> errs = None) /\
  (plan_size j <= 2502 + j_workers j -> 1 <= j_workers j -> all_stuck e Rs j st -> returned (t_sched st) None).
Proof.
  intros e Rs j f ls st Hj Hin H.
  assert (at_rest f ls st) as A.
  { induction H as [|ls st l st' H IH Hs].
    - split; try done. intros p r Hp. by apply elem_of_nil in Hp.
    - destruct IH as [A1 A2 A3 A4 A5]. pose proof (together_busy e Rs j f ls st H) as [B1 _ _].
      assert (forall p w, t_work st !! p = Some w -> in_plan j p) as Hp.
      { clear -H Hj. induction H as [|ls st l st' H IH Hs]; [done|].
        pose proof (together_busy e Rs j f _ _ (tg_snoc _ _ _ _ _ _ _ _ H Hs)) as [C1 _ _].
        destruct Hs; cbn [t_work t_sched] in *; try done; intros y v Hx.
        - destruct (decide (y = p)) as [-> |Hn].
          + eapply started_planned; [done|exact C1|]. apply elem_of_app. right. by left.
          + rewrite lookup_insert_ne in Hx by done. by eapply IH.
        - apply lookup_delete_Some in Hx as [_ Hx]. by eapply IH.
        - destruct (decide (y = p)) as [-> |Hn]; [by eapply IH|].
          rewrite lookup_insert_ne in Hx by done. by eapply IH.
        - destruct (decide (y = p)) as [-> |Hn]; [by eapply IH|].
          rewrite lookup_insert_ne in Hx by done. by eapply IH. }
      destruct Hs as [s l s' W C g Hst Hpl|s p s' W C g Hst|s p r s' W C g code err b Hw Hr Hst|s p w w' W C g g' Hw Hst|
                  s p w W C g Hw Hst|s p k c x x' W C g g' Hw Hc Hst|s p ball ok W C1 C2 g g' Hst];
        cbn [t_sched t_work t_copies t_fs t_stopped] in *; subst.
      + split; cbn; try done. intros p r Hx. apply elem_of_app in Hx as [Hx|Hx]; [by eapply A5|].
        apply elem_of_list_singleton in Hx. by subst l.
      + split; cbn; try done.
        * intros q w Hw. destruct (decide (q = p)) as [-> |Hn].
          -- rewrite lookup_insert in Hw. injection Hw as <-. by left.
          -- rewrite lookup_insert_ne in Hw by done. by eapply A4.
        * intros q r Hx. apply elem_of_app in Hx as [Hx|Hx]; [by eapply A5|]. by apply elem_of_list_singleton in Hx.
      + destruct (A4 p _ Hw) as [E|E]; [done|]. injection E as -> -> ->. inversion Hr; subst.
        split; cbn; try done.
        * intros q w Hw'. apply lookup_delete_Some in Hw' as [_ Hw']. by eapply A4.
        * intros q r Hx. apply elem_of_app in Hx as [Hx|Hx]; [by eapply A5|].
          apply elem_of_list_singleton in Hx. by injection Hx.
      + assert (g' = f /\ w' = WEnd (-999) false None) as [-> ->].
        { destruct (A4 p w Hw) as [-> | ->]; inversion Hst; subst; try done. by rewrite Hin in * by by eapply Hp. }
        rewrite app_nil_r. split; cbn; try done. intros q v Hv. destruct (decide (q = p)) as [-> |Hn].
        * rewrite lookup_insert in Hv. injection Hv as <-. by right.
        * rewrite lookup_insert_ne in Hv by done. by eapply A4.
      + destruct (A4 p w Hw) as [-> | ->]; inversion Hst.
      + done.
      + by destruct C1. }
  pose proof (together_busy e Rs j f ls st H) as [B1 B2 _].
  assert (no_failures ls) as Hn by (intros p Hp; by apply (ar_finish _ _ _ A) in Hp).
  split; [done|]. split.
  - intros errs Hr. by apply (errors_exact j ls (t_sched st) errs B1 Hr).
  - intros Hs Hw Hst. apply (C46_terminates_partial j Hj Hs Hw) with ls; [done| |done|].
    + intros l s' Hstep. pose proof (together_busy e Rs j f ls st H) as [_ B3 _].
      destruct st as [s W C g b]. destruct A as [A1 A2 A3 A4 A5]. cbn [t_sched t_work t_fs t_stopped t_copies] in *. subst.
      destruct l as [|p|p r|p|r]; try (by eapply Hst; by eapply ts_sched).
      * eapply Hst. by eapply ts_start.
      * assert (1 <= c_busy p (s_workers s)) as Hb.
        { inversion Hstep; subst. cbn [s_workers]. rewrite c_busy_app. cbn [c_busy]. rewrite one_eq. lia. }
        destruct (busy_started j _ _ _ B1 Hb) as [S1 S2]. destruct (B3 p S1 S2) as [w Hw'].
        destruct (A4 p w Hw') as [-> | ->].
        -- eapply Hst. eapply ts_work; [done|]. apply w_present. apply Hin. by eapply started_planned.
        -- assert (exists s'', step j s (Finish p (ROk true)) s'') as [s'' K].
           { inversion Hstep; subst. eexists. by apply work_finish. }
           eapply Hst. eapply ts_finish; [done|constructor|done].
    + intros p Hp. by apply (ar_finish _ _ _ A) in Hp.
Qed.

(** ** Planning again *)

Lemma same_version_not_newer v c : compare_version_strings v v = Some c -> c = 0%Z.
Proof.
  unfold compare_version_strings. destruct (parse_version v); [|done]. intros [= <-]. apply compare_versions_refl.
Qed.

(** Nothing is to be updated, and if nothing else in the library is outdated, nothing is
    to be installed. *)
Theorem C141_plan : forall nx nr o pkgs pre cfg update le ip keys,
  nexus_ok nx -> ~ available nx "R" -> oracle_ok o -> standard_config nr cfg -> pre !! "" = None ->
  (forall p, p ∈ pkgs -> available nx p) ->
  resolve_installation_reqs o pkgs pre cfg nx update le nr = PlanOk ip ->
  keys ≡ₚ (map_to_list (ip_depdb ip)).*1 ->
  up_to_date nx pre (closure cfg nx pkgs) ->
  (forall x, x ∈ ip_outdated ip -> ~ planned ip (op_package x)) /\
  (ip_outdated ip = [] -> num_to_install ip keys [] = 0%Z).
Proof.
  intros nx nr o pkgs pre cfg update le ip keys H1 H2 H3 H4 H0 H5 E Hk Hu.
  destruct (plan_closure nx nr o pkgs pre cfg update le H1 H2 H3 H4 H5 ip E) as [P1 P2].
  destruct (plan_ok_inv nx nr o pkgs pre cfg update le H1 H2 H3 H4 H5 ip E) as (_ & st & ls & db & _ & _ & _ & _ & _ & Eo & Ei & _).
  destruct (outdated_spec nx pre _ _ H1 H0 (H3 _ _) Eo) as [O1 _]. split.
  - intros x Hx Hp. apply P1 in Hp. destruct (Hu _ Hp) as (d & d' & U1 & U2 & U3).
    apply O1 in Hx as (e & e' & X1 & X2 & _ & _ & c & X3 & X4).
    assert (e = d) as -> by congruence.
    assert (e' = d') as -> by (destruct U2 as [? U2], X2 as [? X2]; congruence).
    rewrite <- U3 in X3. apply same_version_not_newer in X3. lia.
  - intros Hn. rewrite (C28_exact ip keys [] (ip_starting ip ++ keys)%list).
    + rewrite Hn, !app_length. cbn [length]. destruct (ip_update ip); lia.
    + unfold planned_names in P2. by rewrite Hk.
    + intros p. rewrite elem_of_app, Ei. split; [|tauto]. intros Hp. split; [|split; [by apply not_elem_of_nil|done]].
      assert (planned ip p) as Hpl.
      { destruct Hp as [Hp|Hp]; [by left|right]. rewrite Hk in Hp. apply elem_of_list_fmap in Hp as ([k v] & -> & Hv).
        apply elem_of_map_to_list in Hv. by exists v. }
      apply P1 in Hpl. destruct (Hu _ Hpl) as (d & _ & ? & _). by exists d.
Qed.

(** ** A whole run *)

(** The run ends without errors, and when it has ended, all files are as they were after
    downloading. *)
Theorem C141_run_partial : forall c f dirs nx nr o pkgs cfg update ip keys n e Rs R fd pe ae f3,
  nexus_ok nx -> ~ available nx "R" -> oracle_ok o -> standard_config nr cfg ->
  (forall p, p ∈ pkgs -> available nx p) -> tree_ok f -> lists_library f (Rollback.rc_library c) dirs ->
  resolve_installation_reqs o pkgs (found f (Rollback.rc_library c) dirs) cfg nx update (fs_dir_exists f (Rollback.rc_library c)) nr = PlanOk ip ->
  keys ≡ₚ (map_to_list (ip_depdb ip)).*1 -> (forall p, p ∈ get_all_packages ip keys [] -> r_name p) ->
  up_to_date nx (found f (Rollback.rc_library c) dirs) (closure cfg nx pkgs) ->
  let i := RunInput ip keys [] [] (found f (Rollback.rc_library c) dirs) in
  let j := Job (ip_starting ip) (ip_depdb ip) keys n in
  e_library e = Rollback.rc_library c ->
  (forall q, in_dir (Rollback.rc_library c) q -> fd q = f q) ->
  installs e Rs j R [] fd pe ae f3 ->
  let w := RunWorld false (fun _ => f3) pe ae in
  pe = false /\ ae = false /\ prepare_ops c i = [] /\
  rt_outcome (r_install c i w f) = Exit 0 /\ run_final c i w f = fd /\
  (forall q, in_dir (Rollback.rc_library c) q -> run_final c i w f q = f q).
Proof.
  intros c f dirs nx nr o pkgs cfg update ip keys n e Rs R fd pe ae f3 H1 H2 H3 H4 H5 T L E Hk Hn Hu i j El Hd Hi w.
  destruct (plan_closure nx nr o pkgs _ cfg update _ H1 H2 H3 H4 H5 ip E) as [P1 _].
  assert (forall p d, found f (Rollback.rc_library c) dirs !! p = Some d -> p <> "" /\ f (Rollback.rc_library c ++ [p])%list = Some Dir) as P.
  { intros p d Hp. destruct L as (L1 & L2 & L3). unfold found in Hp. destruct (fs_dir_exists f (Rollback.rc_library c)); [|done].
    apply prior_installed_in in Hp as [(Hp1 & Hp2 & x & Hp3)|Hp]; [|done].
    split; [done|]. apply L2. rewrite <- Hp2. apply (L3 x); [done|]. by rewrite Hp2. }
  assert (found f (Rollback.rc_library c) dirs !! "" = None) as P0.
  { apply eq_None_not_Some. intros [d Hp]. by apply P in Hp as [? _]. }
  destruct (C141_plan nx nr o pkgs _ cfg update _ ip keys H1 H2 H3 H4 P0 H5 E Hk Hu) as [Q1 _].
  assert (forall p, planned ip p <-> p ∈ get_all_packages ip keys []) as Q2.
  { intros p. unfold get_all_packages. rewrite app_nil_r, elem_of_app, Hk. unfold planned.
    assert (p ∈ (map_to_list (ip_depdb ip)).*1 <-> is_Some (ip_depdb ip !! p)) as ->; [|done].
    rewrite elem_of_list_fmap. split.
    - intros ([k v] & -> & Hv). apply elem_of_map_to_list in Hv. by exists v.
    - intros [v Hv]. exists (p, v). split; [done|]. by apply elem_of_map_to_list. }
  assert (staged_updates c i = []) as Su.
  { unfold staged_updates. destruct (rc_no_update c); [done|]. unfold updates_of.
    assert (forall l, (forall x, x ∈ l -> ~ planned ip (op_package x)) ->
      List.filter (fun x => existsb (String.eqb (op_package x)) (ri_all i)) l = []) as K; [|cbn [i ri_plan]; by rewrite (K _ Q1)].
    induction l as [|x l IH]; intros Hl; [done|]. cbn [List.filter].
    destruct (existsb (String.eqb (op_package x)) (ri_all i)) eqn:Ex; [|apply IH; intros y Hy; apply Hl; by right].
    exfalso. apply (Hl x); [by left|]. apply Q2. by apply existsb_elem in Ex. }
  assert (fs_dir_exists f (Rollback.rc_library c) = true) as Hl.
  { destruct (fs_dir_exists f (Rollback.rc_library c)) eqn:Ed; [done|]. exfalso.
    destruct (proj1 (proj1 (C29_exact nx nr o pkgs _ cfg update _ H1 H2 H3 H4 P0 H5)) (ex_intro _ ip E)) as (_ & Hne & _).
    destruct pkgs as [|p pkgs]; [done|]. destruct (Hu p) as (d & _ & Hp & _).
    { exists p. split; [by left|]. constructor. }
    unfold found in Hp. by rewrite Ed in Hp. }
  assert (prepare_ops c i = []) as Hp.
  { unfold prepare_ops. rewrite Su. cbn [i ri_plan staged_overwrites ri_additional' overwrites_of List.filter map app].
    destruct (plan_ok_inv nx nr o pkgs _ cfg update _ H1 H2 H3 H4 H5 ip E) as (_ & st & ls & db & _ & _ & _ & _ & _ & _ & _ & Ec & _).
    by rewrite Ec, Hl. }
  pose proof (planned_job_ok nx nr o pkgs _ cfg update _ ip keys n H1 H2 H3 H4 H5 E Hk) as Hj. fold j in Hj.
  inversion Hi as [ls st errs ae' f' t K1 K2 K3 K4 K5]; subst.
  cbn [install_additional] in K5. injection K5 as <- <- <-.
  destruct (C141_idle e Rs j fd ls st Hj) as (A & A2 & _); [|done|].
  { intros p Hpl. assert (planned ip p) as Hpl' by done. rewrite El, join_name; [|by apply Hn, Q2].
    destruct (Hu p) as (d & _ & Hx & _); [by apply P1|]. apply P in Hx as [_ Hx].
    unfold fs_dir_exists. rewrite Hd; [by rewrite Hx|]. by exists [p]. }
  assert (errs = None) as -> by by apply A2.
  rewrite (ar_fs _ _ _ A) in *.
  assert (rt_outcome (r_install c i w f) = Exit 0 /\ run_final c i w f = fd) as [R1 R2].
  { unfold run_final, r_install. cbn [i ri_plan]. fold i.
    destruct (plan_ok_inv nx nr o pkgs _ cfg update _ H1 H2 H3 H4 H5 ip E) as (_ & st' & ls' & db & _ & _ & _ & _ & _ & _ & _ & Ec & _).
    rewrite Ec, Hl. cbn [negb andb w rw_download_fails rt_outcome]. split; [done|].
    unfold run_changes. cbn [rt_prepare rt_install rt_rollback rt_cleanup]. rewrite Hp.
    unfold rollback_ops, cleanup_ops, plan_of_run. cbn [rw_plan_error rw_additional_error orb rp_updates rp_additional].
    rewrite Su, andb_false_r. cbn [i ri_plan staged_overwrites ri_additional' overwrites_of List.filter map app delete_backups].
    unfold w. rewrite (ar_fs _ _ _ A). done. }
  split; [done|]. split; [done|]. split; [done|]. split; [done|]. split; [done|]. intros q Hq. by rewrite R2, Hd.
Qed.

(** ** Example: core 2.1.0 and lib1 0.2 are installed, lib1 is wanted *)

Definition ag_files : list (list string * node) :=
  [([], Dir); (["srv"], Dir); (L, Dir); (L ++ ["core"], Dir)%list; (L ++ ["core"; "DESCRIPTION"], File "core 2.1.0")%list;
   (L ++ ["lib1"], Dir)%list; (L ++ ["lib1"; "DESCRIPTION"], File "lib1 0.2")%list; (["cache"], Dir)].
Definition ag_dirs : list (string * option desc) := [mk_inst "core" "2.1.0"; mk_inst "lib1" "0.2"].
Definition ag_plan : install_plan :=
  plan_of (resolve_installation_reqs id_oracle ["lib1"] (found (fs_of ag_files) L ag_dirs) (default_config false) ex_nx true true false) no_plan.
Definition ag_job : job := Job (ip_starting ag_plan) (ip_depdb ag_plan) ["lib1"] 1.
Definition ag_set : Together.setting := {|
  e_downloads := ∅; e_library := L; e_pkgr := "3.0"; e_rversion := RVersion 4 0 5; e_platform := "x";
  e_where := {| s_cwd := ["home"]; s_tmp := ["tmp"]; s_cache := ["cache"]; s_os := Linux; s_md5 := fun _ => ""; s_read := fun _ => None |};
  e_tmp := fun p => ["tmp"; p] |}.
(** Something was downloaded. *)
Definition ag_after : fsys := fs_of (ag_files ++ [(["cache"; "lib1_0.2.tar.gz"], File "source of lib1")])%list.

Lemma ag_planned p : planned ag_plan p <-> p = "core" \/ p = "lib1".
Proof.
  assert (ip_starting ag_plan = ["core"] /\ ip_depdb ag_plan = {["lib1" := ["core"]]}) as [E1 E2] by (split; vm_compute; reflexivity).
  unfold planned. rewrite E1, E2, elem_of_list_singleton. split.
  - intros [-> |[d H]]; [by left|right]. apply lookup_singleton_Some in H as [<- _]. done.
  - intros [-> | ->]; [by left|right]. exists ["core"]. apply lookup_singleton.
Qed.

Lemma ag_plan_ok : resolve_installation_reqs id_oracle ["lib1"] (found (fs_of ag_files) L ag_dirs) (default_config false) ex_nx true
  (fs_dir_exists (fs_of ag_files) L) false = PlanOk ag_plan.
Proof. apply (plan_of_eq _ no_plan). vm_compute. reflexivity. Qed.

Lemma ag_available : forall p, p ∈ ["lib1"] -> available ex_nx p.
Proof. apply availableb_all. vm_compute. reflexivity. Qed.

Lemma ag_no_R : ~ available ex_nx "R".
Proof. apply no_record_unavailable, ex_no_R. Qed.

Lemma ag_up_to_date : up_to_date ex_nx (found (fs_of ag_files) L ag_dirs) (closure (default_config false) ex_nx ["lib1"]).
Proof.
  intros p Hp. apply (proj1 (plan_closure ex_nx false id_oracle ["lib1"] _ _ true _ ex_nexus_ok ag_no_R id_oracle_ok
    (default_config_standard false) ag_available ag_plan ag_plan_ok)), ag_planned in Hp as [-> | ->].
  - exists (mk_pkg "core" "2.1.0" [] [] [] []), (mk_pkg "core" "2.1.0" [] [] [] []).
    split; [vm_compute; reflexivity|]. split; [eexists; vm_compute; reflexivity|done].
  - exists (mk_pkg "lib1" "0.2" [] [] [] []), (mk_pkg "lib1" "0.2" [] [] ["core"] []).
    split; [vm_compute; reflexivity|]. split; [eexists; vm_compute; reflexivity|done].
Qed.

Example C141_example :
  nexus_ok ex_nx /\ ~ available ex_nx "R" /\ oracle_ok id_oracle /\ standard_config false (default_config false) /\
  (forall p, p ∈ ["lib1"] -> available ex_nx p) /\ tree_ok (fs_of ag_files) /\ lists_library (fs_of ag_files) L ag_dirs /\
  resolve_installation_reqs id_oracle ["lib1"] (found (fs_of ag_files) L ag_dirs) (default_config false) ex_nx true
    (fs_dir_exists (fs_of ag_files) L) false = PlanOk ag_plan /\
  ["lib1"] ≡ₚ (map_to_list (ip_depdb ag_plan)).*1 /\
  up_to_date ex_nx (found (fs_of ag_files) L ag_dirs) (closure (default_config false) ex_nx ["lib1"]) /\
  num_to_install ag_plan ["lib1"] [] = 0%Z /\
  (forall q, in_dir L q -> ag_after q = fs_of ag_files q) /\
  installs ag_set (toy_process []) ag_job (toy []) [] ag_after false false ag_after.
Proof.
  split; [exact ex_nexus_ok|]. split; [exact ag_no_R|]. split; [exact id_oracle_ok|]. split; [apply default_config_standard|].
  split; [exact ag_available|]. split; [apply tree_okb_sound; vm_compute; reflexivity|].
  split; [apply lists_libraryb_sound; vm_compute; reflexivity|]. split; [exact ag_plan_ok|].
  split; [vm_compute; reflexivity|]. split; [exact ag_up_to_date|]. split; [vm_compute; reflexivity|].
  split. { intros q [s ->]. reflexivity. }
  assert (ag_job = Job ["core"] {["lib1" := ["core"]]} ["lib1"] 1) as -> by (vm_compute; reflexivity).
  eapply (installs_all _ _ _ _ _ _ _ _ None).
  - unfold tinitial, initial; cbn [j_starting j_workers replicate].
    sched main_add. sched main_send. sched req_mark. sched req_push.
    eapply tg_cons; [apply ts_start, work_start with (w1 := [])|cbn [app]]. sched main_wait.
    eapply tg_cons; [eapply ts_work; [apply lookup_insert|apply w_present; vm_compute; reflexivity]|].
    finish (ROk true). post.
    eapply tg_cons; [apply ts_sched; [apply upd_ok|done]|]. change (dependents _ "core") with ["lib1"].
    sched upd_suggest. sched upd_send. sched req_mark. sched req_push. sched upd_copied. sched upd_done.
    eapply tg_cons; [apply ts_start, work_start with (w1 := [])|cbn [app]].
    eapply tg_cons; [eapply ts_work; [apply lookup_insert|apply w_present; vm_compute; reflexivity]|].
    finish (ROk true). post.
    eapply tg_cons; [apply ts_sched; [apply upd_ok|done]|]. change (dependents _ "lib1") with (@nil string).
    sched upd_copied. sched upd_done. at_end.
  - reflexivity.
  - reflexivity.
  - reflexivity.
  - reflexivity.
Qed.

(** ** What the claim leaves out *)

(** A version without a separator: the first plan succeeds, and once the package is
    installed in the version that is offered, planning panics. *)
Theorem C141_version_refuted : exists nx pre, nexus_ok nx /\ up_to_date nx pre (closure (default_config false) nx ["one"]) /\
  (exists ip, resolve_installation_reqs id_oracle ["one"] ∅ (default_config false) nx true true false = PlanOk ip) /\
  resolve_installation_reqs id_oracle ["one"] pre (default_config false) nx true true false = PlanPanic.
Proof.
  set (nx := Nexus [mk_db "CRAN" [mk_pkg "one" "1" [] [] [] []]] ∅ STSource).
  assert (nexus_ok nx) as Hn by (apply nexus_okb_sound; vm_compute; reflexivity).
  assert (~ available nx "R") as HR by (apply no_record_unavailable, no_recordb_sound; vm_compute; reflexivity).
  assert (forall p, p ∈ ["one"] -> available nx p) as Ha by (apply availableb_all; vm_compute; reflexivity).
  set (ip := plan_of (resolve_installation_reqs id_oracle ["one"] ∅ (default_config false) nx true true false) no_plan).
  assert (resolve_installation_reqs id_oracle ["one"] ∅ (default_config false) nx true true false = PlanOk ip) as E
    by (apply (plan_of_eq _ no_plan); vm_compute; reflexivity).
  exists nx, {["one" := mk_pkg "one" "1" [] [] [] []]}. split; [done|]. split.
  - intros p Hp. apply (proj1 (plan_closure nx false id_oracle ["one"] _ _ true _ Hn HR id_oracle_ok (default_config_standard false) Ha ip E)) in Hp.
    assert (ip_starting ip = ["one"] /\ ip_depdb ip = ∅) as [E1 E2] by (split; vm_compute; reflexivity).
    destruct Hp as [Hp|Hp]; [|rewrite E2, lookup_empty in Hp; by destruct Hp].
    rewrite E1 in Hp. apply elem_of_list_singleton in Hp as ->.
    eexists _, _. split; [apply lookup_singleton|]. split; [eexists; vm_compute; reflexivity|done].
  - split; [by exists ip|]. vm_compute. reflexivity.
Qed.

(** Packages given as tarballs are installed again by every run: here t, all else is
    up to date.  If R fails this time and rollbacks are off, t is lost. *)
Definition ag_input : run_input := RunInput ag_plan ["lib1"] ["t"] ["t"] (prior_installed (mk_inst "t" "1.0" :: ag_dirs) ∅).
Definition ag_files_t : list (list string * node) := (ag_files ++ [(L ++ ["t"], Dir); (L ++ ["t"; "DESCRIPTION"], File "t 1.0")])%list.

Theorem C141_tarball_refuted : exists w, 
  run_ok (ex_conf false true) ag_input (fs_of ag_files_t) /\ world_ok (ex_conf false true) ag_input nowhere w (fs_of ag_files_t) /\
  ip_outdated (ri_plan ag_input) = [] /\
  (forall p, p ∈ required ag_input -> is_Some (ri_preinstalled ag_input !! p) /\ fs_of ag_files_t (L ++ [p])%list = Some Dir) /\
  overwritten ag_input "t" /\ num_to_install (ri_plan ag_input) ["lib1"] ["t"] = 1%Z /\
  rt_outcome (r_install (ex_conf false true) ag_input w (fs_of ag_files_t)) = Exit 0 /\
  run_final (ex_conf false true) ag_input w (fs_of ag_files_t) (L ++ ["t"])%list = None.
Proof.
  exists (RunWorld false (fun g => g) false true).
  assert (required ag_input = ["core"; "lib1"; "t"]) as Er by (vm_compute; reflexivity).
  split.
  { split.
    - apply r_nameb_all. vm_compute. reflexivity.
    - done.
    - cbn. repeat constructor; set_solver.
    - assert (ip_outdated (ri_plan ag_input) = []) as -> by (vm_compute; reflexivity). constructor.
    - assert (ip_outdated (ri_plan ag_input) = []) as -> by (vm_compute; reflexivity). by intros x ?%elem_of_nil.
    - apply tree_okb_sound. vm_compute. reflexivity.
    - vm_compute. split; [done|]. by intros [].
    - intros p [d Hp]. unfold ag_input in Hp. cbn [ri_preinstalled] in Hp.
      apply prior_installed_in in Hp as [(_ & Hp2 & x & Hp3)|Hp]; [|done].
      unfold ag_dirs in Hp3. rewrite !elem_of_cons, elem_of_nil in Hp3. destruct Hp3 as [H|[H|[H|[]]]]; injection H as -> ->; subst p; vm_compute; reflexivity. }
  split. { split; [|split]; [intros q []| |done]. split; [done|]. intros p Hp _ _ s. done. }
  split; [vm_compute; reflexivity|]. split.
  { rewrite Er. intros p Hp. rewrite !elem_of_cons, elem_of_nil in Hp.
    destruct Hp as [-> |[-> |[-> |[]]]]; (split; [eexists|]; vm_compute; reflexivity). }
  split. { split; [cbn; set_solver|]. eexists. vm_compute. reflexivity. }
  split; [vm_compute; reflexivity|]. split; vm_compute; reflexivity.
Qed.

Print Assumptions C141_idle.
Print Assumptions C141_plan.
Print Assumptions C141_run_partial.
Print Assumptions C141_version_refuted.
Print Assumptions C141_tarball_refuted.
