(** C33-C40: the library through a run of `pkgr install`. *)
From stdpp Require Import strings list gmap relations sorting.
From Coq Require Import Ascii ZArith Lia.
From Verif.model Require Import GoStr Version Desc Nexus Pacman Graph RepoDb Plan Fs Rollback.
From Verif.spec Require Import VersionSpec RepoSpec GraphSpec PlanSpec LibSpec.
From Verif.proofs Require Import RepoProofs FetchProofs GraphProofs LayerProofs PlanProofs PlanProps SettingsProofs DerivedProofs FsProofs RollbackProofs RunProofs RunProps RunProps2
  RunLink ExampleChecks ExampleWorlds.
From Verif.props Require Import P_Graph.

Local Open Scope string_scope.

(** ** Example library: core 2.0 (outdated), lib2 (up to date), foo (not in any repository) *)
Definition L : list string := ["srv"; "lib"].

Definition ex_files : list (list string * node) :=
  [([], Dir); (["srv"], Dir); (L, Dir);
   (L ++ ["core"], Dir)%list; (L ++ ["core"; "DESCRIPTION"], File "core 2.0")%list;
   (L ++ ["core"; "R"], Dir)%list; (L ++ ["core"; "R"; "core.rdb"], File "code")%list;
   (L ++ ["lib2"], Dir)%list; (L ++ ["lib2"; "DESCRIPTION"], File "lib2 0.3")%list;
   (L ++ ["foo"], Dir)%list; (L ++ ["foo"; "DESCRIPTION"], File "foo 1")%list;
   (["srv"; "data"], File "rows")].

Definition stale_files : list (list string * node) :=
  (ex_files ++ [(L ++ ["__OLD__core"], Dir); (L ++ ["__OLD__core"; "DESCRIPTION"], File "core 1.0")])%list.

Definition junk_files : list (list string * node) :=
  (ex_files ++ [(L ++ ["lib1"], Dir); (L ++ ["lib1"; "notes"], File "mine")])%list.

Definition mk_inst (name ver : string) : string * option desc := (name, Some (mk_pkg name ver [] [] [] [])).
Definition ex_dirs : list (string * option desc) := [mk_inst "core" "2.0.0"; mk_inst "foo" "1.0"; mk_inst "lib2" "0.3"].
Definition stale_dirs : list (string * option desc) := (("__OLD__core", Some (mk_pkg "core" "1.0.0" [] [] [] [])) :: ex_dirs)%list.
Definition junk_dirs : list (string * option desc) := (("lib1", None) :: ex_dirs)%list.

Definition no_plan : install_plan := InstallPlan [] ∅ [] [] ∅ true false.

(** The request app, with tarballs [add], on a library with the given contents. *)
Definition ex_reqs (files : list (list string * node)) (dirs : list (string * option desc)) : plan_result :=
  resolve_installation_reqs id_oracle ["app"] (found (fs_of files) L dirs) ex_cfg ex_nx true
    (fs_dir_exists (fs_of files) L) false.

Definition ex_run (files : list (list string * node)) (dirs : list (string * option desc)) (add : list string) :
  run_input :=
  let ip := plan_of (ex_reqs files dirs) no_plan in
  RunInput ip (elements (dom (D := gset string) (ip_depdb ip))) add add (found (fs_of files) L dirs).

Definition ex_conf (no_update no_rollback : bool) : run_config := RunConfig L false no_update no_rollback.

Lemma ex_run_ok files dirs add nu nrb :
  tree_okb files && lists_libraryb files L dirs && plan_okb (ex_reqs files dirs) &&
  bool_decide (NoDup add) && forallb r_nameb (required (ex_run files dirs add)) = true ->
  run_ok (ex_conf nu nrb) (ex_run files dirs add) (fs_of files).
Proof.
  intros H. apply andb_true_iff in H as [H H5]. apply andb_true_iff in H as [H H4].
  apply andb_true_iff in H as [H H3]. apply andb_true_iff in H as [H1 H2].
  eapply (planned_run_ok (ex_conf nu nrb) _ dirs ex_nx false id_oracle ["app"] ex_cfg true).
  - exact ex_nexus_ok.
  - apply no_record_unavailable, ex_no_R.
  - exact id_oracle_ok.
  - exact ex_cfg_standard.
  - apply availableb_all. vm_compute. reflexivity.
  - by apply tree_okb_sound.
  - by apply lists_libraryb_sound.
  - cbn [rc_library ex_conf]. by apply (plan_of_eq _ no_plan).
  - done.
  - by apply bool_decide_eq_true in H4.
  - by apply r_nameb_all.
Qed.

(** No scratch places. *)
Definition nowhere : path -> Prop := fun _ => False.

(** R installs core, and fails on lib1. *)
Definition install_core : fsys -> fsys := put_new L "core" "core 2.1.0".
Definition fails : run_world := RunWorld false install_core true false.

Lemma install_core_ok i : In "core" (required i) -> forall nu nrb d e1 e2,
  forall f, world_ok (ex_conf nu nrb) i nowhere (RunWorld d install_core e1 e2) f.
Proof. intros H nu nrb d e1 e2 f. apply good_world, put_new_good. by apply elem_of_list_In. Qed.

(** Planning gives the facts on which the theorems below rest. *)
Theorem C33_planned_runs : forall c f dirs nx nr o pkgs cfg update ip keys add add',
  nexus_ok nx -> ~ available nx "R" -> oracle_ok o -> standard_config nr cfg ->
  (forall p, p ∈ pkgs -> available nx p) -> tree_ok f -> lists_library f (rc_library c) dirs ->
  resolve_installation_reqs o pkgs (found f (rc_library c) dirs) cfg nx update
    (fs_dir_exists f (rc_library c)) nr = PlanOk ip ->
  add' ≡ₚ add -> NoDup add ->
  (forall p, p ∈ get_all_packages ip keys add -> r_name p) ->
  run_ok c (RunInput ip keys add add' (found f (rc_library c) dirs)) f.
Proof. exact planned_run_ok. Qed.
Print Assumptions C33_planned_runs.

(** C33.  Full statement: as below, without [no_stale_backups], [new_are_absent],
    the disjointness and the download hypothesis; each of them is needed, as the
    refutations show. *)
Theorem C33_rolled_back_partial : forall c i sc w f, run_ok c i f -> world_ok c i sc w f ->
  ip_create_library (ri_plan i) = false ->
  no_stale_backups c i f -> new_are_absent c i f -> (forall p, updated c i p -> ~ overwritten i p) ->
  rc_no_rollback c = false -> failed w -> rw_download_fails w = false ->
  (forall q, ~ sc q -> run_final c i w f q = f q) /\ rt_outcome (r_install c i w f) = Exit 0.
Proof. exact run_rolled_back. Qed.
Print Assumptions C33_rolled_back_partial.

Lemma ex_ok : run_ok (ex_conf false false) (ex_run ex_files ex_dirs []) (fs_of ex_files).
Proof. apply ex_run_ok. vm_compute. reflexivity. Qed.

Example C33_example :
  let c := ex_conf false false in let i := ex_run ex_files ex_dirs [] in let f := fs_of ex_files in
  run_ok c i f /\ world_ok c i nowhere fails f /\ ip_create_library (ri_plan i) = false /\
  no_stale_backups c i f /\ new_are_absent c i f /\ (forall p, updated c i p -> ~ overwritten i p) /\
  failed fails /\
  staged_updates c i = ["core"] /\
  run_ops (prepare_ops c i) f (L ++ ["core"])%list = None /\
  rw_install fails (run_ops (prepare_ops c i) f) (L ++ ["core"; "DESCRIPTION"])%list = Some (File "core 2.1.0") /\
  run_final c i fails f (L ++ ["core"; "DESCRIPTION"])%list = Some (File "core 2.0") /\
  run_final c i fails f (L ++ ["__OLD__core"])%list = None.
Proof.
  intros c i f. split; [exact ex_ok|]. split; [apply install_core_ok; vm_compute; tauto|].
  split; [vm_compute; reflexivity|].
  split; [apply (no_staleb_sound _ _ _ ex_ok); vm_compute; reflexivity|].
  split; [apply new_absentb_sound; vm_compute; reflexivity|].
  split; [apply (disjointb_sound _ _ _ ex_ok); vm_compute; reflexivity|].
  split; [by left|]. vm_compute. repeat split.
Qed.

(** core is outdated and also given as a tarball: it is staged twice, and the
    second restoration deletes what the first one restored. *)
Theorem C33_double_listing_refuted : exists c i w f, run_ok c i f /\ world_ok c i nowhere w f /\
  ip_create_library (ri_plan i) = false /\ no_stale_backups c i f /\ new_are_absent c i f /\
  rc_no_rollback c = false /\ failed w /\ rw_download_fails w = false /\
  exists p, is_Some (ri_preinstalled i !! p) /\
    f (rc_library c ++ [p])%list = Some Dir /\
    run_final c i w f (rc_library c ++ [p])%list = None /\
    run_final c i w f (rc_library c ++ [backup_of p])%list = None.
Proof.
  assert (run_ok (ex_conf false false) (ex_run ex_files ex_dirs ["core"]) (fs_of ex_files)) as H
    by (apply ex_run_ok; vm_compute; reflexivity).
  exists (ex_conf false false), (ex_run ex_files ex_dirs ["core"]), fails, (fs_of ex_files).
  split; [done|]. split; [apply install_core_ok; vm_compute; tauto|]. split; [vm_compute; reflexivity|].
  split; [apply (no_staleb_sound _ _ _ H); vm_compute; reflexivity|].
  split; [apply new_absentb_sound; vm_compute; reflexivity|]. split; [done|]. split; [by left|]. split; [done|].
  exists "core". split; [eexists; vm_compute; reflexivity|]. vm_compute. repeat split.
Qed.
Print Assumptions C33_double_listing_refuted.

(** A backup directory left by an earlier run makes the renaming fail; rolling
    back then deletes the package and puts the old backup in its place. *)
Theorem C33_stale_backup_refuted : exists c i w f, run_ok c i f /\ world_ok c i nowhere w f /\
  ip_create_library (ri_plan i) = false /\ new_are_absent c i f /\
  (forall p, updated c i p -> ~ overwritten i p) /\
  rc_no_rollback c = false /\ failed w /\ rw_download_fails w = false /\
  f (rc_library c ++ ["core"; "DESCRIPTION"])%list = Some (File "core 2.0") /\
  run_final c i w f (rc_library c ++ ["core"; "DESCRIPTION"])%list = Some (File "core 1.0").
Proof.
  assert (run_ok (ex_conf false false) (ex_run stale_files stale_dirs []) (fs_of stale_files)) as H
    by (apply ex_run_ok; vm_compute; reflexivity).
  exists (ex_conf false false), (ex_run stale_files stale_dirs []), fails, (fs_of stale_files).
  split; [done|]. split; [apply install_core_ok; vm_compute; tauto|]. split; [vm_compute; reflexivity|].
  split; [apply new_absentb_sound; vm_compute; reflexivity|].
  split; [apply (disjointb_sound _ _ _ H); vm_compute; reflexivity|].
  split; [done|]. split; [by left|]. split; [done|]. vm_compute. repeat split.
Qed.
Print Assumptions C33_stale_backup_refuted.

(** A planned package's directory without a readable DESCRIPTION is taken for new and deleted. *)
Theorem C33_unreadable_dir_refuted : exists c i w f, run_ok c i f /\ world_ok c i nowhere w f /\
  ip_create_library (ri_plan i) = false /\ no_stale_backups c i f /\
  (forall p, updated c i p -> ~ overwritten i p) /\
  rc_no_rollback c = false /\ failed w /\ rw_download_fails w = false /\
  f (rc_library c ++ ["lib1"; "notes"])%list = Some (File "mine") /\
  run_final c i w f (rc_library c ++ ["lib1"; "notes"])%list = None.
Proof.
  assert (run_ok (ex_conf false false) (ex_run junk_files junk_dirs []) (fs_of junk_files)) as H
    by (apply ex_run_ok; vm_compute; reflexivity).
  exists (ex_conf false false), (ex_run junk_files junk_dirs []), fails, (fs_of junk_files).
  split; [done|]. split; [apply install_core_ok; vm_compute; tauto|]. split; [vm_compute; reflexivity|].
  split; [apply (no_staleb_sound _ _ _ H); vm_compute; reflexivity|].
  split; [apply (disjointb_sound _ _ _ H); vm_compute; reflexivity|].
  split; [done|]. split; [by left|]. split; [done|]. vm_compute. repeat split.
Qed.
Print Assumptions C33_unreadable_dir_refuted.

(** A failing download ends the process after the packages were moved to their backups. *)
Theorem C33_download_refuted : exists c i w f, run_ok c i f /\ world_ok c i nowhere w f /\
  ip_create_library (ri_plan i) = false /\ no_stale_backups c i f /\ new_are_absent c i f /\
  (forall p, updated c i p -> ~ overwritten i p) /\
  rc_no_rollback c = false /\ rw_download_fails w = true /\
  f (rc_library c ++ ["core"])%list = Some Dir /\
  run_final c i w f (rc_library c ++ ["core"])%list = None.
Proof.
  exists (ex_conf false false), (ex_run ex_files ex_dirs []), (RunWorld true install_core false false), (fs_of ex_files).
  split; [exact ex_ok|]. split; [apply install_core_ok; vm_compute; tauto|].
  split; [vm_compute; reflexivity|].
  split; [apply (no_staleb_sound _ _ _ ex_ok); vm_compute; reflexivity|].
  split; [apply new_absentb_sound; vm_compute; reflexivity|].
  split; [apply (disjointb_sound _ _ _ ex_ok); vm_compute; reflexivity|].
  vm_compute. repeat split.
Qed.
Print Assumptions C33_download_refuted.

(** A tarball whose DESCRIPTION has no Package field: the whole library is deleted. *)
Theorem C33_empty_name_refuted : exists c i w f,
  ri_additional i = [""] /\ tree_ok f /\ world_ok c i nowhere w f /\ ip_create_library (ri_plan i) = false /\
  rc_no_rollback c = false /\ failed w /\ rw_download_fails w = false /\
  f (rc_library c ++ ["foo"; "DESCRIPTION"])%list = Some (File "foo 1") /\
  (forall s, run_final c i w f (rc_library c ++ s)%list = None).
Proof.
  exists (ex_conf true false), (RunInput (plan_of (ex_reqs ex_files ex_dirs) no_plan) [] [""] [""]
    (found (fs_of ex_files) L ex_dirs)), (RunWorld false (fun g => g) false true), (fs_of ex_files).
  split; [done|]. split; [apply tree_okb_sound; vm_compute; reflexivity|].
  split; [apply good_world, good_id|]. split; [vm_compute; reflexivity|].
  split; [done|]. split; [by right|]. split; [done|]. split; [vm_compute; reflexivity|].
  intros s. vm_compute. reflexivity.
Qed.
Print Assumptions C33_empty_name_refuted.

(** C34.  Full statement: nothing outside the library differs afterwards.  Missing:
    ancestors of the library that MkdirAll created stay. *)
Theorem C34_created_library_removed_partial : forall c i sc w f, run_ok c i f -> world_ok c i sc w f ->
  ip_create_library (ri_plan i) = true -> rc_no_rollback c = false -> failed w ->
  rt_outcome (r_install c i w f) = Exit 0 ->
  (forall s, run_final c i w f (rc_library c ++ s)%list = None) /\
  (forall q, ~ sc q -> ~ in_dir (rc_library c) q ->
     run_final c i w f q = f q \/ (in_dir q (rc_library c) /\ f q = None /\ run_final c i w f q = Some Dir)) /\
  (rc_library c <> [] -> f (removelast (rc_library c)) = Some Dir ->
     forall q, ~ sc q -> run_final c i w f q = f q).
Proof. exact created_removed. Qed.
Print Assumptions C34_created_library_removed_partial.

Definition empty_files : list (list string * node) := [([], Dir); (["srv"], Dir); (["srv"; "data"], File "rows")].

Example C34_example :
  let c := ex_conf false false in let i := ex_run empty_files [] [] in let f := fs_of empty_files in
  run_ok c i f /\ world_ok c i nowhere fails f /\ ip_create_library (ri_plan i) = true /\ failed fails /\
  rt_outcome (r_install c i fails f) = Exit 0 /\
  rw_install fails (run_ops (prepare_ops c i) f) (L ++ ["core"; "DESCRIPTION"])%list = Some (File "core 2.1.0") /\
  run_final c i fails f L = None /\ run_final c i fails f ["srv"; "data"] = Some (File "rows").
Proof.
  intros c i f. split; [apply ex_run_ok; vm_compute; reflexivity|].
  split; [apply install_core_ok; vm_compute; tauto|]. split; [vm_compute; reflexivity|].
  split; [by left|]. vm_compute. repeat split.
Qed.

Theorem C34_parents_refuted : exists c i w f, run_ok c i f /\ world_ok c i nowhere w f /\
  ip_create_library (ri_plan i) = true /\ rc_no_rollback c = false /\ failed w /\
  rt_outcome (r_install c i w f) = Exit 0 /\ exists q, f q = None /\ run_final c i w f q = Some Dir.
Proof.
  exists (ex_conf false false), (ex_run [([], Dir)] [] []), fails, (fs_of [([], Dir)]).
  split; [apply ex_run_ok; vm_compute; reflexivity|].
  split; [apply install_core_ok; vm_compute; tauto|]. split; [vm_compute; reflexivity|].
  split; [done|]. split; [by left|]. split; [vm_compute; reflexivity|]. exists ["srv"]. vm_compute. repeat split.
Qed.
Print Assumptions C34_parents_refuted.

(** C35: at every moment of a run, also when it is cut short. *)
Theorem C35_frame : forall c i sc w f f' q, run_ok c i f -> world_ok c i sc w f ->
  ip_create_library (ri_plan i) = false -> ~ sc q ->
  (forall x, x ∈ required i \/ (exists p, replaced c i p /\ x = backup_of p) ->
     ~ in_dir (rc_library c ++ [x])%list q) ->
  interrupted (rc_library c) sc (required i) (ri_additional i) (run_changes (r_install c i w f)) f f' ->
  f' q = f q.
Proof.
  intros c i sc w f f' q H1 H2 H3 Hsc H4. apply (run_frame c i f H1 sc w f' q H2 Hsc H3).
  intros x s Hx ->. apply (H4 x Hx). exists s. by rewrite slot_eq.
Qed.
Print Assumptions C35_frame.

Theorem C35_frame_new_library : forall c i sc w f f' q, run_ok c i f -> world_ok c i sc w f ->
  ip_create_library (ri_plan i) = true -> ~ sc q -> ~ in_dir (rc_library c) q ->
  interrupted (rc_library c) sc (required i) (ri_additional i) (run_changes (r_install c i w f)) f f' ->
  f' q = f q \/ (in_dir q (rc_library c) /\ f q = None /\ f' q = Some Dir).
Proof. exact created_frame. Qed.
Print Assumptions C35_frame_new_library.

(** The end of a run is one of these moments. *)
Theorem C35_end : forall c i sc w f,
  interrupted (rc_library c) sc (required i) (ri_additional i) (run_changes (r_install c i w f)) f (run_final c i w f).
Proof. intros c i sc w f. apply interrupted_end. Qed.
Print Assumptions C35_end.

Example C35_example :
  let c := ex_conf false false in let i := ex_run ex_files ex_dirs [] in let f := fs_of ex_files in
  let ok := RunWorld false install_core false false in
  run_ok c i f /\ world_ok c i nowhere ok f /\ ip_create_library (ri_plan i) = false /\
  length (run_changes (r_install c i ok f)) = 3 /\
  run_final c i ok f (L ++ ["foo"; "DESCRIPTION"])%list = Some (File "foo 1") /\
  run_final c i ok f (L ++ ["core"; "DESCRIPTION"])%list = Some (File "core 2.1.0") /\
  run_final c i ok f ["srv"; "data"] = Some (File "rows").
Proof.
  intros c i f ok. split; [exact ex_ok|]. split; [apply install_core_ok; vm_compute; tauto|].
  vm_compute. repeat split.
Qed.

(** C36.  Every planned package has what the installation left in its place, and
    that was installed into an empty slot if the package was to be replaced and no
    backup was in the way; with [C36_others_kept] the rest is unchanged.  Full
    statement: without "no backup was in the way". *)
Theorem C36_success_partial : forall c i sc w f, run_ok c i f -> world_ok c i sc w f -> ~ failed w ->
  rt_outcome (r_install c i w f) = Exit 0 ->
  (forall p, p ∈ required i ->
     same_dir (rc_library c) p (run_final c i w f) p (rw_install w (run_ops (prepare_ops c i) f))) /\
  (forall p, replaced c i p -> no_dir (rc_library c) (backup_of p) (run_final c i w f)) /\
  (forall p, replaced c i p -> f (rc_library c ++ [backup_of p])%list = None ->
     no_dir (rc_library c) p (run_ops (prepare_ops c i) f)).
Proof. exact success. Qed.
Print Assumptions C36_success_partial.

Theorem C36_others_kept : forall c i sc w f p, run_ok c i f -> world_ok c i sc w f ->
  ip_create_library (ri_plan i) = false -> r_name p -> is_Some (ri_preinstalled i !! p) -> ~ replaced c i p ->
  same_dir (rc_library c) p (run_final c i w f) p f.
Proof.
  intros c i sc w f p H1 H2 H3 H4 H5 H6. eapply left_alone; [done..|]. apply interrupted_end.
Qed.
Print Assumptions C36_others_kept.

Example C36_example :
  let c := ex_conf false false in let i := ex_run ex_files ex_dirs [] in let f := fs_of ex_files in
  let ok := RunWorld false install_core false false in
  run_ok c i f /\ world_ok c i nowhere ok f /\ ~ failed ok /\ rt_outcome (r_install c i ok f) = Exit 0 /\
  f (L ++ ["__OLD__core"])%list = None /\
  run_final c i ok f (L ++ ["core"; "DESCRIPTION"])%list = Some (File "core 2.1.0") /\
  run_final c i ok f (L ++ ["core"; "R"; "core.rdb"])%list = None /\
  run_final c i ok f (L ++ ["__OLD__core"])%list = None /\
  run_final c i ok f (L ++ ["lib2"; "DESCRIPTION"])%list = Some (File "lib2 0.3").
Proof.
  intros c i f ok. split; [exact ex_ok|]. split; [apply install_core_ok; vm_compute; tauto|].
  split; [intros [?|?]; done|]. vm_compute. repeat split.
Qed.

(** With a left-over backup the update is silently skipped and the run succeeds. *)
Theorem C36_stale_backup_refuted : exists c i w f, run_ok c i f /\ world_ok c i nowhere w f /\ ~ failed w /\
  rt_outcome (r_install c i w f) = Exit 0 /\ updated c i "core" /\
  (forall g, g L = Some Dir -> g (L ++ ["core"])%list = None ->
     rw_install w g (L ++ ["core"; "DESCRIPTION"])%list = Some (File "core 2.1.0")) /\
  run_final c i w f (rc_library c ++ ["core"; "DESCRIPTION"])%list = Some (File "core 2.0").
Proof.
  assert (run_ok (ex_conf false false) (ex_run stale_files stale_dirs []) (fs_of stale_files)) as H
    by (apply ex_run_ok; vm_compute; reflexivity).
  exists (ex_conf false false), (ex_run stale_files stale_dirs []), (RunWorld false install_core false false),
    (fs_of stale_files).
  split; [done|]. split; [apply install_core_ok; vm_compute; tauto|].
  split; [intros [?|?]; done|]. split; [vm_compute; reflexivity|].
  split; [apply elem_updates, elem_of_list_In; vm_compute; tauto|].
  split; [|vm_compute; reflexivity].
  intros g H1 H2. cbn [rw_install]. unfold install_core, put_new, fs_dir_exists, fs_exists. rewrite H1, H2.
  vm_compute. reflexivity.
Qed.
Print Assumptions C36_stale_backup_refuted.

(** C37.  Full statement: without the hypothesis on left-over backups. *)
Theorem C37_interrupted_partial : forall c i sc w f, run_ok c i f -> world_ok c i sc w f ->
  ip_create_library (ri_plan i) = false -> forall f' p,
  interrupted (rc_library c) sc (required i) (ri_additional i) (prepare_ops c i ++ [OInstall (rw_install w)])%list f f' ->
  replaced c i p -> f (rc_library c ++ [backup_of p])%list = None ->
  same_dir (rc_library c) p f' p f \/ same_dir (rc_library c) (backup_of p) f' p f.
Proof. exact interrupted_safe. Qed.
Print Assumptions C37_interrupted_partial.

(** Also while rolling back. *)
Theorem C37_rollback_partial : forall c i sc w f, run_ok c i f -> world_ok c i sc w f ->
  ip_create_library (ri_plan i) = false -> no_stale_backups c i f ->
  (forall p, updated c i p -> ~ overwritten i p) -> rc_no_rollback c = false -> failed w -> forall f' p,
  interrupted (rc_library c) sc (required i) (ri_additional i)
    (rollback_ops c i w (rw_install w (run_ops (prepare_ops c i) f)))
    (rw_install w (run_ops (prepare_ops c i) f)) f' ->
  replaced c i p ->
  same_dir (rc_library c) p f' p f \/ same_dir (rc_library c) (backup_of p) f' p f.
Proof. exact rollback_safe. Qed.
Print Assumptions C37_rollback_partial.

(** Cut short after core was moved away: its old contents are in the backup. *)
Example C37_example :
  let c := ex_conf false false in let i := ex_run ex_files ex_dirs [] in let f := fs_of ex_files in
  let f' := run_ops (prepare_ops c i) f in
  run_ok c i f /\ world_ok c i nowhere fails f /\ replaced c i "core" /\
  interrupted (rc_library c) nowhere (required i) (ri_additional i) (prepare_ops c i ++ [OInstall install_core])%list f f' /\
  f' (L ++ ["core"])%list = None /\ f' (L ++ ["__OLD__core"; "DESCRIPTION"])%list = Some (File "core 2.0").
Proof.
  intros c i f f'. split; [exact ex_ok|]. split; [apply install_core_ok; vm_compute; tauto|].
  split; [left; apply elem_updates, elem_of_list_In; vm_compute; tauto|].
  split; [apply interrupted_mid|]. vm_compute. repeat split.
Qed.

(** R replaces core, given as a tarball, while a left-over backup is in the way. *)
Theorem C37_stale_backup_refuted : exists c i w f f', run_ok c i f /\ world_ok c i nowhere w f /\
  ip_create_library (ri_plan i) = false /\
  interrupted (rc_library c) nowhere (required i) (ri_additional i) (prepare_ops c i ++ [OInstall (rw_install w)])%list f f' /\
  replaced c i "core" /\
  ~ same_dir (rc_library c) "core" f' "core" f /\ ~ same_dir (rc_library c) (backup_of "core") f' "core" f.
Proof.
  assert (run_ok (ex_conf true false) (ex_run stale_files stale_dirs ["core"]) (fs_of stale_files)) as H
    by (apply ex_run_ok; vm_compute; reflexivity).
  set (w := RunWorld false (put_over L "core" "core 3.0") false true).
  exists (ex_conf true false), (ex_run stale_files stale_dirs ["core"]), w, (fs_of stale_files).
  eexists. split; [done|].
  split; [apply good_world, put_over_good; apply elem_of_list_In; vm_compute; tauto|].
  split; [vm_compute; reflexivity|]. split; [apply interrupted_end|].
  split; [right; split; [apply elem_of_list_In; vm_compute; tauto|eexists; vm_compute; reflexivity]|].
  split; intros E; specialize (E ["DESCRIPTION"]); vm_compute in E; congruence.
Qed.
Print Assumptions C37_stale_backup_refuted.

(** C38 *)
Theorem C38_no_update : forall c i sc w f f' p, run_ok c i f -> world_ok c i sc w f ->
  ip_create_library (ri_plan i) = false -> rc_no_update c = true -> r_name p ->
  is_Some (ri_preinstalled i !! p) -> p ∉ ri_additional i ->
  interrupted (rc_library c) sc (required i) (ri_additional i) (run_changes (r_install c i w f)) f f' ->
  same_dir (rc_library c) p f' p f.
Proof.
  intros c i sc w f f' p H1 H2 H3 H4 H5 H6 H7. eapply left_alone; [done..|].
  intros [(E & _)|[E _]]; [congruence|done].
Qed.
Print Assumptions C38_no_update.

Example C38_example :
  let c := ex_conf true false in let i := ex_run ex_files ex_dirs [] in let f := fs_of ex_files in
  run_ok c i f /\ world_ok c i nowhere fails f /\ ip_create_library (ri_plan i) = false /\ rc_no_update c = true /\
  map op_package (ip_outdated (ri_plan i)) = ["core"] /\ is_Some (ri_preinstalled i !! "core") /\
  run_final c i fails f (L ++ ["core"; "DESCRIPTION"])%list = Some (File "core 2.0").
Proof.
  intros c i f. split; [apply ex_run_ok; vm_compute; reflexivity|].
  split; [apply install_core_ok; vm_compute; tauto|].
  do 3 (split; [vm_compute; reflexivity|]). split; [eexists; vm_compute; reflexivity|]. vm_compute. reflexivity.
Qed.

(** C39 *)
Theorem C39_strict : forall c i w f, run_ok c i f -> rc_strict c = true -> f (rc_library c) <> Some Dir ->
  run_changes (r_install c i w f) = [] /\ rt_outcome (r_install c i w f) = Fatal.
Proof.
  intros c i w f H1 H2 H3. apply strict_untouched; [done|]. by apply (ro_create _ _ _ H1).
Qed.
Print Assumptions C39_strict.

Example C39_example :
  let c := RunConfig L true false false in let i := ex_run empty_files [] [] in let f := fs_of empty_files in
  f L <> Some Dir /\ r_install c i fails f = RunTrace [] [] [] [] Fatal /\
  length (run_changes (r_install (ex_conf false false) i fails f)) = 3.
Proof. intros c i f. split; [done|]. vm_compute. repeat split. Qed.

(** C40: the command ends normally whatever failed, so the status is 0. *)
Theorem C40_exit_status_refuted : forall c i w f, failed w -> rw_download_fails w = false ->
  (ip_create_library (ri_plan i) = true -> rc_strict c = false /\ is_Some (mkdir_all (rc_library c) f)) ->
  rt_outcome (r_install c i w f) = Exit 0.
Proof.
  intros c i w f _ Hd Hc. unfold r_install. rewrite Hd.
  destruct (ip_create_library (ri_plan i)); cbn [andb]; [|done].
  destruct (Hc eq_refl) as [-> [g ->]]. done.
Qed.
Print Assumptions C40_exit_status_refuted.

(** What does hold: a failing download or a library that cannot be made is visible. *)
Theorem C40_fatal_partial : forall c i w f, rt_outcome (r_install c i w f) = Exit 0 ->
  rw_download_fails w = false /\
  (ip_create_library (ri_plan i) = true -> rc_strict c = false /\ is_Some (mkdir_all (rc_library c) f)).
Proof.
  intros c i w f. unfold r_install.
  destruct (ip_create_library (ri_plan i)), (rc_strict c), (mkdir_all (rc_library c) f), (rw_download_fails w);
    cbn; intros H; try done; (split; [done|]); intros ?; try done; (split; [done|by eexists]).
Qed.
Print Assumptions C40_fatal_partial.

Example C40_example :
  failed fails /\ rt_outcome (r_install (ex_conf false false) (ex_run ex_files ex_dirs []) fails (fs_of ex_files)) = Exit 0 /\
  rt_outcome (r_install (ex_conf false false) (ex_run ex_files ex_dirs []) (RunWorld true install_core false false)
    (fs_of ex_files)) = Fatal.
Proof. split; [by left|]. vm_compute. repeat split. Qed.
