(** C140: runs without rollback. *)
From stdpp Require Import strings list gmap.
From Coq Require Import Ascii ZArith Lia.
From Verif.model Require Import GoStr Version Desc Nexus Pacman Graph RepoDb Plan Fs Rollback.
From Verif.spec Require Import LibSpec.
From Verif.proofs Require Import FsProofs RollbackProofs RunProofs RunProps RunProps2 RunLink ExampleChecks ExampleWorlds.
From Verif.props Require Import P_Graph P_Library.

Local Open Scope string_scope.

Lemma no_rollback_final c i w f : rc_no_rollback c = true -> rt_outcome (r_install c i w f) = Exit 0 ->
  run_final c i w f =
  run_ops (cleanup_ops c i (rw_install w (run_ops (prepare_ops c i) f))) (rw_install w (run_ops (prepare_ops c i) f)).
Proof.
  intros Hs Ho. unfold run_final. unfold r_install in *.
  destruct (_ && rc_strict c); [done|]. destruct (_ && match mkdir_all (rc_library c) f with _ => _ end); [done|].
  destruct (rw_download_fails w); [done|]. unfold run_changes. cbn [rt_prepare rt_install rt_rollback rt_cleanup].
  assert (rollback_ops c i w (run_ops [OInstall (rw_install w)] (run_ops (prepare_ops c i) f)) = []) as ->.
  { unfold rollback_ops. by rewrite Hs. }
  rewrite !run_ops_app. done.
Qed.

(** Whether or not installing fails: what is there afterwards is what was there after
    installing, without the backups of the packages that were to be replaced. *)
Theorem C140_exact c i sc w f : run_ok c i f -> world_ok c i sc w f -> rc_no_rollback c = true ->
  rt_outcome (r_install c i w f) = Exit 0 ->
  (forall q, (forall p, replaced c i p -> ~ in_dir (rc_library c ++ [backup_of p])%list q) ->
     run_final c i w f q = rw_install w (run_ops (prepare_ops c i) f) q) /\
  (forall p, replaced c i p -> no_dir (rc_library c) (backup_of p) (run_final c i w f)).
Proof.
  intros Hok Hw Hn Ho. rewrite no_rollback_final by done. unfold cleanup_ops.
  rewrite (plan_updates c i f Hok), (plan_additional c i f Hok). rewrite run_ops_app.
  set (f2 := rw_install w (run_ops (prepare_ops c i) f)).
  set (g := run_ops (delete_backups f2 (atts (rc_library c) (staged_updates c i))) f2).
  destruct (delete_spec (rc_library c) (staged_updates c i) f2) as (D1 & D2 & D3).
  destruct (delete_spec (rc_library c) (staged_overwrites i) g) as (E1 & E2 & E3). fold g in D2, D3.
  assert (tree_ok f2) as T2 by (apply Hw, (f1_tree_ok c i f Hok)).
  assert (tree_ok g) as T3.
  { unfold g. clear -T2. revert T2. generalize f2 as h. induction (staged_updates c i) as [|p l IH]; intros h T; [done|].
    cbn [atts map delete_backups ua_backup]. destruct (fs_exists _ _).
    - change (run_ops (ORemoveAll ?b :: ?o) h) with (run_ops o (remove_all b h)). by apply IH, remove_tree.
    - by apply IH. }
  assert (forall q, (forall p, replaced c i p -> ~ in_dir (rc_library c ++ [backup_of p])%list q) ->
    forall p s, replaced c i p -> q <> (rc_library c ++ backup_of p :: s)%list) as Hq.
  { intros q H p s Hp ->. apply (H p Hp). exists s. by rewrite <- app_assoc. }
  split.
  - intros q H. rewrite E3, D3; [done|..]; intros p s Hp; apply Hq; try done; [by apply (upd_replaced c i f Hok)|by apply (over_replaced c i f Hok)].
  - intros p Hp. destruct (decide (p ∈ staged_overwrites i)) as [Ho'|Ho']; [by apply E2|].
    apply (replaced_elem c i f Hok), elem_of_app in Hp as [Hp|?]; [|done].
    intros s. rewrite E3; [by apply D2|]. intros q t Hqq E. apply app_cons_inj in E as [E _].
    apply backup_inj in E as ->. done.
Qed.

(** What was installed stays; packages that were not to be replaced are as before; a
    package that was to be replaced is as installing left it, and before that it was not
    there any more. *)
Theorem C140_packages c i sc w f : run_ok c i f -> world_ok c i sc w f -> rc_no_rollback c = true ->
  rt_outcome (r_install c i w f) = Exit 0 ->
  let f2 := rw_install w (run_ops (prepare_ops c i) f) in
  (forall p, p ∈ required i -> same_dir (rc_library c) p (run_final c i w f) p f2) /\
  (forall p, r_name p -> is_Some (ri_preinstalled i !! p) -> ~ replaced c i p -> same_dir (rc_library c) p (run_final c i w f) p f) /\
  (forall p, replaced c i p -> f (rc_library c ++ [backup_of p])%list = None ->
     no_dir (rc_library c) p (run_ops (prepare_ops c i) f)).
Proof.
  intros Hok Hw Hn Ho f2. destruct (C140_exact c i sc w f Hok Hw Hn Ho) as [X1 X2]. split; [|split].
  - intros p Hp s. apply (ro_names _ _ _ Hok) in Hp. apply X1. intros q _ [t E]. rewrite <- app_assoc in E.
    apply app_cons_inj in E as [E _]. by apply (name_not_backup _ q) in Hp.
  - intros p H1 H2 H3. destruct (ip_create_library (ri_plan i)) eqn:Hc.
    + destruct (create_nothing c i f Hok Hc) as (_ & _ & N). rewrite N, lookup_empty in H2. by destruct H2.
    + by eapply C36_others_kept.
  - intros p Hp Hb. destruct (ip_create_library (ri_plan i)) eqn:Hc.
    + destruct (create_nothing c i f Hok Hc) as (_ & _ & N). apply (replaced_pre c i f Hok) in Hp.
      rewrite N, lookup_empty in Hp. by destruct Hp.
    + by apply (f1_staged c i f Hok Hc).
Qed.

(** No package of the library is lost if all that were to be replaced have been installed.
    Missing: failed installations, see C140_lost_refuted. *)
Theorem C140_partial c i sc w f : run_ok c i f -> world_ok c i sc w f -> rc_no_rollback c = true ->
  rt_outcome (r_install c i w f) = Exit 0 ->
  (forall p, replaced c i p -> rw_install w (run_ops (prepare_ops c i) f) (rc_library c ++ [p])%list = Some Dir) ->
  forall p, r_name p -> is_Some (ri_preinstalled i !! p) -> run_final c i w f (rc_library c ++ [p])%list = Some Dir.
Proof.
  intros Hok Hw Hn Ho Hi p Hp Hpre. destruct (C140_packages c i sc w f Hok Hw Hn Ho) as (X1 & X2 & _).
  destruct (decide (p ∈ (staged_updates c i ++ staged_overwrites i)%list)) as [Hr|Hr].
  - apply (replaced_elem c i f Hok) in Hr. specialize (X1 p (replaced_all c i p Hr) []). rewrite X1. by apply Hi.
  - specialize (X2 p Hp Hpre). rewrite (replaced_elem c i f Hok) in Hr. rewrite (X2 Hr []). by apply (ro_scan _ _ _ Hok).
Qed.

(** R fails on core, which is outdated: without rollback core is lost. *)
Theorem C140_lost_refuted : exists c i w f p, run_ok c i f /\ world_ok c i nowhere w f /\ rc_no_rollback c = true /\
  rt_outcome (r_install c i w f) = Exit 0 /\ failed w /\ r_name p /\ is_Some (ri_preinstalled i !! p) /\
  f (rc_library c ++ [p])%list = Some Dir /\ no_stale_backups c i f /\
  (forall x, x ∈ [p; backup_of p] -> run_final c i w f (rc_library c ++ [x])%list = None).
Proof.
  assert (run_ok (ex_conf false true) (ex_run ex_files ex_dirs []) (fs_of ex_files)) as Hok by (apply ex_run_ok; vm_compute; reflexivity).
  exists (ex_conf false true), (ex_run ex_files ex_dirs []), (RunWorld false (fun g => g) true false), (fs_of ex_files), "core".
  split; [done|]. split.
  { split; [|split].
    - intros q [].
    - split; [done|]. intros p _ _ _ s. done.
    - done. }
  split; [done|]. split; [vm_compute; reflexivity|]. split; [by left|]. split; [apply (r_nameb_all ["core"]); [vm_compute; reflexivity|by left]|].
  split; [eexists; vm_compute; reflexivity|]. split; [vm_compute; reflexivity|].
  split; [apply (no_staleb_sound _ _ _ Hok); vm_compute; reflexivity|].
  intros x Hx. apply elem_of_cons in Hx as [-> | Hx]; [vm_compute; reflexivity|]. apply elem_of_list_singleton in Hx as ->. vm_compute. reflexivity.
Qed.

(** R installs core and fails on another package: the new core stays, its backup does not. *)
Example C140_example :
  let c := ex_conf false true in let i := ex_run ex_files ex_dirs [] in let f := fs_of ex_files in
  run_ok c i f /\ world_ok c i nowhere fails f /\ rc_no_rollback c = true /\ failed fails /\
  rt_outcome (r_install c i fails f) = Exit 0 /\ replaced c i "core" /\
  rw_install fails (run_ops (prepare_ops c i) f) (L ++ ["__OLD__core"])%list = Some Dir /\
  run_final c i fails f (L ++ ["core"; "DESCRIPTION"])%list = Some (File "core 2.1.0") /\
  run_final c i fails f (L ++ ["__OLD__core"])%list = None /\
  run_final c i fails f (L ++ ["lib2"; "DESCRIPTION"])%list = Some (File "lib2 0.3").
Proof.
  intros c i f. assert (run_ok c i f) as Hok by (apply ex_run_ok; vm_compute; reflexivity).
  split; [exact Hok|]. split; [apply install_core_ok; vm_compute; tauto|]. split; [done|]. split; [by left|].
  split; [vm_compute; reflexivity|]. split; [left; apply elem_updates, elem_of_list_In; vm_compute; tauto|].
  vm_compute. repeat split.
Qed.

Print Assumptions C140_exact.
Print Assumptions C140_packages.
Print Assumptions C140_partial.
Print Assumptions C140_lost_refuted.
