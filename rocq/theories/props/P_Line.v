(** C159: from the command line of install to the library. *)
From stdpp Require Import strings list gmap.
From Coq Require Import Ascii ZArith Lia.
From Verif.model Require Import GoStr Version Desc Nexus Pacman Graph RepoDb Plan Fs Config Rollback Sched Customs Flags Cli.
From Verif.spec Require Import LibSpec SchedSpec CliSpec LineSpec.
From Verif.proofs Require Import FsProofs RollbackProofs RunProofs RunProps RunProps2 RunLink ExampleChecks ExampleWorlds CliProofs.
From Verif.props Require Import P_Graph P_Library P_NoRollback P_Sched P_Cli.

Local Open Scope string_scope.

(** A line for install starts an installation, with the settings of the line, the
    environment and the file. *)
Theorem C159_starts : forall int ts cpus va k, install_line int ts ->
  exists s, starts_install int (line_of ts) cpus va k s.
Proof.
  intros int ts cpus va k [[ws H] Hh].
  destruct (C158_meant int ["install"] ts ws (cc_down pkgr ++ [])%list (CliCommand "install" true [] [] []) H eq_refl eq_refl) as (g & _ & E).
  rewrite bool_decide_false in E by done. eexists. exists g, ws. split; [exact E|reflexivity].
Qed.
Print Assumptions C159_starts.

(** The settings that the line gives. *)
Lemma line_settings int ts cpus va k s : install_line int ts -> starts_install int (line_of ts) cpus va k s ->
  (forall l, last_given "library" (given_in ts) = Some l -> se_library s = l) /\
  (forall b, bool_given "no-rollback" (given_in ts) = Some b -> se_no_rollback s = b) /\
  (forall b, bool_given "strict" (given_in ts) = Some b -> se_strict s = b) /\
  (forall b, bool_given "no-update" (given_in ts) = Some b -> bool_given "update" (given_in ts) <> Some true -> se_no_update s = b) /\
  (forall v t, last_given "threads" (given_in ts) = Some v -> int v = Some t -> se_threads s = t).
Proof.
  intros [[ws H] Hh] (g & ws' & E & ->).
  assert (command_at [] pkgr ["install"] = Some ((cc_down pkgr ++ [])%list, CliCommand "install" true [] [] [])) as Hc by reflexivity.
  destruct (C158_settings int ["install"] ts ws _ _ cpus va k H Hc eq_refl Hh) as (g1 & E1 & S1 & S2 & _ & S4 & S5 & _).
  destruct (C158_meant int ["install"] ts ws _ _ H Hc eq_refl) as (g2 & L2 & E2). rewrite bool_decide_false in E2 by done.
  assert (g = g1) as <- by congruence. assert (g = g2) as <- by congruence.
  split; [exact S1|]. split; [exact S2|]. split; [exact S4|]. split; [exact S5|].
  intros v t Hv Ht. assert (fl_threads (flags_of int g) = Some t) as Hf.
  { unfold flags_of. cbn [fl_threads]. by rewrite L2, Hv. }
  unfold init_settings, unmarshal. rewrite Hf. by destruct (fl_update _).
Qed.

(** With --no-update the packages of the library stay as they are. *)
Theorem C159_no_update : forall int ts cpus va k s lib i sc w f f' p,
  install_line int ts -> starts_install int (line_of ts) cpus va k s ->
  bool_given "no-update" (given_in ts) = Some true -> bool_given "update" (given_in ts) <> Some true ->
  let c := run_conf lib s in
  run_ok c i f -> world_ok c i sc w f ->
  ip_create_library (ri_plan i) = false -> r_name p -> is_Some (ri_preinstalled i !! p) -> p ∉ ri_additional i ->
  interrupted (Rollback.rc_library c) sc (required i) (ri_additional i) (run_changes (r_install c i w f)) f f' ->
  same_dir (Rollback.rc_library c) p f' p f.
Proof.
  intros int ts cpus va k s lib i sc w f f' p Hl Hs Hn Hu c H1 H2 H3 H4 H5 H6 H7.
  apply (C38_no_update c i sc w f f' p H1 H2 H3); try done.
  destruct (line_settings int ts cpus va k s Hl Hs) as (_ & _ & _ & S & _). cbn. by apply S.
Qed.
Print Assumptions C159_no_update.

(** With --strict no library is created. *)
Theorem C159_strict : forall int ts cpus va k s lib i w f,
  install_line int ts -> starts_install int (line_of ts) cpus va k s -> bool_given "strict" (given_in ts) = Some true ->
  let c := run_conf lib s in
  run_ok c i f -> f lib <> Some Dir ->
  run_changes (r_install c i w f) = [] /\ rt_outcome (r_install c i w f) = Fatal.
Proof.
  intros int ts cpus va k s lib i w f Hl Hs Hg c H1 H2.
  apply C39_strict; [done| |done]. destruct (line_settings int ts cpus va k s Hl Hs) as (_ & _ & S & _). cbn. by apply S.
Qed.
Print Assumptions C159_strict.

(** With --no-rollback=false a run that fails is rolled back, whatever the file says. *)
Theorem C159_rollback : forall int ts cpus va k s lib i sc w f,
  install_line int ts -> starts_install int (line_of ts) cpus va k s -> bool_given "no-rollback" (given_in ts) = Some false ->
  let c := run_conf lib s in
  run_ok c i f -> world_ok c i sc w f -> ip_create_library (ri_plan i) = false ->
  no_stale_backups c i f -> new_are_absent c i f -> (forall p, updated c i p -> ~ overwritten i p) ->
  failed w -> rw_download_fails w = false ->
  forall q, ~ sc q -> run_final c i w f q = f q.
Proof.
  intros int ts cpus va k s lib i sc w f Hl Hs Hg c H1 H2 H3 H4 H5 H6 H7 H8.
  apply (C33_rolled_back_partial c i sc w f); try done.
  destruct (line_settings int ts cpus va k s Hl Hs) as (_ & S & _). cbn. by apply S.
Qed.
Print Assumptions C159_rollback.

(** With --no-rollback the packages of the plan stay as R has left them. *)
Theorem C159_no_rollback : forall int ts cpus va k s lib i sc w f p,
  install_line int ts -> starts_install int (line_of ts) cpus va k s -> bool_given "no-rollback" (given_in ts) = Some true ->
  let c := run_conf lib s in
  run_ok c i f -> world_ok c i sc w f -> rt_outcome (r_install c i w f) = Exit 0 -> p ∈ required i ->
  same_dir (Rollback.rc_library c) p (run_final c i w f) p (rw_install w (run_ops (prepare_ops c i) f)).
Proof.
  intros int ts cpus va k s lib i sc w f p Hl Hs Hg c H1 H2 H3 H4.
  eapply (C140_packages c i sc w f); try done.
  destruct (line_settings int ts cpus va k s Hl Hs) as (_ & S & _). cbn. by apply S.
Qed.
Print Assumptions C159_no_rollback.

(** With --threads at most that many packages are installed at once. *)
Theorem C159_threads : forall int ts cpus va k s v t j ls st (l : list string),
  install_line int ts -> starts_install int (line_of ts) cpus va k s ->
  last_given "threads" (given_in ts) = Some v -> int v = Some t -> (1 <= t)%Z -> has_workers s cpus j ->
  execution j (initial j) ls st -> NoDup l -> (forall p, p ∈ l -> running ls p) -> (Z.of_nat (length l) <= t)%Z.
Proof.
  intros int ts cpus va k s v t j ls st l Hl Hs Hv Ht H1 Hw He Hn Hr.
  destruct (line_settings int ts cpus va k s Hl Hs) as (_ & _ & _ & _ & S). specialize (S v t Hv Ht).
  pose proof (C48_worker_limit j ls st l He Hn Hr) as B. unfold has_workers, worker_count in Hw. rewrite S in Hw.
  destruct (Z.ltb_spec t 1); lia.
Qed.
Print Assumptions C159_threads.

(** ** Example *)

(** pkgr install --no-rollback=false --library /lib --threads 4 *)
Definition ex_install : list token :=
  [TWord "install"; TSet "no-rollback" "false"; TNext "library" "/lib"; TNext "threads" "4"].

Definition no_vars : variables := {| va_rpath := None; va_library := None |}.
(** The file asks for no rollback. *)
Definition ex_file : file_keys := {| fi_no_update := None; fi_no_rollback := Some true; fi_no_secure := None; fi_strict := None;
  fi_library := Some "old"; fi_rpath := None; fi_threads := None |}.
Definition no_file : file_keys := {| fi_no_update := None; fi_no_rollback := None; fi_no_secure := None; fi_strict := None;
  fi_library := None; fi_rpath := None; fi_threads := None |}.

Example C159_example :
  install_line ex_int ex_install /\ bool_given "no-rollback" (given_in ex_install) = Some false /\
  exists s, starts_install ex_int (line_of ex_install) 2 no_vars ex_file s /\
    se_no_rollback s = false /\ se_library s = "/lib" /\ se_threads s = 4%Z.
Proof.
  split; [split; [|done]|].
  - eexists. eexists _, _, [], "install", _. split; [reflexivity|]. split; [reflexivity|]. split; [reflexivity|]. split; [reflexivity|].
    split; [constructor|]. split; [|by left]. repeat constructor; cbn [proper].
    + eexists _, _. split; [reflexivity|done].
    + eexists. split; [reflexivity|]. by eexists.
    + eexists. split; [reflexivity|]. by split.
    + eexists. split; [reflexivity|]. split; [done|]. by eexists.
  - split; [reflexivity|]. eexists. split; [eexists _, _; split; [vm_compute; reflexivity|reflexivity]|]. by vm_compute.
Qed.

(** ** What is not so *)

(** pkgr install --no-rollback false: a run that fails is not rolled back, and an installed
    package is lost. *)
Theorem C159_false_refuted : exists s c i w f p,
  starts_install ex_int ["install"; "--no-rollback"; "false"] 2 no_vars no_file s /\ c = run_conf L s /\
  run_ok c i f /\ world_ok c i nowhere w f /\ no_stale_backups c i f /\ failed w /\
  is_Some (ri_preinstalled i !! p) /\ f (Rollback.rc_library c ++ [p])%list = Some Dir /\
  (forall x, x ∈ [p; backup_of p] -> run_final c i w f (Rollback.rc_library c ++ [x])%list = None).
Proof.
  eexists. exists (ex_conf false true), (ex_run ex_files ex_dirs []), (RunWorld false (fun g => g) true false), (fs_of ex_files), "core".
  assert (run_ok (ex_conf false true) (ex_run ex_files ex_dirs []) (fs_of ex_files)) as Hok by (apply ex_run_ok; vm_compute; reflexivity).
  split; [eexists _, _; split; [vm_compute; reflexivity|reflexivity]|]. split; [reflexivity|].
  split; [exact Hok|]. split.
  { split; [|split].
    - intros q [].
    - split; [done|]. intros p _ _ _ s. done.
    - done. }
  split; [apply (no_staleb_sound _ _ _ Hok); vm_compute; reflexivity|].
  split; [by left|]. split; [eexists; vm_compute; reflexivity|]. split; [vm_compute; reflexivity|].
  intros x Hx. apply elem_of_cons in Hx as [-> | Hx]; [vm_compute; reflexivity|]. apply elem_of_list_singleton in Hx as ->. vm_compute. reflexivity.
Qed.
Print Assumptions C159_false_refuted.

(** pkgr install --preview changes the library. *)
Theorem C159_preview_refuted : exists s c i w f,
  starts_install ex_int ["install"; "--preview"] 2 no_vars no_file s /\ c = run_conf L s /\
  run_ok c i f /\ world_ok c i nowhere w f /\ rt_outcome (r_install c i w f) = Exit 0 /\
  f (L ++ ["core"; "DESCRIPTION"])%list <> run_final c i w f (L ++ ["core"; "DESCRIPTION"])%list.
Proof.
  eexists. exists (ex_conf false false), (ex_run ex_files ex_dirs []), (RunWorld false install_core false false), (fs_of ex_files).
  assert (run_ok (ex_conf false false) (ex_run ex_files ex_dirs []) (fs_of ex_files)) as Hok by (apply ex_run_ok; vm_compute; reflexivity).
  split; [eexists _, _; split; [vm_compute; reflexivity|reflexivity]|]. split; [reflexivity|].
  split; [exact Hok|]. split; [apply install_core_ok; vm_compute; tauto|]. split; [vm_compute; reflexivity|].
  by vm_compute.
Qed.
Print Assumptions C159_preview_refuted.
