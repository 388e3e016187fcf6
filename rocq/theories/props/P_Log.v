(** C112, C113: logging. *)
From stdpp Require Import strings list gmap.
From Coq Require Import Ascii.
From Verif.model Require Import GoStr Logging.
From Verif.spec Require Import StrSpec UrlSpec LogSpec.
From Verif.proofs Require Import GoStrLemmas LogProofs.

Local Open Scope string_scope.

(** * C112: the records of a command are written to its log file

    In full: every command writes its records to the file of the setting "all" (install
    to the one of "install" if it is set), after what is there or instead of it as the
    setting "overwrite" says, and to no other file. *)

(** Missing: plan, load, run and the subcommands of clean; add --install; files that
    cannot be opened; the messages before a command starts. *)
Theorem C112_files_partial : forall can_open c cmd before body again rest files f,
  logs_once cmd -> log_file c cmd f -> f <> "" -> can_open f = true -> cmd <> Inspect true ->
  exists ws, kept (first_level c) body ws /\
  lg_files (run_logging can_open c cmd before body again rest files) =
    <[f := ((if lc_overwrite c then [] else default [] (files !! f)) ++ ws)%list]> files.
Proof.
  intros can_open c cmd before body again rest files f H1 H2 H3 H4 H5.
  destruct (run_once can_open c cmd before body again rest files f H1 H2 H3 H4) as (l & ws & K & [-> |[-> _]] & _ & E); [|done].
  by exists ws.
Qed.
Print Assumptions C112_files_partial.

(** Without a file nothing is written. *)
Theorem C112_no_file : forall can_open c cmd before body again rest files,
  lc_all c = "" -> lc_install c = "" ->
  lg_files (run_logging can_open c cmd before body again rest files) = files.
Proof.
  intros can_open c cmd before body again rest files H1 H2.
  assert (A : forall g, all_log can_open c g = g) by (intros g; unfold all_log, add_log_file; by rewrite H1).
  assert (B : forall g, install_log can_open c g = g) by (intros g; unfold install_log, add_log_file; by rewrite H1, H2).
  assert (Q : forall rs g, lg_hooks g = [] -> lg_hooks (emit_all rs g) = [] /\ lg_files (emit_all rs g) = lg_files g).
  { intros rs g Hg. split; [by rewrite emit_all_hooks|by apply emit_all_quiet]. }
  unfold run_logging. set (g0 := emit_all before _).
  assert (H0 : lg_hooks g0 = [] /\ lg_files g0 = files) by (apply Q; done).
  assert (HS : lg_hooks (set_up can_open c cmd g0) = [] /\ lg_files (set_up can_open c cmd g0) = files).
  { unfold set_up. rewrite ?A, ?B. by destruct cmd as [| | | | |[]| |[]| |]. }
  destruct (Q body _ (proj1 HS)) as [Q1 Q2]. rewrite (proj2 HS) in Q2.
  destruct cmd as [[]| | | | | | | | |]; try exact Q2.
  rewrite B. destruct (Q again (with_level (second_level c) (emit_all body (set_up can_open c (Add true) g0))) Q1) as [Q3 Q4].
  destruct (Q rest _ Q3) as [_ Q5]. rewrite Q5, Q4. exact Q2.
Qed.
Print Assumptions C112_no_file.

Definition ex_log : log_config :=
  {| lc_all := "all.log"; lc_install := "install.log"; lc_overwrite := false; lc_flag := None; lc_key := None |}.

Definition yes : string -> bool := fun _ => true.

Example C112_example :
  let files := lg_files (run_logging yes ex_log InstallCmd [(LInfo, "start")] [(LInfo, "a"); (LDebug, "b"); (LFatal, "c")] [] []
    {[ "install.log" := [(LInfo, "old")]; "all.log" := [] ]}) in
  files !! "install.log" = Some [(LInfo, "old"); (LInfo, "a"); (LFatal, "c")] /\ files !! "all.log" = Some [].
Proof. cbv zeta. split; vm_compute; reflexivity. Qed.

(** plan never writes to a log file; nor do load, run, and cleaning the cache or the
    databases on their own. *)
Theorem C112_plan_refuted : forall can_open c cmd before body again rest files,
  cmd = PlanCmd \/ cmd = Run \/ cmd = CleanCache \/ cmd = CleanPkgdbs \/ (exists json, cmd = LoadCmd json) ->
  lg_files (run_logging can_open c cmd before body again rest files) = files.
Proof.
  intros can_open c cmd before body again rest files H.
  set (g := {| lg_level := first_level c; lg_hooks := []; lg_files := files |}).
  assert (E : lg_files (emit_all body (emit_all before g)) = files).
  { rewrite !emit_all_quiet; try done. by rewrite emit_all_hooks. }
  destruct H as [-> |[-> |[-> |[-> |[[] ->]]]]]; try exact E.
  unfold run_logging, set_up. cbn [lc_flag]. fold g. rewrite emit_all_quiet; [|cbn; by rewrite emit_all_hooks].
  cbn. by rewrite emit_all_quiet.
Qed.
Print Assumptions C112_plan_refuted.

Example C112_plan_example :
  lg_files (run_logging yes ex_log PlanCmd [] [(LInfo, "package to install")] [] [] {[ "all.log" := [] ]}) !! "all.log" = Some [].
Proof. vm_compute. reflexivity. Qed.

(** add --install with a single log file: what add wrote is overwritten, and every
    record of the installation is written twice. *)
Theorem C112_add_install_refuted : exists c body rest,
  lc_install c = "" /\ lc_overwrite c = true /\
  lg_files (run_logging yes c (Add true) [] body [] rest ∅) !! "all.log" = Some [(LInfo, "installed"); (LInfo, "installed")] /\
  body = [(LInfo, "added")] /\ rest = [(LInfo, "installed")] /\
  log_file c (Add true) "all.log".
Proof.
  exists {| lc_all := "all.log"; lc_install := ""; lc_overwrite := true; lc_flag := None; lc_key := None |},
    [(LInfo, "added")], [(LInfo, "installed")].
  split; [done|]. split; [done|]. split; [vm_compute; reflexivity|]. done.
Qed.
Print Assumptions C112_add_install_refuted.

(** A directory that does not exist is not created: nothing is logged and the command
    goes on. *)
Theorem C112_directory_refuted : forall can_open c cmd before body files f,
  logs_once cmd -> log_file c cmd f -> can_open f = false ->
  lg_files (run_logging can_open c cmd before body [] [] files) = files.
Proof.
  intros can_open c cmd before body files f H1 H2 H3. unfold run_logging, set_up, all_log, install_log.
  set (g := {| lg_level := first_level c; lg_hooks := []; lg_files := files |}).
  assert (A : forall o g, add_log_file can_open f o g = g) by (intros o g'; unfold add_log_file; by rewrite H3, orb_true_r).
  assert (E : lg_files (emit_all body (emit_all before g)) = files).
  { rewrite !emit_all_quiet; try done. by rewrite emit_all_hooks. }
  destruct H1 as [-> |[-> |[-> |[[json ->]| ->]]]]; cbn [log_file] in H2.
  1-3: subst f; rewrite A; exact E.
  - subst f. rewrite A. destruct json; [|exact E]. rewrite emit_all_quiet; [|cbn; by rewrite emit_all_hooks].
    cbn. by rewrite emit_all_quiet.
  - destruct H2 as [[Hi ->]|[Hi ->]].
    + apply String.eqb_neq in Hi. rewrite Hi. cbn [negb]. rewrite A. exact E.
    + rewrite Hi. cbn [String.eqb negb]. rewrite A. exact E.
Qed.
Print Assumptions C112_directory_refuted.

(** * C113: the level

    In full: the level is the one of --loglevel in capitals or small letters, and "info"
    without one; inspect --json writes fatal records only. *)
Theorem C113_level : forall s l,
  (same_word s (level_name l) -> set_level s = l) /\
  ((forall l', ~ same_word s (level_name l')) -> set_level s = LInfo).
Proof.
  intros s l. assert (H := lower_name s). split.
  - intros Hs. apply set_level_name. by apply H.
  - intros Hs. apply set_level_other. intros k E. apply (Hs k). by apply H.
Qed.
Print Assumptions C113_level.

Theorem C113_flag : forall can_open c before body again rest files,
  lg_level (run_logging can_open c (Inspect false) before body again rest files) = set_level (default "" (lc_flag c)) /\
  lg_level (run_logging can_open c InstallCmd before body again rest files) = set_level (default "" (lc_flag c)) /\
  lg_level (run_logging can_open c (Inspect true) before body again rest files) = LFatal /\
  (lc_flag c = None -> lg_level (run_logging can_open c InstallCmd before body again rest files) = LInfo).
Proof.
  intros can_open c before body again rest files.
  assert (L : forall f o g, lg_level (add_log_file can_open f o g) = lg_level g).
  { intros f o g. unfold add_log_file. by destruct (String.eqb f "" || negb (can_open f)). }
  assert (E : lg_level (run_logging can_open c InstallCmd before body again rest files) = set_level (default "" (lc_flag c))).
  { unfold run_logging, set_up, install_log. destruct (negb (String.eqb (lc_install c) "")); by rewrite emit_all_level, L, emit_all_level. }
  split; [|split; [done|split]].
  - unfold run_logging, set_up, all_log. by rewrite emit_all_level, L, emit_all_level.
  - unfold run_logging, set_up. by rewrite emit_all_level.
  - intros Hf. by rewrite E, Hf.
Qed.
Print Assumptions C113_flag.

(** The second half of add --install knows the file too; the flag comes first. *)
Theorem C113_add_install : forall can_open c before body again rest files,
  let l := lg_level (run_logging can_open c (Add true) before body again rest files) in
  (forall s, lc_flag c = Some s -> l = set_level s) /\
  (forall s, lc_flag c = None -> lc_key c = Some s -> l = set_level s) /\
  (lc_flag c = None -> lc_key c = None -> l = LInfo).
Proof.
  intros can_open c before body again rest files.
  assert (L : forall f o g, lg_level (add_log_file can_open f o g) = lg_level g).
  { intros f o g. unfold add_log_file. by destruct (String.eqb f "" || negb (can_open f)). }
  assert (E : lg_level (run_logging can_open c (Add true) before body again rest files) = second_level c).
  { unfold run_logging, install_log. rewrite emit_all_level.
    destruct (negb (String.eqb (lc_install c) "")); by rewrite L, emit_all_level. }
  cbv zeta. rewrite E. unfold second_level. split; [|split].
  - intros s Hf. by rewrite Hf.
  - intros s Hf Hk. by rewrite Hf, Hk.
  - intros Hf Hk. by rewrite Hf, Hk.
Qed.
Print Assumptions C113_add_install.

Example C113_example : set_level "WARN" = LWarn /\ same_word "Warn" "warn" /\ set_level "warning" = LInfo /\
  kept LInfo [(LDebug, "a"); (LError, "b")] [(LError, "b")].
Proof.
  split; [done|]. split.
  { by apply (lower_name "Warn" LWarn). }
  split; [done|]. apply (kept_filter LInfo [(LDebug, "a"); (LError, "b")]).
Qed.

(** A level in the configuration file is not used, except by the second half of
    add --install. *)
Theorem C113_key_refuted : exists c, lc_flag c = None /\ lc_key c = Some "debug" /\
  (forall can_open before body files, lg_level (run_logging can_open c InstallCmd before body [] [] files) = LInfo) /\
  (forall can_open before body files, lg_level (run_logging can_open c (Add true) before body [] [] files) = LDebug).
Proof.
  exists {| lc_all := "all.log"; lc_install := ""; lc_overwrite := true; lc_flag := None; lc_key := Some "debug" |}.
  split; [done|]. split; [done|]. split; intros can_open before body files.
  - destruct (C113_flag can_open {| lc_all := "all.log"; lc_install := ""; lc_overwrite := true; lc_flag := None; lc_key := Some "debug" |}
      before body [] [] files) as (_ & _ & _ & H). by apply H.
  - unfold run_logging, install_log. rewrite emit_all_level. cbn [lc_install String.eqb negb lc_all lc_overwrite].
    unfold add_log_file. destruct (String.eqb "all.log" "" || negb (can_open "all.log")); reflexivity.
Qed.
Print Assumptions C113_key_refuted.
