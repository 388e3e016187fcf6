(** C162: from the command line of load to the report. *)
From stdpp Require Import strings list gmap.
From Coq Require Import Ascii ZArith NArith Lia.
From Verif.model Require Import GoStr Env Fs Yml Config Start Customs Flags Cli Desc Nexus Graph Plan Load LoadCmd LoadLine.
From Verif.spec Require Import StrSpec YmlSpec ConfigSpec StartSpec GraphSpec LoadSpec LoadCmdSpec CliSpec LoadLineSpec.
From Verif.proofs Require Import GoStrLemmas StartProofs LoadProofs ValProofs LoadCmdProofs CliProofs.
From Verif.props Require Import P_Tarball P_Cmd P_LoadCmd P_Cli.

Local Open Scope string_scope.

Section lines.
Context (int : string -> option Z) (home : string) (cwd : path) (cpus : Z) (va : variables) (k : file_keys).
Context (user : list string) (plan : planned_install) (keys additional : list string).

Let runs vk r args e out := load_line int home cwd cpus va k vk r user plan keys additional args e out.

(** What the line for load says. *)
Lemma load_given ts : command_line int ["load"] ts ->
  exists given ws, execute int (line_of ts) = RunsCommand ["load"] given ws /\ forall n, last_given n given = last_given n (given_in ts).
Proof.
  intros [[ws H] Hh]. destruct (C158_meant int ["load"] ts ws _ _ H eq_refl eq_refl) as (g & L & E).
  rewrite bool_decide_false in E by done. by exists g, ws.
Qed.

Lemma asked_last n g g' key : last_given n g = last_given n g' -> asked n g key = asked n g' key.
Proof. intros E. unfold asked, bool_given. by rewrite E. Qed.

(** The line is run, and what happens depends on what is given last for each flag. *)
Lemma load_line_iff vk r ts e out : command_line int ["load"] ts ->
  runs vk r (line_of ts) e out <->
  exists name, config_name home (first_config (given_in ts)) = Some name /\
    load_command r (load_dir cwd name (config_text (given_in ts) (vk_config vk)))
      (se_threads (init_settings cpus (flags_of int (given_in ts)) va k)) (asked "all" (given_in ts) (vk_all vk)) user plan keys additional e /\
    out = match e with LoadReports rep => if asked "json" (given_in ts) (vk_json vk) then Some rep else None | LoadStops _ => None end.
Proof.
  intros Hl. destruct (load_given ts Hl) as (g & ws & E & L).
  assert (flags_of int g = flags_of int (given_in ts)) as Ef by (unfold flags_of, bool_given; by rewrite !L).
  assert (forall key, config_text g key = config_text (given_in ts) key) as Ec by (intros key; unfold config_text; by rewrite L).
  assert (first_config g = first_config (given_in ts)) as E1 by (unfold first_config; by rewrite L).
  unfold runs, load_line. split.
  - intros (g' & ws' & name & E' & Hn & Hc & Ho). rewrite E in E'. injection E' as <- <-.
    exists name. rewrite <- E1, <- Ec, <- Ef, <- !(asked_last _ g (given_in ts)) by apply L. done.
  - intros (name & Hn & Hc & Ho). exists g, ws, name. rewrite E1, Ec, Ef, !(asked_last _ g (given_in ts)) by apply L. done.
Qed.

(** Without --all, or with --all=false, the report has an entry for each package of the
    configuration and for no other. *)
Theorem C162_configured : forall vk r ts rep out,
  command_line int ["load"] ts -> turned_off "all" ts \/ untouched "all" ts /\ vk_all vk = None ->
  runs vk r (line_of ts) (LoadReports rep) out ->
  forall p, is_Some (fl_results rep !! p) <-> p ∈ user.
Proof.
  intros vk r ts rep out Hl Ha H p. apply load_line_iff in H as (name & _ & H & _); [|done].
  assert (asked "all" (given_in ts) (vk_all vk) = false) as E.
  { unfold asked. destruct Ha as [Ha|[Ha Hk]]; [by rewrite Ha|]. unfold bool_given. by rewrite Ha, Hk. }
  rewrite E in H. by eapply C119_configured.
Qed.

(** With --all it has an entry for each package of the plan and each tarball. *)
Theorem C162_all : forall vk r ts nx ip rep out,
  command_line int ["load"] ts -> turned_on "all" ts -> plan = PIPlan nx ip -> keys ≡ₚ (map_to_list (ip_depdb ip)).*1 ->
  runs vk r (line_of ts) (LoadReports rep) out ->
  forall p, is_Some (fl_results rep !! p) <-> planned ip p \/ p ∈ additional.
Proof.
  intros vk r ts nx ip rep out Hl Ha Hp Hk H p. apply load_line_iff in H as (name & _ & H & _); [|done].
  unfold asked in H. rewrite Ha in H. cbn [setting] in H. rewrite Hp in H. by eapply C119_all_partial.
Qed.

(** With --json the report is written, with --json=false and without it nothing is. *)
Theorem C162_json : forall vk r ts e out, command_line int ["load"] ts -> runs vk r (line_of ts) e out ->
  (turned_on "json" ts -> forall rep, e = LoadReports rep -> out = Some rep) /\
  (turned_off "json" ts \/ untouched "json" ts /\ vk_json vk = None -> out = None) /\
  (forall rep, out = Some rep -> e = LoadReports rep).
Proof.
  intros vk r ts e out Hl H. apply load_line_iff in H as (name & _ & _ & ->); [|done]. split_and!.
  - intros Hj rep ->. unfold asked. by rewrite Hj.
  - intros Hj. destruct e as [st|rep]; [done|]. unfold asked.
    destruct Hj as [Hj|[Hj Hk]]; [by rewrite Hj|]. unfold bool_given. by rewrite Hj, Hk.
  - intros rep. destruct e as [st|rep']; [done|]. destruct (asked _ _ _); [by intros [= ->]|done].
Qed.

(** Steps and reports depend on R in one directory only. *)
Lemma lexec_ext n cap ends ends' o : (forall i, ends i = ends' i) -> lexec n cap ends o -> lexec n cap ends' o.
Proof.
  intros E H. induction H as [|o o' _ IH Hs]; [apply le_init|]. eapply le_step; [exact IH|].
  inversion Hs; subst; [by apply l_acquire|apply l_send; try done; by rewrite <- E|eapply l_fatal; try done; by rewrite <- E|
    by apply l_release|by apply l_receive|by apply l_return].
Qed.

Lemma report_ext r r' dir pkgs got : agree_in dir r r' -> full_report_of r dir pkgs got = full_report_of r' dir pkgs got.
Proof.
  intros E. unfold full_report_of. assert (session_lib_paths r dir = session_lib_paths r' dir) as -> by (unfold session_lib_paths, run_r_cmd; by rewrite E).
  generalize {| fl_libs := session_lib_paths r' dir; fl_results := (∅ : gmap string full_result); fl_failures := 0 |}.
  induction got as [|i got IH]; intros rep; cbn [fold_left]; [done|]. rewrite IH. do 2 f_equal.
  destruct (pkgs !! i) as [p|]; [|done]. unfold attempt_full, additional_info, run_r_cmd. by rewrite !E.
Qed.

Lemma command_ext r r' dir threads all e : agree_in dir r r' ->
  load_command r dir threads all user plan keys additional e -> load_command r' dir threads all user plan keys additional e.
Proof.
  intros E. assert (forall pkgs i, session_ends r dir pkgs i = session_ends r' dir pkgs i) as Es.
  { intros pkgs i. unfold session_ends. by destruct (pkgs !! i) as [p|]; [rewrite E|]. }
  unfold load_command. destruct plan; try done; (destruct (sem_cap threads) as [cap|]; [|done]);
    (intros [(s & H1 & H2 & H3)|[H1 H2]]; [left; exists s|right]); rewrite <- ?(report_ext r r' dir) by done;
    (split_and!; try done; by eapply lexec_ext; [apply Es|]).
Qed.

(** With --config and an absolute name, the R sessions run in the directory of that file:
    what R does elsewhere does not matter. *)
Theorem C162_directory_partial : forall vk r r' ts flag dir f e out,
  command_line int ["load"] ts -> last_given "config" (given_in ts) = Some flag ->
  flag <> "" -> no_tilde flag -> stands_for cwd flag (dir ++ [f])%list -> ends_in flag f ->
  (exists x, flag = "/" +:+ x) \/ plain_name flag -> agree_in dir r r' ->
  runs vk r (line_of ts) e out -> runs vk r' (line_of ts) e out.
Proof.
  intros vk r r' ts flag dir f e out Hl Hc H1 H2 H3 H4 H5 Ea H. apply load_line_iff in H as (name & Hn & H & Ho); [|done].
  apply load_line_iff; [done|]. exists name. split; [done|]. split; [|done].
  destruct (C117_directory_partial home cwd flag dir f H1 H2 H3 H4 H5) as (name' & Hn' & _ & Hd).
  unfold first_config in Hn. rewrite Hc in Hn. cbn [default from_option id] in Hn. rewrite Hn in Hn'. injection Hn' as <-.
  unfold config_text in *. rewrite Hc in *. cbn [setting] in *. rewrite Hd in *. by eapply command_ext.
Qed.

(** Without --config they run in the directory of the caller. *)
Theorem C162_default : forall vk r r' ts e out,
  command_line int ["load"] ts -> untouched "config" ts -> vk_config vk = None -> agree_in cwd r r' ->
  runs vk r (line_of ts) e out -> runs vk r' (line_of ts) e out.
Proof.
  intros vk r r' ts e out Hl Hc Hk Ea H. apply load_line_iff in H as (name & Hn & H & Ho); [|done].
  apply load_line_iff; [done|]. exists name. split; [done|]. split; [|done].
  destruct (C117_default home cwd) as (name' & Hn' & Hd).
  unfold first_config in Hn. rewrite Hc in Hn. cbn [default from_option id] in Hn. rewrite Hn in Hn'. injection Hn' as <-.
  unfold config_text in *. rewrite Hc, Hk in *. cbn [setting option_map] in *. rewrite Hd in *. by eapply command_ext.
Qed.

(** What is said at the end, when neither --all nor --config is given: whether R could load
    each package of the configuration in the directory of the caller. *)
Theorem C162_message : forall vk r ts v t e out,
  command_line int ["load"] ts -> turned_off "all" ts \/ untouched "all" ts /\ vk_all vk = None ->
  untouched "config" ts -> vk_config vk = None ->
  last_given "threads" (given_in ts) = Some v -> int v = Some t -> (1 <= t)%Z ->
  (exists nx ip, plan = PIPlan nx ip) \/ (exists missing, plan = PIMissing missing) ->
  runs vk r (line_of ts) e out ->
  (says_all_loaded e = true <-> forall p, p ∈ user -> an_end (r cwd ("library('" +:+ p +:+ "')")) = ExitZero).
Proof.
  intros vk r ts v t e out Hl Ha Hc Hk Hv Ht H1 Hp H. apply load_line_iff in H as (name & Hn & H & Ho); [|done].
  destruct (C117_default home cwd) as (name' & Hn' & Hd).
  unfold first_config in Hn. rewrite Hc in Hn. cbn [default from_option id] in Hn. rewrite Hn in Hn'. injection Hn' as <-.
  unfold config_text in H. rewrite Hc, Hk in H. cbn [setting option_map] in H. rewrite Hd in H.
  assert (asked "all" (given_in ts) (vk_all vk) = false) as E.
  { unfold asked. destruct Ha as [Ha|[Ha Ka]]; [by rewrite Ha|]. unfold bool_given. by rewrite Ha, Ka. }
  assert (se_threads (init_settings cpus (flags_of int (given_in ts)) va k) = t) as Et.
  { assert (fl_threads (flags_of int (given_in ts)) = Some t) as Hf by (unfold flags_of; cbn [fl_threads]; by rewrite Hv).
    unfold init_settings, unmarshal. rewrite Hf. by destruct (fl_update _). }
  rewrite E, Et in H. by destruct (C120_message_partial _ _ _ _ _ _ _ _ _ H H1 Hp) as [K _].
Qed.

(** An execution that goes on ends. *)
Lemma load_finishes n cap ends o : 0 < cap -> lexec n cap ends o ->
  (exists s, lexec n cap ends (Going s) /\ ls_main s = true) \/ lexec n cap ends Load.Fatal.
Proof.
  intros Hcap. induction (terminates n cap ends o) as [o _ IH]. intros He.
  destruct o as [s|]; [|by right]. destruct (ls_main s) eqn:Em; [left; by exists s|].
  destruct (progress n cap ends s Hcap He Em) as [o' Ho]. apply (IH o' Ho). by eapply le_step.
Qed.

(** With --threads and a number the program comes to an end. *)
Theorem C162_ends : forall vk r ts v t,
  command_line int ["load"] ts -> is_Some (config_name home (first_config (given_in ts))) ->
  last_given "threads" (given_in ts) = Some v -> int v = Some t -> (1 <= t)%Z ->
  plan <> PIOutOfFuel -> exists e out, runs vk r (line_of ts) e out.
Proof.
  intros vk r ts v t Hl [name Hn] Hv Ht H1 Hp.
  assert (se_threads (init_settings cpus (flags_of int (given_in ts)) va k) = t) as Et.
  { assert (fl_threads (flags_of int (given_in ts)) = Some t) as Hf by (unfold flags_of; cbn [fl_threads]; by rewrite Hv).
    unfold init_settings, unmarshal. rewrite Hf. by destruct (fl_update _). }
  assert (forall dir all, exists e, load_command r dir t all user plan keys additional e) as K.
  { intros dir all. unfold load_command.
    assert (sem_cap t = Some (Z.to_nat (t * 2))) as -> by (unfold sem_cap; destruct (Z.ltb_spec (t * 2) 0); [lia|done]).
    assert (0 < Z.to_nat (t * 2)) as Hcap by lia.
    destruct plan as [| | | |]; try done; try (by eexists);
      match goal with |- context [session_ends r dir ?pkgs] =>
        destruct (load_finishes (length pkgs) _ (session_ends r dir pkgs) _ Hcap (le_init _ _ _)) as [(s & K1 & K2)|K1] end;
      [eexists; left; by exists s|eexists; by right|eexists; left; by exists s|eexists; by right]. }
  destruct (K (load_dir cwd name (config_text (given_in ts) (vk_config vk))) (asked "all" (given_in ts) (vk_all vk))) as [e He].
  exists e. eexists. apply load_line_iff; [done|]. exists name. split; [done|]. rewrite Et. split; [exact He|reflexivity].
Qed.

(** plan --show-deps writes the dependencies of each package that has an entry in the plan;
    without it, or with --show-deps=false, plan writes none. *)
Theorem C162_show_deps : forall vk ts ip deps given ws,
  command_line int ["plan"] ts -> execute int (line_of ts) = RunsCommand ["plan"] given ws -> plan_shows given vk ip deps ->
  (turned_on "show-deps" ts -> NoDup deps.*1 /\ forall p l, (p, l) ∈ deps <-> ip_depdb ip !! p = Some l) /\
  (turned_off "show-deps" ts \/ untouched "show-deps" ts /\ vk_show_deps vk = None -> deps = []).
Proof.
  intros vk ts ip deps given ws [[ws' H] Hh] E Hs. destruct (C158_meant int ["plan"] ts ws' _ _ H eq_refl eq_refl) as (g & L & E').
  rewrite bool_decide_false in E' by done. rewrite E in E'. injection E' as <- <-.
  unfold plan_shows, asked, bool_given in Hs. rewrite L in Hs. unfold turned_on, turned_off, untouched, bool_given. split.
  - intros Hj. rewrite Hj in Hs. cbn [setting] in Hs. split.
    + rewrite Hs. apply NoDup_fst_map_to_list.
    + intros p l. rewrite Hs. apply elem_of_map_to_list.
  - intros [Hj|[Hj Hk]]; [by rewrite Hj in Hs|by rewrite Hj, Hk in Hs].
Qed.

End lines.
Print Assumptions C162_configured.
Print Assumptions C162_all.
Print Assumptions C162_json.
Print Assumptions C162_directory_partial.
Print Assumptions C162_default.
Print Assumptions C162_message.
Print Assumptions C162_ends.
Print Assumptions C162_show_deps.

(** ** Example *)

(** pkgr load --json --threads 4 *)
Definition ex_load : list token := [TWord "load"; TSwitch "json"; TNext "threads" "4"].
Definition plain_vars : variables := {| va_rpath := None; va_library := None |}.
Definition plain_keys : file_keys := {| fi_no_update := None; fi_no_rollback := None; fi_no_secure := None; fi_strict := None;
  fi_library := None; fi_rpath := None; fi_threads := None |}.

Lemma ex_load_line : command_line ex_int ["load"] ex_load.
Proof.
  split; [|done]. exists []. eexists _, _, [], "load", [TSwitch "json"; TNext "threads" "4"].
  split; [reflexivity|]. split; [reflexivity|]. split; [reflexivity|]. split; [reflexivity|]. split; [constructor|].
  split; [|by left]. constructor; [eexists _, _; split; [reflexivity|done]|]. constructor; [eexists; split; reflexivity|]. constructor; [|constructor].
  eexists. split; [reflexivity|]. split; [done|]. by eexists.
Qed.

(** R is run in the directory of the caller for the one package of the file, and what it
    answers is written. *)
Example C162_example : exists rep,
  load_line ex_int "/home/me" ["work"] 8 plain_vars plain_keys no_keys (always "hello") ["core"] (PIMissing []) [] []
    (line_of ex_load) (LoadReports rep) (Some rep) /\ fr_stdout <$> fl_results rep !! "core" = Some "hello".
Proof.
  eexists. split.
  - apply load_line_iff; [apply ex_load_line|]. eexists. split; [reflexivity|]. split; [|reflexivity].
    unfold load_command. change (se_threads _) with 4%Z. change (asked "all" _ _) with false.
    cbn [to_load length sem_cap Z.mul]. left. eexists. split; [|split].
    + pose proof (le_init 1 8 (session_ends (always "hello") ["work"] ["core"])) as H. unfold linitial in H.
      eapply le_step in H; [|apply (l_acquire _ _ _ _ 0); [done|done|cbn; lia]]. cbn in H.
      eapply le_step in H; [|apply (l_send _ _ _ _ 0); [done|done|done|cbn; lia]]. cbn in H.
      eapply le_step in H; [|apply (l_receive _ _ _ _ 0 []); [done|cbn; lia|done]]. cbn in H.
      eapply le_step in H; [|apply l_return; done]. exact H.
    + done.
    + reflexivity.
  - vm_compute. reflexivity.
Qed.

(** ** What does not hold *)

(** A key of the configuration file that has the name of a flag works like the flag: with
    all: true in the file pkgr load loads other packages, without being asked to. *)
Theorem C162_key_refuted :
  ~ (forall int home cwd cpus va k vk r user plan keys additional ts rep out,
      command_line int ["load"] ts -> untouched "all" ts ->
      load_line int home cwd cpus va k vk r user plan keys additional (line_of ts) (LoadReports rep) out ->
      forall p, p ∈ user -> is_Some (fl_results rep !! p)).
Proof.
  intros H.
  assert (is_Some (((∅ : gmap string full_result)) !! "core")) as [x Hx]; [|done].
  refine (H ex_int "/home/me" ["work"] 8%Z plain_vars plain_keys
    {| vk_all := Some (WBool true); vk_json := None; vk_show_deps := None; vk_config := None |} (always "") ["core"] (PIMissing ["core"]) [] []
    ex_load {| fl_libs := session_lib_paths (always "") ["work"]; fl_results := ∅; fl_failures := 0 |} _ ex_load_line eq_refl _ "core" _); [|by left].
  apply load_line_iff; [apply ex_load_line|]. eexists. split; [reflexivity|]. split; [|reflexivity].
  unfold load_command. change (se_threads _) with 4%Z. change (asked "all" _ _) with true.
  cbn [to_load length sem_cap Z.mul]. left. eexists. split; [|split].
  - eapply le_step; [apply le_init|]. apply l_return; done.
  - done.
  - reflexivity.
Qed.
Print Assumptions C162_key_refuted.

(** The same for json: the report is written though --json is not given. *)
Theorem C162_json_refuted :
  ~ (forall int home cwd cpus va k vk r user plan keys additional ts e out,
      command_line int ["load"] ts -> untouched "json" ts ->
      load_line int home cwd cpus va k vk r user plan keys additional (line_of ts) e out -> out = None).
Proof.
  intros H. set (rep := {| fl_libs := session_lib_paths (always "") ["work"]; fl_results := ∅; fl_failures := 0 |}).
  assert (Some rep = None) as Q; [|done].
  assert (command_line ex_int ["load"] [TWord "load"]) as Hl.
  { split; [|done]. exists []. eexists _, _, [], "load", []. split; [reflexivity|]. split; [reflexivity|]. split; [reflexivity|].
    split; [reflexivity|]. split; [constructor|]. split; [|by left]. constructor; [eexists _, _; split; [reflexivity|done]|constructor]. }
  refine (H ex_int "/home/me" ["work"] 8%Z plain_vars plain_keys
    {| vk_all := None; vk_json := Some (WText "true"); vk_show_deps := None; vk_config := None |} (always "") [] (PIMissing []) [] []
    [TWord "load"] (LoadReports rep) _ Hl eq_refl _).
  apply load_line_iff; [exact Hl|]. eexists. split; [reflexivity|]. split; [|reflexivity].
  unfold load_command. change (se_threads _) with 8%Z. change (asked "all" _ _) with false.
  cbn [to_load length sem_cap Z.mul]. left. eexists. split; [|split].
  - eapply le_step; [apply le_init|]. apply l_return; done.
  - done.
  - reflexivity.
Qed.
Print Assumptions C162_json_refuted.

(** A key config in the file that is read does not change which file is read, but R is run
    somewhere else: in /srv instead of /work. *)
Theorem C162_config_refuted :
  first_config [] = "" /\ config_name "/home/me" "" = Some "pkgr.yml" /\ loaded_file ["work"] "pkgr.yml" = ["work"; "pkgr.yml"] /\
  load_dir ["work"] "pkgr.yml" (config_text [] (vk_config no_keys)) = ["work"] /\
  load_dir ["work"] "pkgr.yml" (config_text [] (Some (WText "/srv/pkgr.yml"))) = ["srv"].
Proof. by vm_compute. Qed.
Print Assumptions C162_config_refuted.
