(** C158: the command line. *)
From stdpp Require Import strings list gmap.
From Coq Require Import Ascii ZArith.
From Verif.model Require Import GoStr Customs Flags Cli.
From Verif.spec Require Import CliSpec.
From Verif.proofs Require Import CliProofs.

Local Open Scope string_scope.

(** A line for a command is understood as it is meant: the command is run with these flags
    and these words, or its help is shown if that is asked for. *)
Theorem C158_meant : forall int p ts ws inh c,
  line_for_command int p ts ws -> command_at [] pkgr p = Some (inh, c) -> cc_runs c = true ->
  exists given, (forall n, last_given n given = last_given n (given_in ts)) /\
    execute int (line_of ts) = if bool_decide (bool_given "help" (given_in ts) = Some true) then ShowsHelp p else RunsCommand p given ws.
Proof.
  intros int p ts ws inh c (inh' & c' & pre & w & post & Hc & -> & Hp & Hw & Kp & Hprop & Hend) Hc' Hr.
  rewrite Hc in Hc'. injection Hc' as -> ->.
  pose proof (all_named_at 3 [] pkgr p inh c pkgr_named Hc) as Hn.
  assert (Forall named (pre ++ TWord w :: post)) as Hnamed.
  { eapply Forall_impl; [exact Hprop|]. intros t. by apply proper_named. }
  apply Forall_app in Hnamed as [N1 N2]. apply Forall_cons in N2 as [N2 N3].
  assert (length (line_of (pre ++ TWord w :: post)) = length (line_of pre) + S (length (line_of post))) as Hlen.
  { rewrite line_app, line_cons, !app_length. cbn. lia. }
  destruct (find_line (cc_down pkgr) (S (length (line_of (pre ++ TWord w :: post)))) p [] pkgr inh c pre w post 3 pkgr_down Hc Hp N1 Kp N2 N3)
    as (rest & R1 & R2 & R3 & R4).
  { rewrite Hw. done. }
  { rewrite Hp, app_length. cbn [length]. pose proof (words_fit pre). lia. }
  assert (given_in rest = given_in (pre ++ TWord w :: post)) as Hg.
  { rewrite R3, given_app. done. }
  exists (given_in rest). split; [by rewrite Hg|].
  unfold execute, execute_in. rewrite line_app at 2. rewrite line_cons. cbn [written_as app]. rewrite R1.
  assert (p <> []) as Hne. { rewrite Hp. by destruct (words_of pre). }
  rewrite (bool_decide_false (p = [])) by done. cbn [andb].
  rewrite parse_line; [|done|].
  - rewrite Hg, R2, Hw, Hr. done.
  - apply Forall_forall. intros t Ht. rewrite Forall_forall in R4, Hprop. apply Hprop. specialize (R4 t Ht).
    apply elem_of_app in R4 as [R4|R4]; apply elem_of_app; [by left|right; apply elem_of_cons; by right].
Qed.
Print Assumptions C158_meant.

(** The order of the flags among the words does not matter, nor how they are written, as
    long as each flag has the same value at last. *)
Theorem C158_order : forall int p ts ts' ws inh c,
  line_for_command int p ts ws -> line_for_command int p ts' ws -> command_at [] pkgr p = Some (inh, c) -> cc_runs c = true ->
  (forall n, last_given n (given_in ts) = last_given n (given_in ts')) ->
  (execute int (line_of ts) = ShowsHelp p /\ execute int (line_of ts') = ShowsHelp p) \/
  exists g g', execute int (line_of ts) = RunsCommand p g ws /\ execute int (line_of ts') = RunsCommand p g' ws /\
    (forall n, last_given n g = last_given n g') /\ flags_of int g = flags_of int g'.
Proof.
  intros int p ts ts' ws inh c H H' Hc Hr Hs.
  destruct (C158_meant int p ts ws inh c H Hc Hr) as (g & Hg & E).
  destruct (C158_meant int p ts' ws inh c H' Hc Hr) as (g' & Hg' & E').
  assert (bool_given "help" (given_in ts) = bool_given "help" (given_in ts')) as Hh by (unfold bool_given; by rewrite Hs).
  rewrite Hh in E. destruct (bool_decide (bool_given "help" (given_in ts') = Some true)); [by left|right].
  exists g, g'. split; [done|]. split; [done|].
  assert (forall n, last_given n g = last_given n g') as L by (intros n; by rewrite Hg, Hs, Hg').
  split; [done|]. unfold flags_of, bool_given. by rewrite !L.
Qed.
Print Assumptions C158_order.

(** Each setting of the configuration is the one that was given last on the line. *)
Theorem C158_settings : forall int p ts ws inh c cpus va f,
  line_for_command int p ts ws -> command_at [] pkgr p = Some (inh, c) -> cc_runs c = true ->
  bool_given "help" (given_in ts) <> Some true ->
  exists given, execute int (line_of ts) = RunsCommand p given ws /\
    let s := init_settings cpus (flags_of int given) va f in
    (forall l, last_given "library" (given_in ts) = Some l -> se_library s = l) /\
    (forall b, bool_given "no-rollback" (given_in ts) = Some b -> se_no_rollback s = b) /\
    (forall b, bool_given "no-secure" (given_in ts) = Some b -> se_no_secure s = b) /\
    (forall b, bool_given "strict" (given_in ts) = Some b -> se_strict s = b) /\
    (forall b, bool_given "no-update" (given_in ts) = Some b -> bool_given "update" (given_in ts) <> Some true -> se_no_update s = b) /\
    (bool_given "update" (given_in ts) = Some true -> se_no_update s = false).
Proof.
  intros int p ts ws inh c cpus va f H Hc Hr Hh.
  destruct (C158_meant int p ts ws inh c H Hc Hr) as (g & Hg & E). rewrite bool_decide_false in E by done.
  exists g. split; [done|].
  assert (forall n, bool_given n g = bool_given n (given_in ts)) as Hb by (intros n; unfold bool_given; by rewrite Hg).
  cbv zeta. unfold init_settings, flags_of. rewrite !Hb, Hg. cbn [fl_update].
  destruct (bool_given "update" (given_in ts)) as [[]|] eqn:Eu; cbn [default from_option id unmarshal se_library se_no_rollback se_no_secure se_strict se_no_update
    fl_library fl_no_rollback fl_no_secure fl_strict fl_no_update].
  all: split; [intros l ->; done|]; split; [intros b ->; done|]; split; [intros b ->; done|]; split; [intros b ->; done|].
  - split; [done|done].
  - split; [intros b ->; done|done].
  - split; [intros b ->; done|done].
Qed.
Print Assumptions C158_settings.

(** Whatever is written: a command that is run is a command of pkgr other than pkgr itself,
    help was not asked for, and each flag that it is given is one of its flags with a
    value that can be read. *)
Theorem C158_sound : forall int args p given words,
  execute int args = RunsCommand p given words ->
  exists inh c, command_at [] pkgr p = Some (inh, c) /\ cc_runs c = true /\ p <> [] /\
    bool_given "help" given <> Some true /\
    forall n v, (n, v) ∈ given -> exists f, f ∈ help_flag :: flags_at inh c /\ cf_name f = n /\ readable int f v.
Proof.
  intros int args p given words. unfold execute, execute_in.
  destruct (find_command (S (length args)) [] pkgr args) as [[[q inh] c] rest] eqn:Ef.
  pose proof (find_is_command _ _ _ _ _ _ _ _ Ef) as Hc.
  destruct (_ && _ && _); [done|].
  destruct (parse_args int (help_flag :: flags_at inh c) rest) as [[g w]|] eqn:Ep; [|done].
  destruct (decide (bool_given "help" g = Some true)) as [Hh|Hh]; [by rewrite bool_decide_true by done|].
  rewrite (bool_decide_false (bool_given "help" g = Some true)) by done.
  destruct (bool_decide (q = []) && _); [done|]. destruct (cc_runs c) eqn:Hr; [|done].
  intros H. injection H as -> -> ->. exists inh, c. split; [done|]. split; [done|]. split.
  - intros ->. cbn in Hc. injection Hc as <- <-. done.
  - split; [done|]. intros n v. eapply parse_sound; [|reflexivity|exact Ep].
    eapply letters_at; [apply pkgr_letters|exact Hc].
Qed.
Print Assumptions C158_sound.

(** pkgr refuses a first word that is not one of its commands, and then reads nothing. *)
Theorem C158_unknown : forall int ts w,
  Forall (proper int (flags_at [] pkgr)) ts -> head (words_of ts) = Some w ->
  find_next w (cc_below pkgr) = None -> execute int (line_of ts) = Refused.
Proof.
  intros int ts w P Hw Hn. unfold execute, execute_in.
  assert (names_ok (flags_at [] pkgr)) as Hok.
  { pose proof (all_named_at 3 [] pkgr [] [] pkgr pkgr_named eq_refl) as Q. by apply Forall_cons in Q as [_ Q]. }
  assert (Forall named ts) as N by (eapply Forall_impl; [exact P|]; intros t; by apply proper_named).
  assert (Forall (known (flags_at [] pkgr)) ts) as K.
  { eapply Forall_impl; [exact P|]. intros t. destruct t as [u|n v|n|n v]; cbn [proper known]; [done|done|done|].
    intros (f & Hf & Hk & _). by exists f. }
  assert (strip_flags (flags_at [] pkgr) (line_of ts) = words_of ts) as Es.
  { rewrite <- (app_nil_r (line_of ts)), strip_line by done. cbn [strip_flags]. apply app_nil_r. }
  destruct (words_of ts) as [|x l] eqn:E; [done|]. injection Hw as ->.
  change (find_command (S (length (line_of ts))) [] pkgr (line_of ts)) with
    (match strip_flags (flags_at [] pkgr) (line_of ts) with
     | [] => ([], [], pkgr, line_of ts)
     | w :: _ => match find_next w (cc_below pkgr) with
                 | None => ([], [], pkgr, line_of ts)
                 | Some c' => let '(p, i, c'', a) := find_command (length (line_of ts)) (cc_down pkgr ++ []) c' (minus_first (flags_at [] pkgr) (line_of ts) w) in
                              (w :: p, i, c'', a)
                 end
     end).
  rewrite Es, Hn. rewrite Es. done.
Qed.
Print Assumptions C158_unknown.

(** ** Examples *)

Definition ex_int (s : string) : option Z := if String.eqb s "4" then Some 4%Z else None.

(** pkgr --config p.yml --strict add --install dplyr --threads=4 R6 *)
Definition ex_line : list token :=
  [TNext "config" "p.yml"; TSwitch "strict"; TWord "add"; TSwitch "install"; TWord "dplyr"; TSet "threads" "4"; TWord "R6"].

Lemma ex_line_ok : line_for_command ex_int ["add"] ex_line ["dplyr"; "R6"].
Proof.
  eexists _, _, [TNext "config" "p.yml"; TSwitch "strict"], "add", _. split; [reflexivity|]. split; [reflexivity|].
  split; [reflexivity|]. split; [reflexivity|]. split; [|split].
  - repeat constructor; cbn [known]; eexists; (split; [reflexivity|done]).
  - repeat constructor; cbn [proper].
    all: first [eexists; split; [reflexivity|]; first [reflexivity | done | split; [done|done] | by eexists] | eexists _, _; split; [reflexivity|done]].
  - by left.
Qed.

Example C158_example :
  execute ex_int ["--config"; "p.yml"; "--strict"; "add"; "--install"; "dplyr"; "--threads=4"; "R6"] =
    RunsCommand ["add"] [("config", "p.yml"); ("strict", "true"); ("install", "true"); ("threads", "4")] ["dplyr"; "R6"] /\
  execute ex_int ["clean"; "cache"; "--repos"; "CRAN"; "--strict=false"] =
    RunsCommand ["clean"; "cache"] [("repos", "CRAN"); ("strict", "false")] [] /\
  execute ex_int ["install"; "--help"] = ShowsHelp ["install"] /\
  execute ex_int ["-v"] = ShowsVersion /\
  execute ex_int ["instal"] = Refused /\
  execute ex_int ["install"; "--thread=4"] = Refused /\
  execute ex_int ["install"; "--threads=four"] = Refused /\
  line_of ex_line = ["--config"; "p.yml"; "--strict"; "add"; "--install"; "dplyr"; "--threads=4"; "R6"].
Proof. by vm_compute. Qed.

(** ** What is not so *)

(** A flag of type Bool does not take the next argument: --no-rollback false switches
    rollback off. *)
Theorem C158_false_refuted :
  ~ (forall int n f p given words, flag_named (cc_down pkgr) n = Some f -> execute int ["install"; "--" +:+ n; "false"] = RunsCommand p given words ->
      last_given n given = Some "false").
Proof.
  intros H. assert (Some "true" = Some "false") as Q; [|done].
  apply (H ex_int "no-rollback" (switch "no-rollback") ["install"] [("no-rollback", "true")] ["false"]); by vm_compute.
Qed.
Print Assumptions C158_false_refuted.

(** Words that a command does not read are not refused: pkgr clean cahce --all cleans
    everything, and pkgr install dplyr installs all packages of the configuration. *)
Theorem C158_words_refuted :
  ~ (forall int args p given words, execute int args = RunsCommand p given words -> words <> [] -> reads_words p = true).
Proof.
  intros H. assert (reads_words ["clean"] = true) as Q; [|done].
  apply (H ex_int ["clean"; "cahce"; "--all"] ["clean"] [("all", "true")] ["cahce"]); [by vm_compute|done].
Qed.
Print Assumptions C158_words_refuted.

(** The flag --preview (preview action, but do not actually run command) does not keep a
    command from being run, and no setting depends on it. *)
Theorem C158_preview_refuted :
  ~ (forall int args p given words, execute int args = RunsCommand p given words -> bool_given "preview" given <> Some true) /\
  forall int given, flags_of int (given ++ [("preview", "true")]) = flags_of int given.
Proof.
  split.
  - intros H. apply (H ex_int ["install"; "--preview"] ["install"] [("preview", "true")] []); by vm_compute.
  - intros int given.
    assert (forall n, n <> "preview" -> last_given n (given ++ [("preview", "true")]) = last_given n given) as L.
    { intros n Hn. induction given as [|[m v] l IH].
      - cbn [app last_given]. destruct (String.eqb "preview" n) eqn:E; [apply String.eqb_eq in E; congruence|done].
      - cbn [app last_given]. by rewrite IH. }
    unfold flags_of, bool_given. by rewrite !L.
Qed.
Print Assumptions C158_preview_refuted.

(** Help can be had without a configuration with --help, but not with the command help:
    it is run like the others, after the configuration has been read. *)
Theorem C158_help_refuted :
  ~ (forall int args p given words, execute int args = RunsCommand p given words -> p <> ["help"]) /\
  execute ex_int ["plan"; "--help"] = ShowsHelp ["plan"] /\ execute ex_int ["help"; "plan"] = RunsCommand ["help"] [] ["plan"].
Proof.
  split; [|by vm_compute].
  intros H. by apply (H ex_int ["help"; "plan"] ["help"] [] ["plan"]); [by vm_compute|].
Qed.
Print Assumptions C158_help_refuted.

(** A flag of one command only cannot be written in front of the command: the command is
    taken for its value. *)
Theorem C158_before_refuted :
  ~ (forall int p a b inh c f, command_at [] pkgr (p :: []) = Some (inh, c) -> f ∈ cc_own c -> cf_kind f = KBool ->
      execute int ["--" +:+ cf_name f; p; a; b] = execute int [p; "--" +:+ cf_name f; a; b]).
Proof.
  intros H. assert (Refused = RunsCommand ["add"] [("install", "true")] ["dplyr"; "R6"]) as Q; [|done].
  refine (H ex_int "add" "dplyr" "R6" _ _ (switch "install") _ _ _); [reflexivity|by left|done].
Qed.
Print Assumptions C158_before_refuted.
