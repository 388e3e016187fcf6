(** C150 and C151: what can be read in the log, and what is not in it. *)
From stdpp Require Import strings list gmap.
From Coq Require Import Ascii NArith Lia.
From Verif.model Require Import GoStr Env Logging Json Start Records.
From Verif.spec Require Import EnvSpec JsonSpec RecordsSpec.
From Verif.proofs Require Import GoStrLemmas EnvProofs JsonProofs RecordsProofs JsonTextProofs.

Local Open Scope string_scope.

(** * C150 *)

(** A record is one line, whatever is in its texts, and a reader finds in it the level, the
    message, the time if it is written, and all the fields. *)
Theorem C150_line timed e : utf8_entry e ->
  exists t v, format_entry timed e = t +:+ newline /\ no_newline t /\ Reads t v /\ tells timed e v.
Proof.
  intros U. exists (flat true (in_order (fun v => v) (entry_data timed e))). eexists. split; [done|]. split; [apply flat_line|].
  split; [apply flat_reads|]. by apply data_tells.
Qed.

(** Also if the texts are not UTF-8, a record is one line that can be read. *)
Theorem C150_any timed e : exists t v, format_entry timed e = t +:+ newline /\ no_newline t /\ Reads t v.
Proof.
  exists (flat true (in_order (fun v => v) (entry_data timed e))). eexists. split; [done|]. split; [apply flat_line|]. apply flat_reads.
Qed.

(** No record has characters of HTML. *)
Theorem C150_html timed e : each_char no_html_char (format_entry timed e).
Proof. apply each_app. split; [apply flat_html|now_html]. Qed.

(** No field is lost unless it is called like another one with the prefix. *)
Theorem C150_fields timed e v k x : tells timed e v -> (forall r, reserved r -> k <> "fields." +:+ r) ->
  en_fields e !! k = Some x ->
  exists l, v = JObj l /\ ((~ reserved k /\ forall y, (k, y) ∈ l <-> y = x) \/ (reserved k /\ forall y, ("fields." +:+ k, y) ∈ l <-> y = x)).
Proof.
  intros (l & -> & _ & H) Hk He. exists l. split; [done|]. destruct (reserved_dec k) as [Hr|Hr].
  - right. split; [done|]. intros y. rewrite H. split.
    + intros [[E _]|[[E _]|[(_ & E & _)|[(r & _ & E & Er)|(_ & C & _)]]]]; try discriminate E.
      * apply prefix_inj in E as <-. congruence.
      * by rewrite (C k Hr eq_refl) in He.
    + intros ->. right. right. right. left. by exists k.
  - left. split; [done|]. intros y. rewrite H. split.
    + intros [[-> _]|[[-> _]|[(_ & -> & _)|[(r & Hr' & -> & Er)|(_ & _ & E)]]]]; try (exfalso; apply Hr; unfold reserved; tauto).
      * by destruct (Hk r Hr').
      * congruence.
    + intros ->. right. right. right. right. split; [done|]. split; [|done]. intros r Hr' E. by destruct (Hk r Hr').
Qed.

(** Whatever processes open the file and write records, in any order: the lines that were
    there stay, and each record is a line after them. *)
Theorem C150_file evs : Forall appending evs -> Forall utf8_entry (records evs) -> forall t0 ls0, in_lines t0 ls0 ->
  exists ls, in_lines (run_log t0 evs) (ls0 ++ ls)%list /\ Forall2 line_of ls (records evs).
Proof.
  unfold run_log. induction 1 as [|x evs Hx _ IH]; intros U t0 ls0 H.
  - exists []. rewrite app_nil_r. split; [done|constructor].
  - destruct x as [[]|e|e n]; try done.
    + apply IH; done.
    + cbn [records omap list_omap] in U. apply Forall_cons in U as [Ue U]. cbn [fold_left log_step].
      destruct (IH U _ _ (fired_lines e t0 ls0 H)) as (ls & H1 & H2). eexists (_ :: ls). split; [by rewrite <- app_assoc in H1|].
      cbn [records omap list_omap]. constructor; [|done]. split; [eexists; apply flat_reads|].
      intros v Hv. rewrite (reads_one _ _ _ Hv (flat_reads _ _)). by apply data_tells.
Qed.

(** The records of each process are there, in its order. *)
Theorem C150_each evs own : Forall appending evs -> Forall utf8_entry (records evs) -> sublist own evs -> forall t0 ls0, in_lines t0 ls0 ->
  exists ls lso, in_lines (run_log t0 evs) (ls0 ++ ls)%list /\ sublist lso ls /\ Forall2 line_of lso (records own).
Proof.
  intros Ha Hu Hs t0 ls0 H0. destruct (C150_file evs Ha Hu t0 ls0 H0) as (ls & H1 & H2).
  destruct (sublist_Forall2 line_of ls (records evs) (records own)) as (lso & S & F); [by apply sublist_omap|done|].
  by exists ls, lso.
Qed.

(** The lines of a file are determined. *)
Theorem C150_lines t ls ls' : in_lines t ls -> in_lines t ls' -> ls = ls'.
Proof. apply in_lines_one. Qed.

(** A run that overwrites the log removes what was there, also that of a run that is still
    going on; what this one writes afterwards is kept. *)
Theorem C150_overwrite t0 before after : run_log t0 (before ++ Opened true :: after)%list = run_log "" after.
Proof. unfold run_log. by rewrite fold_left_app. Qed.

Definition ex_rec : log_entry :=
  LogEntry LWarn ("two" +:+ newline +:+ "lines and a ""quote""") "2020-01-01T00:00:00Z" {["pkg" := JStr "R6"; "msg" := JNum 3; "left" := JNeg 2]}.

Example C150_example :
  format_entry false ex_rec = "{""fields.msg"":3,""left"":-2,""level"":""warning"",""msg"":""two\nlines and a \""quote\"""",""pkg"":""R6""}" +:+ newline /\
  utf8_entry ex_rec /\
  exists l, in_lines (run_log ("{}" +:+ newline) [Opened false; Fired ex_rec; Opened false; Fired ex_rec]) ["{}"; l; l] /\ line_of l ex_rec.
Proof.
  assert (utf8_entry ex_rec) as U.
  { split; [by apply low_utf8|]. split; [by apply low_utf8|]. intros k v. cbn [ex_rec en_fields]. rewrite !lookup_insert_Some, lookup_singleton_Some.
    intros [[<- <-]|[_ [[<- <-]|[_ [<- <-]]]]]; (split; [by apply low_utf8|]); constructor. by apply low_utf8. }
  split; [by vm_compute|]. split; [done|].
  destruct (C150_file [Fired ex_rec] ltac:(by repeat constructor) ltac:(constructor; [exact U|constructor]) "" [] ltac:(constructor)) as (ls & H1 & H2).
  inversion H2 as [|l e ls' es Hl Hls E1 E2]; subst. inversion Hls; subst. exists l. split; [|done].
  inversion H1 as [|l' t ls'' Hn Ht E1 E2]; subst. inversion Ht; subst.
  assert (in_lines ("{}" +:+ String (ascii_of_N 10) "") ["{}"]) as H0 by (constructor; [by vm_compute|constructor]).
  change (run_log ("{}" +:+ newline) [Opened false; Fired ex_rec; Opened false; Fired ex_rec]) with
    ((("{}" +:+ newline) +:+ run_log "" [Fired ex_rec]) +:+ run_log "" [Fired ex_rec]).
  apply (in_lines_app _ ["{}"; l] _ [l]); [|done]. by apply (in_lines_app _ ["{}"] _ [l]).
Qed.

(** Two fields, one called like the other with the prefix: one of them is lost. *)
Theorem C150_lost_refuted : exists e e', utf8_entry e /\ en_fields e <> en_fields e' /\ forall timed, format_entry timed e = format_entry timed e'.
Proof.
  exists (LogEntry LInfo "" "" {["msg" := JNum 1; "fields.msg" := JNum 2]}), (LogEntry LInfo "" "" {["msg" := JNum 1]}).
  split; [|split].
  - split; [by apply low_utf8|]. split; [by apply low_utf8|]. intros k v. cbn [en_fields]. rewrite lookup_insert_Some, lookup_singleton_Some.
    intros [[<- <-]|[_ [<- <-]]]; (split; [by apply low_utf8|]); constructor.
  - cbn [en_fields]. intros E. assert (({["msg" := JNum 1; "fields.msg" := JNum 2]} : gmap string json) !! "fields.msg" = ({["msg" := JNum 1]} : gmap string json) !! "fields.msg") as E' by by rewrite E.
    by vm_compute in E'.
  - by intros []; vm_compute.
Qed.

(** If only a part of a record could be written, the next one is lost as well. *)
Theorem C150_cut_refuted : exists e n t, utf8_entry e /\ in_lines (run_log "" [Short e n; Fired e]) [t] /\ forall v, ~ Reads t v.
Proof.
  set (e := LogEntry LInfo "" "" ∅). exists e, 5.
  exists ("{""lev" +:+ "{""level"":""info"",""msg"":"""",""time"":""""}"). split; [|split].
  - split; [by apply low_utf8|]. split; [by apply low_utf8|]. intros k v. cbn [e en_fields]. by rewrite lookup_empty.
  - assert (run_log "" [Short e 5; Fired e] = ("{""lev" +:+ "{""level"":""info"",""msg"":"""",""time"":""""}") +:+ String (ascii_of_N 10) "") as -> by by vm_compute.
    constructor; [|constructor]. vm_compute. by repeat split.
  - intros v (f & r & H & _). destruct f as [|[|f]]; [done|done|]. vm_compute in H. discriminate H.
Qed.

(** * C151 *)

(** What is logged when R is started does not depend on the values of the sensitive
    variables of the caller. *)
Theorem C151_hidden st s pkg rprog tmpdir sys sys' : Forall2 same_but_secret sys sys' ->
  start_said st s pkg rprog tmpdir sys = start_said st s pkg rprog tmpdir sys'.
Proof. apply secret_start. Qed.

(** Neither do the lines in the file. *)
Theorem C151_lines st s pkg rprog tmpdir sys sys' time timed : Forall2 same_but_secret sys sys' ->
  map (fun r : level * string * gmap string json => format_entry timed (LogEntry r.1.1 r.1.2 time r.2)) (start_said st s pkg rprog tmpdir sys) =
  map (fun r : level * string * gmap string json => format_entry timed (LogEntry r.1.1 r.1.2 time r.2)) (start_said st s pkg rprog tmpdir sys').
Proof. intros H. by rewrite (secret_start _ _ _ _ _ _ _ H). Qed.

(** Nor what R is given. *)
Theorem C151_given sys sys' rs tmpdir : Forall2 same_but_secret sys sys' -> configure_env sys rs tmpdir = configure_env sys' rs tmpdir.
Proof. apply secret_env. Qed.

Definition ex_set (p : gmap string (gmap string string)) : log_settings :=
  LogSettings (4, 0, 2)%N {| e_global := []; e_package := []; e_rpath := "R"; e_libs := ["/lib"] |} p "linux".

Example C151_example :
  let sys v := ["HOME=/root"; "github_pat=" +:+ v] in
  Forall2 same_but_secret (sys "one") (sys "two") /\
  map (fun r : level * string * gmap string json => format_entry false (LogEntry r.1.1 r.1.2 "" r.2)) (start_said StSession (ex_set ∅) "R6" "R" "/tmp/x" (sys "one")) =
    ["{""RSettings"":{""r_version"":{""Major"":4,""Minor"":0,""Patch"":2},""lib_paths"":[""/lib""],""rpath"":""R"",""global_env_vars"":{},""platform"":""linux""},""cmdArgs"":[""--vanilla""],""env"":[""HOME=/root"",""github_pat=**HIDDEN**"",""R_LIBS_USER=/tmp/x"",""R_LIBS_SITE=/lib""],""level"":""trace"",""msg"":""command args""}" +:+ newline].
Proof.
  intros sys. split; [|by vm_compute]. constructor; [constructor|]. constructor; [|constructor].
  apply (secret_variable "github_pat"); [right; by left|done..].
Qed.

(** All that is said about an installation. *)
Definition ex_full : log_settings :=
  LogSettings (4, 1, 2)%N {| e_global := [{| n_name := "LANG"; n_value := "C" |}]; e_package := [("MAKEFLAGS", "-j2")]; e_rpath := "/opt/bin/R"; e_libs := ["/lib"] |}
    {["R6" := {["MAKEFLAGS" := "-j2"]}]} "linux".

Example C151_full_example :
  map (fun r : level * string * gmap string json => format_entry false (LogEntry r.1.1 r.1.2 "" r.2))
    (start_said (StInstall ["--library=/lib"; "R6.tar.gz"]) ex_full "R6" "/opt/bin/R" "/tmp/x"
       ["R_LIBS_USER=/u"; "R_LIBS_SITE=/s"; "PATH=/usr/bin"; "GHE_PAT=x"; "EMPTY="]) =
    map (fun t => t +:+ newline)
    ["{""envs"":{""MAKEFLAGS"":""-j2""},""level"":""trace"",""msg"":""Custom Environment Variables"",""package"":""R6""}";
     "{""level"":""debug"",""msg"":""overriding system R_LIBS_USER"",""path"":""/u""}";
     "{""level"":""debug"",""msg"":""overriding system R_LIBS_SITE"",""path"":""/s""}";
     "{""level"":""debug"",""msg"":""adding Rpath to front of system PATH"",""path"":""/opt/bin:/usr/bin""}";
     "{""RSettings"":{""r_version"":{""Major"":4,""Minor"":1,""Patch"":2},""lib_paths"":[""/lib""],""rpath"":""/opt/bin/R"",""global_env_vars"":{""global_env_vars_pairs"":[{""global_env_vars_name"":""LANG"",""global_env_vars_value"":""C""}]},""pkg_env_vars"":{""R6"":{""MAKEFLAGS"":""-j2""}},""platform"":""linux""},""cmd"":""install"",""cmdArgs"":[""--library=/lib"",""R6.tar.gz""],""env"":[""LANG=C"",""MAKEFLAGS=-j2"",""PATH=/opt/bin:/usr/bin"",""GHE_PAT=**HIDDEN**"",""R_LIBS_USER=/tmp/x"",""R_LIBS_SITE=/lib""],""level"":""trace"",""msg"":""command args"",""package"":""R6"",""rpath"":""/opt/bin/R""}"].
Proof. by vm_compute. Qed.

(** A token that pkgr.yml takes from the environment for one package is in the log. *)
Theorem C151_settings_refuted : exists (vars vars' : gmap string string) sys sys',
  (forall n, ~ sensitive n -> vars !! n = vars' !! n) /\ Forall2 same_but_secret sys sys' /\
  let s v := ex_set {["R6" := {["GITHUB_PAT" := os_expand (getenv v) "${GITHUB_PAT}"]}]} in
  start_said StSession (s vars) "R6" "R" "/tmp/x" sys <> start_said StSession (s vars') "R6" "R" "/tmp/x" sys'.
Proof.
  exists {["GITHUB_PAT" := "one"]}, {["GITHUB_PAT" := "two"]}, ["GITHUB_PAT=one"], ["GITHUB_PAT=two"]. split; [|split].
  - intros n Hn. assert (n <> "GITHUB_PAT") as Hne by (intros ->; apply Hn; right; by left). by rewrite !lookup_singleton_ne.
  - constructor; [|constructor]. apply (secret_variable "GITHUB_PAT"); [right; by left|done..].
  - cbv zeta. intros E.
    apply (f_equal (map (fun r : level * string * gmap string json => format_entry false (LogEntry r.1.1 r.1.2 "" r.2)))) in E.
    vm_compute in E. discriminate E.
Qed.

(** The name that AWS uses itself is not among the sensitive ones: its value is in the log. *)
Theorem C151_aws_refuted : exists v w, v <> "" /\ w <> "" /\
  start_said StSession (ex_set ∅) "R6" "R" "/tmp/x" ["AWS_SECRET_ACCESS_KEY=" +:+ v] <>
  start_said StSession (ex_set ∅) "R6" "R" "/tmp/x" ["AWS_SECRET_ACCESS_KEY=" +:+ w].
Proof.
  exists "one", "two". split; [done|]. split; [done|]. intros E.
  apply (f_equal (map (fun r : level * string * gmap string json => format_entry false (LogEntry r.1.1 r.1.2 "" r.2)))) in E.
  vm_compute in E. discriminate E.
Qed.

Print Assumptions C150_line.
Print Assumptions C150_any.
Print Assumptions C150_fields.
Print Assumptions C150_file.
Print Assumptions C150_each.
Print Assumptions C150_lines.
Print Assumptions C150_overwrite.
Print Assumptions C150_lost_refuted.
Print Assumptions C150_cut_refuted.
Print Assumptions C151_hidden.
Print Assumptions C151_lines.
Print Assumptions C151_given.
Print Assumptions C151_settings_refuted.
Print Assumptions C151_aws_refuted.

Print Assumptions C150_html.
