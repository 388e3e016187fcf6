(** C164: from the command lines of inspect and run to what is written and run. *)
From stdpp Require Import strings list gmap relations sorting.
From Coq Require Import Ascii ZArith NArith Lia.
From Verif.model Require Import GoStr Env Fs Version Desc Nexus Pacman Graph RepoDb Plan Inspect Json Yml Config Start Customs Flags Cli Install Clean Calls LoadLine Lines ViewLine.
From Verif.spec Require Import StrSpec YmlSpec ConfigSpec LibSpec EnvSpec StartSpec VersionSpec RepoSpec GraphSpec PlanSpec InspectSpec JsonSpec CallsSpec CliSpec LoadLineSpec LinesSpec.
From Verif.proofs Require Import GoStrLemmas EnvProofs StartProofs CallsProofs CliProofs.
From Verif.props Require Import P_Graph P_Inspect P_Json P_Env P_Start P_Calls P_Cli P_Lines.

Local Open Scope string_scope.

Section lines.
Context (int : string -> option Z).

Section inspects.
Context (fuel : nat) (o' : oracle) (found : gmap string desc) (keys : list string).

Lemma on_last n g ts : (forall n, last_given n g = last_given n (given_in ts)) -> on n g = on n (given_in ts).
Proof. intros L. unfold on. by rewrite (bool_last n g ts L). Qed.

Lemma on_true n ts : turned_on n ts -> on n (given_in ts) = true.
Proof. unfold turned_on, on. by intros ->. Qed.

Lemma on_false n ts : ~ turned_on n ts -> on n (given_in ts) = false.
Proof. apply not_on. Qed.

(** What is written depends on what is given last for each flag. *)
Lemma inspect_given ts ws depdb : line_for_command int ["inspect"] ts ws -> bool_given "help" (given_in ts) <> Some true ->
  inspect_line int fuel o' found keys depdb (line_of ts) =
  Some (if on "installed-from" (given_in ts) then OutText (installed_from_text found keys)
        else match inspect fuel o' (on "deps" (given_in ts)) (on "reverse" (given_in ts)) (on "tree" (given_in ts)) ws depdb with
             | ShownRecord m => OutText (deps_text m) | ShownTree ts => OutTree ts | ShownNothing => OutNothing | ShownEndless => OutEndless end).
Proof.
  intros H Hh. destruct (C158_meant int ["inspect"] ts ws _ _ H eq_refl eq_refl) as (g & L & E). rewrite bool_decide_false in E by done.
  unfold inspect_line. by rewrite E, !(on_last _ g ts L).
Qed.

(** inspect --deps: the text is the JSON of a record of the planned packages that need
    something, or of the packages of the line, each with all its dependencies in order. *)
Theorem C164_deps : forall nx nr o pkgs pre cfg update le ip ts ws,
  nexus_ok nx -> ~ available nx "R" -> oracle_ok o -> standard_config nr cfg -> (forall p, p ∈ pkgs -> available nx p) ->
  resolve_installation_reqs o pkgs pre cfg nx update le nr = PlanOk ip ->
  (forall p, planned ip p \/ (exists q, planned ip q /\ tc (needs nx nr) q p) -> Utf8 p) -> Forall Utf8 ws ->
  line_for_command int ["inspect"] ts ws -> bool_given "help" (given_in ts) <> Some true ->
  turned_on "deps" ts -> ~ turned_on "reverse" ts -> ~ turned_on "tree" ts -> ~ turned_on "installed-from" ts ->
  exists t v m, inspect_line int fuel o' found keys (ip_depdb ip) (line_of ts) = Some (OutText t) /\
    Reads t v /\ says_map says_list m v /\
    (ws = [] -> forall q,
       (is_Some (m !! q) <-> planned ip q /\ exists r, needs nx nr q r) /\
       forall l, m !! q = Some l -> InspectSpec.listed (tc (needs nx nr) q) l) /\
    (ws <> [] -> forall q,
       (is_Some (m !! q) <-> q ∈ ws) /\
       forall l, m !! q = Some l -> (planned ip q -> InspectSpec.listed (tc (needs nx nr) q) l) /\ (~ planned ip q -> l = [])).
Proof.
  intros nx nr o pkgs pre cfg update le ip ts ws Hnx HR Ho Hc Hav Hp Hu Hw Hl Hh H1 H2 H3 H4.
  destruct (C95_dependencies nx nr o pkgs pre cfg update le ip fuel o' ws Hnx HR Ho Hc Hav Hp) as (m & E & M1 & M2).
  destruct (C148_deps m) as (v & R & S).
  { intros q l Hq. destruct (decide (ws = [])) as [Ew|Ew].
    - destruct (M1 Ew q) as [K1 K2]. destruct (proj1 K1) as [Hpl _]; [by eexists|]. split; [apply Hu; by left|].
      destruct (K2 l Hq) as (_ & _ & K). apply Forall_forall. intros x Hx. apply Hu. right. exists q. split; [done|]. by apply K.
    - destruct (M2 Ew q) as [K1 K2]. assert (q ∈ ws) as Hq' by (apply K1; by eexists). rewrite Forall_forall in Hw. split; [by apply Hw|].
      apply Forall_forall. intros x Hx. destruct (K2 l Hq) as [K3 K4].
      assert (~ ~ planned ip q) as Hnn by (intros Hn; rewrite (K4 Hn) in Hx; by apply elem_of_nil in Hx).
      assert (planned ip q) as Hpl by (apply dec_stable; done).
      destruct (K3 Hpl) as (_ & _ & K). apply Hu. right. exists q. split; [done|]. by apply K. }
  exists (deps_text m), v, m. rewrite (inspect_given ts ws) by done.
  rewrite (on_false "installed-from") by done. rewrite (on_true "deps"), (on_false "reverse"), (on_false "tree"), E by done. done.
Qed.

(** inspect --deps --reverse: with each package those that depend on it. *)
Theorem C164_reverse : forall nx nr o pkgs pre cfg update le ip ts ws,
  nexus_ok nx -> ~ available nx "R" -> oracle_ok o -> oracle_ok o' -> standard_config nr cfg -> (forall p, p ∈ pkgs -> available nx p) ->
  resolve_installation_reqs o pkgs pre cfg nx update le nr = PlanOk ip ->
  (forall p, planned ip p \/ (exists q, planned ip q /\ needs nx nr q p) -> Utf8 p) -> Forall Utf8 ws ->
  line_for_command int ["inspect"] ts ws -> bool_given "help" (given_in ts) <> Some true ->
  turned_on "deps" ts -> turned_on "reverse" ts -> ~ turned_on "tree" ts -> ~ turned_on "installed-from" ts ->
  exists t v m, inspect_line int fuel o' found keys (ip_depdb ip) (line_of ts) = Some (OutText t) /\
    Reads t v /\ says_map says_list m v /\
    (ws = [] -> forall r, is_Some (m !! r) <-> exists p, planned ip p /\ needs nx nr p r) /\
    (ws <> [] -> forall r, is_Some (m !! r) <-> r ∈ ws) /\
    (forall r l, m !! r = Some l -> InspectSpec.listed (fun p => planned ip p /\ tc (needs nx nr) p r) l).
Proof.
  intros nx nr o pkgs pre cfg update le ip ts ws Hnx HR Ho Ho' Hc Hav Hp Hu Hw Hl Hh H1 H2 H3 H4.
  destruct (C95_reverse nx nr o pkgs pre cfg update le ip fuel o' ws Hnx HR Ho Ho' Hc Hav Hp) as (m & E & M1 & M2 & M3).
  destruct (C148_deps m) as (v & R & S).
  { intros q l Hq. split.
    - destruct (decide (ws = [])) as [Ew|Ew].
      + apply Hu. right. apply (M1 Ew q). by eexists.
      + rewrite Forall_forall in Hw. apply Hw, (M2 Ew q). by eexists.
    - destruct (M3 q l Hq) as (_ & _ & K). apply Forall_forall. intros x Hx. apply Hu. left. by apply K in Hx as [? _]. }
  exists (deps_text m), v, m. rewrite (inspect_given ts ws) by done.
  rewrite (on_false "installed-from") by done. rewrite (on_true "deps"), (on_true "reverse"), (on_false "tree"), E by done. done.
Qed.

(** inspect --deps --tree.  In full: also with --reverse; there the tree is that of the
    dependencies (C96_reverse_tree_refuted). *)
Theorem C164_tree_partial : forall nx nr o pkgs pre cfg update le ip ts ws,
  nexus_ok nx -> ~ available nx "R" -> oracle_ok o -> oracle_ok o' -> standard_config nr cfg -> (forall p, p ∈ pkgs -> available nx p) ->
  resolve_installation_reqs o pkgs pre cfg nx update le nr = PlanOk ip ->
  (forall a, a ∈ ws -> planned ip a) -> length (planned_names ip) < fuel ->
  line_for_command int ["inspect"] ts ws -> bool_given "help" (given_in ts) <> Some true ->
  turned_on "deps" ts -> ~ turned_on "reverse" ts -> turned_on "tree" ts -> ~ turned_on "installed-from" ts ->
  exists l, inspect_line int fuel o' found keys (ip_depdb ip) (line_of ts) = Some (OutTree l) /\
    NoDup (map root_of l) /\ Forall (tree_of (tc (needs nx nr))) l /\
    (ws = [] -> forall q, q ∈ map root_of l <-> planned ip q /\ exists r, needs nx nr q r) /\
    (ws <> [] -> forall q, q ∈ map root_of l <-> q ∈ ws).
Proof.
  intros nx nr o pkgs pre cfg update le ip ts ws Hnx HR Ho Ho' Hc Hav Hp Ha Hf Hl Hh H1 H2 H3 H4.
  destruct (C96_tree_partial nx nr o pkgs pre cfg update le ip fuel o' ws Hnx HR Ho Ho' Hc Hav Hp Ha Hf) as (l & E & K).
  exists l. rewrite (inspect_given ts ws) by done.
  rewrite (on_false "installed-from") by done. by rewrite (on_true "deps"), (on_false "reverse"), (on_true "tree"), E by done.
Qed.

(** inspect without --deps writes nothing. *)
Theorem C164_nothing : forall depdb ts ws,
  line_for_command int ["inspect"] ts ws -> bool_given "help" (given_in ts) <> Some true ->
  ~ turned_on "deps" ts -> ~ turned_on "installed-from" ts ->
  inspect_line int fuel o' found keys depdb (line_of ts) = Some OutNothing.
Proof.
  intros depdb ts ws Hl Hh H1 H2. rewrite (inspect_given ts ws) by done.
  rewrite (on_false "installed-from") by done. by rewrite (on_false "deps") by done.
Qed.

(** inspect --installed-from: each package of the library is in one of two lists, by whether
    it tells a version of pkgr; the other flags do not matter. *)
Theorem C164_installed : forall depdb ts ws,
  line_for_command int ["inspect"] ts ws -> bool_given "help" (given_in ts) <> Some true ->
  turned_on "installed-from" ts -> Forall Utf8 keys ->
  exists t v pkgr packrat unknown a b c, inspect_line int fuel o' found keys depdb (line_of ts) = Some (OutText t) /\ Reads t v /\
    JsonSpec.field v "pkgr" a /\ says_list pkgr a /\ JsonSpec.field v "packrat" b /\ says_list packrat b /\
    JsonSpec.field v "unknown" c /\ says_list unknown c /\
    (forall k, k ∈ pkgr <-> k ∈ keys /\ exists d, found !! k = Some d /\ d_pkgr_version d <> "") /\
    (forall k, k ∈ packrat <-> k ∈ keys /\ forall d, found !! k = Some d -> d_pkgr_version d = "") /\
    unknown = [] /\ length pkgr + length packrat = length keys.
Proof.
  intros depdb ts ws Hl Hh H1 Hk. destruct (C148_installed found keys Hk) as (v & x & y & z & a & b & c & K).
  exists (installed_from_text found keys), v, x, y, z, a, b, c. split; [|exact K].
  rewrite (inspect_given ts ws) by done. by rewrite (on_true "installed-from") by done.
Qed.

End inspects.

Section runs.
Context (home : string) (cwd : path) (cpus : Z) (va : variables) (k : file_keys) (customs : pkg_customs).
Context (env : list string) (os : goos) (tmp : string).

Let runs ts p := run_line int home cwd cpus va k customs env os tmp (line_of ts) = Some p.

(** What the line for run starts. *)
Lemma run_given ts dir f : command_line int ["run"] ts -> names_file cwd ts dir f ->
  exists rpath library, runs ts (process_of {| ow_env := env; ow_dir := dir; ow_os := os |} tmp
      {| Calls.cf_rpath := rpath; Calls.cf_library := library; Calls.cf_customs := customs |} library
      (URun (default "" (last_given "pkg" (given_in ts))))) /\
    (forall l, last_given "library" (given_in ts) = Some l -> library = l) /\
    (untouched "library" ts -> va_library va = None -> library = default "" (fi_library k)) /\
    (va_rpath va = None -> rpath = default "R" (fi_rpath k)).
Proof.
  intros [[ws H] Hh] Hf. destruct (C158_meant int ["run"] ts ws _ _ H eq_refl eq_refl) as (g & L & E). rewrite bool_decide_false in E by done.
  destruct (named_file home cwd ts dir f Hf) as (name & Hn & _ & Hcd).
  set (s := init_settings cpus (flags_of int g) va k). exists (se_rpath s), (se_library s). split; [|split; [|split]].
  - unfold runs, run_line. rewrite E, (first_last g ts L), Hn, Hcd, L. done.
  - intros l Hlib. subst s. unfold init_settings. destruct (fl_update _); cbn; by rewrite L, Hlib.
  - intros Hlib Hva. unfold untouched in Hlib. subst s. unfold init_settings. destruct (fl_update _); cbn; rewrite L, Hlib, Hva; by destruct (fi_library k).
  - intros Hva. subst s. unfold init_settings. destruct (fl_update _); cbn; rewrite Hva; by destruct (fi_rpath k).
Qed.

(** R is started without start-up files in the directory of the configuration file; its
    libraries are a new directory and the library of the line. *)
Theorem C164_run : forall ts dir f, command_line int ["run"] ts -> names_file cwd ts dir f -> unpadded tmp ->
  exists p, runs ts p /\ pr_args p = ["--vanilla"] /\ pr_dir p = dir /\ env_value (pr_env p) "R_LIBS_USER" tmp /\
    forall l, last_given "library" (given_in ts) = Some l \/ (untouched "library" ts /\ va_library va = None /\ fi_library k = Some l) ->
      l <> "" -> without "=" l -> unpadded l -> env_value (pr_env p) "R_LIBS_SITE" l.
Proof.
  intros ts dir f Hl Hf Ht. destruct (run_given ts dir f Hl Hf) as (rpath & library & R & L1 & L2 & _).
  eexists. split; [exact R|]. split; [done|]. split; [done|].
  destruct (C132_libraries {| ow_env := env; ow_dir := dir; ow_os := os |} tmp
      {| Calls.cf_rpath := rpath; Calls.cf_library := library; Calls.cf_customs := customs |} library
      (URun (default "" (last_given "pkg" (given_in ts))))) as (K1 & K2 & _); [by intros (? & ? & [=])|done|].
  split; [exact K1|]. intros l Hlib. apply K2. cbn. f_equal. destruct Hlib as [Hlib|(H1 & H2 & H3)]; [by apply L1|].
  rewrite (L2 H1 H2). by rewrite H3.
Qed.

(** The program is the R of the file, here one with an absolute path (others: C89), or the
    first R of the caller. *)
Theorem C164_program_partial : forall ts dir f, os <> Windows -> command_line int ["run"] ts -> names_file cwd ts dir f ->
  va_rpath va = None ->
  exists p, runs ts p /\
    (fi_rpath k = None -> pr_program p = "R") /\
    (forall l, l <> [] -> (forall x, x ∈ l -> plain_name x) -> fi_rpath k = Some ("/" +:+ join "/" l) -> r_program dir (pr_program p) = Some l).
Proof.
  intros ts dir f Ho Hl Hf Hv. destruct (run_given ts dir f Hl Hf) as (rpath & library & R & _ & _ & L).
  eexists. split; [exact R|]. rewrite (L Hv). cbn [process_of start_r pr_program ow_os]. split.
  - intros ->. by destruct os.
  - intros l Hn Hp ->. by apply C89_absolute_partial.
Qed.

(** With --pkg the session has the variables of this package, if it is customized once
    (C87_twice_refuted otherwise). *)
Theorem C164_pkg_partial : forall ts dir f pkg e key v,
  command_line int ["run"] ts -> names_file cwd ts dir f -> last_given "pkg" (given_in ts) = Some pkg ->
  once pkg (concat customs) (Some e) -> plain_environment env -> (forall kv, kv ∈ e -> var_name kv.1) -> NoDup (map fst e) ->
  (key, v) ∈ e -> key <> "R_LIBS_USER" -> key <> "R_LIBS_SITE" -> unpadded v ->
  exists p, runs ts p /\ env_value (pr_env p) key v.
Proof.
  intros ts dir f pkg e key v Hl Hf Hp Ho He Hn Hd Hk H1 H2 Hv. destruct (run_given ts dir f Hl Hf) as (rpath & library & R & _).
  rewrite Hp in R. eexists. split; [exact R|]. cbn [default from_option id process_of start_r pr_env ow_env].
  destruct (C87_run_partial pkg customs) as [K _]. destruct (K _ Ho) as [K1 _]. cbn [default from_option id] in K1.
  match goal with |- env_value (configure_env _ ?rs _) _ _ => assert (e_package rs = e) as Ep end.
  { transitivity (default [] (({[pkg := run_env pkg customs]} : gmap string (list (string * string))) !! pkg)); [reflexivity|].
    by rewrite lookup_singleton. }
  apply C55_package_wins_partial; rewrite ?Ep; done.
Qed.

(** Without --pkg all variables but those of the libraries are the caller's. *)
Theorem C164_no_pkg : forall ts dir f name w,
  command_line int ["run"] ts -> names_file cwd ts dir f -> untouched "pkg" ts ->
  (forall m e, m ∈ customs -> ("", e) ∉ m) -> plain_environment env ->
  var_name name -> name <> "R_LIBS_USER" -> name <> "R_LIBS_SITE" ->
  (forall p n m e v, m ∈ customs -> (p, Some e) ∈ m -> (n, v) ∈ e -> var_name n /\ n <> "R_LIBS_USER" /\ n <> "R_LIBS_SITE") ->
  exists p, runs ts p /\ ((name +:+ "=" +:+ w) ∈ pr_env p -> exists v, (name +:+ "=" +:+ v) ∈ env).
Proof.
  intros ts dir f name w Hl Hf Hp Hc He Hn H1 H2 Hpl. destruct (run_given ts dir f Hl Hf) as (rpath & library & R & _).
  unfold untouched in Hp. rewrite Hp in R. eexists. split; [exact R|]. intros Hw.
  apply C132_variables in Hw as [K|(p & Hpk & m & e & v & A & B & _)]; [exact K| |by intros (? & ? & [=])|done| |done|done|done].
  - cbn in Hpk. subst p. exfalso. by eapply Hc.
  - intros p n (m & e & v & A & B & C). by eapply Hpl.
Qed.

End runs.

End lines.

(** ** Examples *)

(** pkgr inspect --deps core nosuch, and other lines. *)
Definition ex_inspect (more : list token) : list token := (TWord "inspect" :: more)%list.

Lemma ex_inspect_line : line_for_command ex_int ["inspect"] (ex_inspect [TSwitch "deps"; TWord "core"; TWord "nosuch"]) ["core"; "nosuch"].
Proof.
  eexists _, _, [], "inspect", [TSwitch "deps"; TWord "core"; TWord "nosuch"].
  split; [reflexivity|]. split; [reflexivity|]. split; [reflexivity|]. split; [reflexivity|]. split; [constructor|].
  split; [|by left]. constructor; [eexists _, _; split; [reflexivity|done]|]. constructor; [eexists; split; [reflexivity|done]|].
  constructor; [eexists _, _; split; [reflexivity|done]|]. constructor; [eexists _, _; split; [reflexivity|done]|]. constructor.
Qed.

Definition ex_view (more : list token) : option inspect_out :=
  match resolve_installation_reqs id_oracle ["app"; "core"] ∅ P_Graph.ex_cfg P_Graph.ex_nx true true false with
  | PlanOk ip => inspect_line ex_int 9 id_oracle ∅ [] (ip_depdb ip) (line_of (ex_inspect more))
  | _ => None
  end.

Example C164_inspect_example :
  ex_view [TSwitch "deps"; TWord "core"; TWord "nosuch"] =
    Some (OutText ("{" +:+ newline +:+ "  ""core"": null," +:+ newline +:+ "  ""nosuch"": null" +:+ newline +:+ "}" +:+ newline)) /\
  ex_view [TSwitch "deps"; TSwitch "tree"; TWord "lib1"] = Some (OutTree [DepTree "lib1" [DepTree "core" []]]) /\
  ex_view [TSwitch "installed-from"; TSwitch "deps"] =
    Some (OutText ("{" +:+ newline +:+ "  ""pkgr"": null," +:+ newline +:+ "  ""packrat"": null," +:+ newline +:+ "  ""unknown"": null" +:+ newline +:+ "}" +:+ newline)).
Proof. by vm_compute. Qed.

(** pkgr run --library /opt/lib --pkg=curl *)
Definition ex_running (more : list token) : option process :=
  run_line ex_int "/home/me" ["work"] 8 {| va_rpath := None; va_library := None |}
    {| fi_no_update := None; fi_no_rollback := None; fi_no_secure := None; fi_strict := None; fi_library := Some "lib"; fi_rpath := None; fi_threads := None |}
    [[("curl", Some [("CFLAGS", "-O0")])]] ["HOME=/home/u"; "CFLAGS=-O2"] Linux "/tmp/a" (line_of (TWord "run" :: more)).

Example C164_run_example :
  ex_running [TNext "library" "/opt/lib"; TSet "pkg" "curl"] =
    Some {| pr_program := "R"; pr_args := ["--vanilla"]; pr_dir := ["work"];
            pr_env := ["CFLAGS=-O0"; "HOME=/home/u"; "R_LIBS_USER=/tmp/a"; "R_LIBS_SITE=/opt/lib"] |} /\
  option_map pr_env (ex_running []) = Some ["HOME=/home/u"; "CFLAGS=-O2"; "R_LIBS_USER=/tmp/a"; "R_LIBS_SITE=lib"].
Proof. by vm_compute. Qed.

(** ** Refuted *)

(** The package whose variables are wanted cannot be given as a word, and this is not told:
    pkgr run curl starts a session without the variables of curl. *)
Theorem C164_word_refuted : exists more p, words_of more = ["curl"] /\
  ex_running more = Some p /\ Some p = ex_running [] /\ ~ env_value (pr_env p) "CFLAGS" "-O0".
Proof.
  exists [TWord "curl"]. eexists. split; [done|]. split; [by vm_compute|]. split; [by vm_compute|].
  intros (a & b & H & _). cbn [pr_env] in H.
  assert ("CFLAGS=-O0" ∈ ["HOME=/home/u"; "CFLAGS=-O2"; "R_LIBS_USER=/tmp/a"; "R_LIBS_SITE=lib"]) as K.
  { rewrite H. apply elem_of_app. right. by left. }
  revert K. by apply (bool_decide_unpack _); vm_compute.
Qed.

(** --tree and --reverse without --deps are accepted, and nothing is written. *)
Theorem C164_tree_refuted : ex_view [TSwitch "tree"; TSwitch "reverse"; TWord "app"] = Some OutNothing.
Proof. by vm_compute. Qed.

Print Assumptions C164_deps.
Print Assumptions C164_reverse.
Print Assumptions C164_tree_partial.
Print Assumptions C164_nothing.
Print Assumptions C164_installed.
Print Assumptions C164_run.
Print Assumptions C164_program_partial.
Print Assumptions C164_pkg_partial.
Print Assumptions C164_no_pkg.
Print Assumptions C164_word_refuted.
Print Assumptions C164_tree_refuted.
