(** The command load: cmd/load.go, cmd/structs.go. *)
From stdpp Require Import strings list gmap.
From Coq Require Import Ascii ZArith.
From Verif.model Require Import GoStr Env Fs Yml Config Start Desc Nexus Graph Plan Load.

Local Open Scope string_scope.

(** cmd/load.go 44-60: the directory in which R is run.  [flag] is the text of
    --config, [name] the name of the configuration file (Start.config_name), [cwd] the
    directory of the caller; initConfig has changed the working directory. *)
Definition load_dir (cwd : path) (name flag : string) : path :=
  if String.eqb flag "" then command_dir cwd name
  else Start.resolve (command_dir cwd name) (dir_name flag).

(** cmd/load.go 298-307: What an R session writes and how it ends; [an_message]: the
    text of the error. *)
Record answer := { an_out : string; an_err : string; an_end : attempt; an_message : string }.

(** cmd/load.go 291-313: R as seen by the command: the answer to an expression, in a
    directory. *)
Definition r_session := path -> string -> answer.

(** cmd/load.go 291-313: runRCmd, the lines of output and of errors. *)
Definition run_r_cmd (r : r_session) (dir : path) (expression : string) (reduced : bool) :
    list string * list string * attempt :=
  let a := r dir expression in
  (scan_r_output reduced (an_out a), scan_r_output false (an_err a), an_end a).

(** strings.ReplaceAll(s, quote, nothing). Used in cmd/load.go 180-184, 280-281. *)
Fixpoint drop_quotes (s : string) : string :=
  match s with
  | "" => ""
  | String c s' => if char_eqb c """" then drop_quotes s' else String c (drop_quotes s')
  end.

(** cmd/load.go 168-186: getRSessionLibPaths. *)
Definition session_lib_paths (r : r_session) (dir : path) : list string :=
  match run_r_cmd r dir ".libPaths()" true with
  | (out, [], ExitZero) => map drop_quotes out
  | _ => ["could not retrieve libpaths"]
  end.

(** cmd/load.go 258-287: getAdditionalPkgInfo, the path and the version. *)
Definition additional_info (r : r_session) (dir : path) (pkg : string) : string * string :=
  match run_r_cmd r dir ("find.package('" +:+ pkg +:+ "'); as.character(packageVersion('" +:+ pkg +:+ "'))") true with
  | ([p; v], _, ExitZero) => (drop_quotes p, drop_quotes v)
  | _ => ("could not retrieve", "could not retrieve")
  end.

(** cmd/structs.go 36-46: LoadResult, with its texts. *)
Record full_result := {
  fr_pkg : string; fr_version : string; fr_path : string; fr_exiterr : string;
  fr_stdout : string; fr_stderr : string; fr_success : bool
}.

(** cmd/load.go 209. *)
Definition library_call (pkg : string) : string := "library('" +:+ pkg +:+ "')".

(** cmd/load.go 207-255 and cmd/structs.go 53-68: attemptLoad and MakeLoadResult;
    [None]: log.Fatal. *)
Definition attempt_full (r : r_session) (dir : path) (pkg : string) : option full_result :=
  let '(out, err, e) := run_r_cmd r dir (library_call pkg) false in
  let result ok := Some {|
    fr_pkg := pkg; fr_version := (additional_info r dir pkg).2; fr_path := (additional_info r dir pkg).1;
    fr_exiterr := if ok : bool then "" else an_message (r dir (library_call pkg));
    fr_stdout := join newline out; fr_stderr := join newline err; fr_success := ok |} in
  match e with
  | ExitZero => result true
  | ExitNonZero => result false
  | CannotRun => None
  end.

(** How the session of package [i] of the list ends. This is cmd/load.go 209-231. *)
Definition session_ends (r : r_session) (dir : path) (pkgs : list string) (i : nat) : attempt :=
  match pkgs !! i with Some p => an_end (r dir (library_call p)) | None => ExitZero end.

(** cmd/structs.go 14-33: LoadReport and AddResult, with the texts. *)
Notation full_map := (gmap string full_result) (only parsing).

(** cmd/structs.go 14-18: LoadReport, with the paths of the session. *)
Record full_report := { fl_libs : list string; fl_results : full_map; fl_failures : nat }.

(** cmd/structs.go 28-33: AddResult. *)
Definition add_full (rep : full_report) (x : full_result) : full_report :=
  {| fl_libs := fl_libs rep; fl_results := <[fr_pkg x := x]> (fl_results rep);
     fl_failures := if fr_success x then fl_failures rep else S (fl_failures rep) |}.

(** cmd/load.go 99, 125-133: the report after receiving the results of [got]. *)
Definition full_report_of (r : r_session) (dir : path) (pkgs : list string) (got : list nat) : full_report :=
  fold_left (fun rep i =>
    match pkgs !! i with
    | Some p => match attempt_full r dir p with Some x => add_full rep x | None => rep end
    | None => rep
    end) got {| fl_libs := session_lib_paths r dir; fl_results := ∅; fl_failures := 0 |}.

(** cmd/load.go 92-97: the packages that are loaded; [keys] and [additional] as in
    Graph.get_all_packages.  cmd/plan.go 217-236: with missing packages planInstall
    returns an empty plan. *)
Definition to_load (all : bool) (user : list string) (plan : planned_install) (keys additional : list string) : list string :=
  if all then
    match plan with PIPlan _ ip => get_all_packages ip keys additional | _ => [] end
  else user.

(** How the command ends: with a status and no report, or with a report (which is
    printed with --json). This is cmd/load.go 137-153. *)
Inductive load_end := LoadStops (status : nat) | LoadReports (rep : full_report).

(** cmd/load.go 75-153 and the exit status: [load] returns nothing, so that the status
    is 0 after a report.  A fatal message is status 1, a panic status 2.
    Simplified: the fatal messages of planInstall before the plan are not modelled.
    [threads]: by default the number of processors (configlib/config.go 219). *)
Definition load_command (r : r_session) (dir : path) (threads : Z) (all : bool) (user : list string)
    (plan : planned_install) (keys additional : list string) (e : load_end) : Prop :=
  match plan with
  | PIFatal => e = LoadStops 1
  | PIPanic => e = LoadStops 2
  | PIOutOfFuel => False
  | PIPlan _ _ | PIMissing _ =>
      let pkgs := to_load all user plan keys additional in
      match sem_cap threads with
      | None => e = LoadStops 2
      | Some cap =>
          (exists s, lexec (length pkgs) cap (session_ends r dir pkgs) (Going s) /\ ls_main s = true /\
             e = LoadReports (full_report_of r dir pkgs (ls_got s))) \/
          (lexec (length pkgs) cap (session_ends r dir pkgs) Load.Fatal /\ e = LoadStops 1)
      end
  end.

(** cmd/load.go 60 and cmd/root.go 47-54: load returns nothing, so the status is 0. *)
Definition load_status (e : load_end) : nat := match e with LoadStops n => n | LoadReports _ => 0 end.

(** cmd/load.go 137-148: what is logged at the end. *)
Definition says_all_loaded (e : load_end) : bool :=
  match e with LoadReports rep => (fl_failures rep =? 0)%nat | LoadStops _ => false end.
