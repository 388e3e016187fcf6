(** The records of the log as text: logger/logger.go 40-51 and 66-77, and what is logged when R
    is started (rcmd/configure.go 25-64, rcmd/install.go 131-139, rcmd/RunR.go 30-35, 103-108). *)
From stdpp Require Import strings list gmap.
From Coq Require Import Ascii NArith.
From Verif.model Require Import GoStr Env Logging Json.

Local Open Scope string_scope.

(** encoding/json (library): a value in one line. Used by the formatter of
    logger/logger.go 42 and 68. *)
Fixpoint flat (html : bool) (v : json) : string :=
  match v with
  | JNull => "null"
  | JBool true => "true"
  | JBool false => "false"
  | JNum n => itoa n
  | JNeg p => "-" +:+ itoa (Npos p)
  | JStr s => quoted html s
  | JArr [] => "[]"
  | JArr (x :: l) =>
      "[" +:+ flat html x +:+
      (fix more (l : list json) : string :=
         match l with
         | [] => "]"
         | y :: l' => "," +:+ flat html y +:+ more l'
         end) l
  | JObj [] => "{}"
  | JObj ((k, x) :: l) =>
      "{" +:+ quoted html k +:+ ":" +:+ flat html x +:+
      (fix more (l : list (string * json)) : string :=
         match l with
         | [] => "}"
         | (k', y) :: l' => "," +:+ quoted html k' +:+ ":" +:+ flat html y +:+ more l'
         end) l
  end.

(** logger/logger.go 40: an entry of logrus.  Errors among the fields are given as their
    texts, since the formatter replaces them.  Simplified: all values can be written,
    which those of pkgr can. *)
Record log_entry := LogEntry { en_level : level; en_msg : string; en_time : string; en_fields : gmap string json }.

(** logrus: Level.String (library). Used by logger/logger.go 42. *)
Definition level_name (l : level) : string :=
  match l with
  | LPanic => "panic" | LFatal => "fatal" | LError => "error" | LWarn => "warning"
  | LInfo => "info" | LDebug => "debug" | LTrace => "trace"
  end.

(** logrus: prefixFieldClashes (library), one name. Used by logger/logger.go 42. *)
Definition prefix_one (m : gmap string json) (k : string) : gmap string json :=
  match m !! k with
  | Some v => delete k (<["fields." +:+ k := v]> m)
  | None => m
  end.

(** logrus: prefixFieldClashes (library). Used by logger/logger.go 42. *)
Definition prefix_clashes (m : gmap string json) : gmap string json :=
  fold_left prefix_one ["time"; "msg"; "level"; "logrus_error"] m.

(** logrus: JSONFormatter.Format (library), the data. [timed]: with the time (logger/logger.go
    29), without (logger/logger.go 68-70). *)
Definition entry_data (timed : bool) (e : log_entry) : gmap string json :=
  let m := prefix_clashes (en_fields e) in
  let m := if timed then <["time" := JStr (en_time e)]> m else m in
  <["level" := JStr (level_name (en_level e))]> (<["msg" := JStr (en_msg e)]> m).

(** logrus: JSONFormatter.Format (library), the line that logger/logger.go 42-44
    writes, and with SetLogJson (66-77) the one on the standard output. *)
Definition format_entry (timed : bool) (e : log_entry) : string :=
  flat true (in_order (fun v => v) (entry_data timed e)) +:+ newline.

(** What happens to a log file, in any of the processes that use it: it is opened
    (logger/logger.go 103-119, O_TRUNC if it is to be overwritten), a record is written at its end
    (40-51, O_APPEND), or only the first [n] bytes of it since the disk is full. *)
Inductive log_event :=
| Opened (overwrite : bool)
| Fired (e : log_entry)
| Short (e : log_entry) (n : nat).

(** logger/logger.go 40-51 and 103-119: the text of the file.  Simplified: a line is
    written at once. *)
Definition log_step (t : string) (x : log_event) : string :=
  match x with
  | Opened true => ""
  | Opened false => t
  | Fired e => t +:+ format_entry true e
  | Short e n => t +:+ substring 0 n (format_entry true e)
  end.

(** logger/logger.go 40-51 and 103-119: one after the other. *)
Definition run_log (t : string) (l : list log_event) : string := fold_left log_step l t.

(** * What is logged when R is started *)

(** rcmd/structs.go 22-30: RSettings; [ls_env] has the fields that [configure_env] uses. *)
Record log_settings := LogSettings {
  ls_version : N * N * N; ls_env : env_settings; ls_packages : gmap string (gmap string string); ls_platform : string
}.

(** encoding/json (library): fields with omitempty. Used for rcmd/structs.go 25-29. *)
Definition text_field (k s : string) : list (string * json) := if String.eqb s "" then [] else [(k, JStr s)].

(** rcmd/structs.go 97-100: Nvp. *)
Definition nvp_json (p : nvp) : json :=
  JObj (text_field "global_env_vars_name" (n_name p) ++ text_field "global_env_vars_value" (n_value p))%list.

(** rcmd/structs.go 22-30: the settings as JSON. *)
Definition settings_json (s : log_settings) : json :=
  JObj ([("r_version", JObj [("Major", JNum (ls_version s).1.1); ("Minor", JNum (ls_version s).1.2); ("Patch", JNum (ls_version s).2)])] ++
        (match e_libs (ls_env s) with [] => [] | l => [("lib_paths", JArr (map JStr l))] end) ++
        text_field "rpath" (e_rpath (ls_env s)) ++
        [("global_env_vars", JObj (match e_global (ls_env s) with [] => [] | l => [("global_env_vars_pairs", JArr (map nvp_json l))] end))] ++
        (if bool_decide (ls_packages s = ∅) then [] else [("pkg_env_vars", in_order (in_order JStr) (ls_packages s))]) ++
        text_field "platform" (ls_platform s))%list.

(** A record without its time: level, message, fields (rcmd/configure.go 31-34 and others). *)
Notation said := (level * string * gmap string json)%type.

(** rcmd/configure.go 25-36: the variables of a package. *)
Definition package_said (s : log_settings) (pkg : string) : list said :=
  match ls_packages s !! pkg with
  | Some m => [(LTrace, "Custom Environment Variables", {["envs" := in_order JStr m; "package" := JStr pkg]})]
  | None => []
  end.

(** rcmd/configure.go 39-64: what is said about a variable of the caller. *)
Definition variable_said (rpath : string) (ev : string) : list said :=
  match split_on_n (char_eqb "=") 2 ev with
  | [k; v] =>
      if String.eqb v "" then []
      else if String.eqb k "R_LIBS_USER" then [(LDebug, "overriding system R_LIBS_USER", {["path" := JStr v]})]
      else if String.eqb k "R_LIBS_SITE" then [(LDebug, "overriding system R_LIBS_SITE", {["path" := JStr v]})]
      else if String.eqb k "PATH" && negb (String.eqb (path_value rpath v) v)
        then [(LDebug, "adding Rpath to front of system PATH", {["path" := JStr (path_value rpath v)]})]
      else []
  | _ => []
  end.

(** How R is started: R CMD INSTALL (rcmd/install.go 121-139), a session (rcmd/RunR.go 25-35), a
    script (rcmd/RunR.go 102-108), or in batch mode (rcmd/RunR.go 131-138). *)
Inductive start := StInstall (args : list string) | StSession | StScript (args : list string) | StBatch (args : list string).

(** rcmd/install.go 131-139, rcmd/RunR.go 30-35, 103-108 and 133-138: the last record. *)
Definition start_fields (st : start) (s : log_settings) (pkg rprog : string) (env : list string) : gmap string json :=
  match st with
  | StInstall args => {["cmd" := JStr "install"; "cmdArgs" := slice args; "RSettings" := settings_json s; "env" := slice env;
                        "package" := JStr pkg; "rpath" := JStr rprog]}
  | StSession => {["cmdArgs" := slice ["--vanilla"]; "RSettings" := settings_json s; "env" := slice env]}
  | StScript args => {["cmdArgs" := slice args; "RSettings" := settings_json s; "env" := slice env]}
  | StBatch args => {["cmdArgs" := slice args; "RSettings" := settings_json s; "rpath" := JStr rprog]}
  end.

(** rcmd/configure.go 14-103 and the functions above: all records of a start of R, for the
    environment [sys] of the caller; [rprog] is the program (rcmd/Rsettings.go R). *)
Definition start_said (st : start) (s : log_settings) (pkg rprog tmpdir : string) (sys : list string) : list said :=
  (package_said s pkg ++ flat_map (variable_said (e_rpath (ls_env s))) sys ++
   [(LTrace, "command args", start_fields st s pkg rprog (configure_env sys (ls_env s) tmpdir))])%list.
