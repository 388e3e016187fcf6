(** Logging: logger/logger.go and where the commands set it up. *)
From stdpp Require Import strings list gmap.
From Coq Require Import Ascii.
From Verif.model Require Import GoStr.

Local Open Scope string_scope.

(** logrus: the levels, from the most to the least severe. Used in logger/logger.go
    79-101. *)
Inductive level := LPanic | LFatal | LError | LWarn | LInfo | LDebug | LTrace.

(** logrus: IsLevelEnabled; the severity of a level. Used for the levels of
    logger/logger.go 79-101. *)
Definition rank (l : level) : nat :=
  match l with LPanic => 0 | LFatal => 1 | LError => 2 | LWarn => 3 | LInfo => 4 | LDebug => 5 | LTrace => 6 end.

(** logrus: IsLevelEnabled, for the level of logger/logger.go 79-101. *)
Definition enabled (current l : level) : bool := (rank l <=? rank current)%nat.

(** logger/logger.go 79-101: SetLogLevel. *)
Definition set_level (s : string) : level :=
  let t := to_lower s in
  if String.eqb t "trace" then LTrace
  else if String.eqb t "debug" then LDebug
  else if String.eqb t "info" then LInfo
  else if String.eqb t "warn" then LWarn
  else if String.eqb t "error" then LError
  else if String.eqb t "fatal" then LFatal
  else if String.eqb t "panic" then LPanic
  else LInfo.

(** logger/logger.go 40-51, Fire gets an entry. A message: its level and its text. *)
Notation record := (level * string)%type.

(** logger/logger.go 18-37, 79-119. The global logger and the log files: [lg_hooks] are
    the files of the hooks in the order in which they were added. Simplified: a log file
    is a list of records, names stand for different files, and files that are open are
    not removed or replaced. *)
Record logging := {
  lg_level : level; lg_hooks : list string; lg_files : gmap string (list record)
}.

(** logger/logger.go 103-119, 27-37: AddLogFile.  [can_open]: the file can be opened or
    created for writing. *)
Definition add_log_file (can_open : string -> bool) (f : string) (overwrite : bool) (g : logging) : logging :=
  if String.eqb f "" || negb (can_open f) then g
  else {| lg_level := lg_level g; lg_hooks := (lg_hooks g ++ [f])%list;
          lg_files := <[f := if overwrite then [] else default [] (lg_files g !! f)]> (lg_files g) |}.

(** logger/logger.go 40-51: Fire appends a line (the file is opened with O_APPEND). *)
Definition append_record (r : record) (m : gmap string (list record)) (f : string) : gmap string (list record) :=
  <[f := (default [] (m !! f) ++ [r])%list]> m.

(** logrus: a message of an enabled level is given to every hook (the hooks are for
    every level, logger/logger.go 53-64). *)
Definition emit (g : logging) (r : record) : logging :=
  if enabled (lg_level g) r.1
  then {| lg_level := lg_level g; lg_hooks := lg_hooks g;
          lg_files := fold_left (append_record r) (lg_hooks g) (lg_files g) |}
  else g.

(** logger/logger.go 40-51: messages one after the other. *)
Definition emit_all (rs : list record) (g : logging) : logging := fold_left emit rs g.

(** logger/logger.go 79-101: the level is replaced. *)
Definition with_level (l : level) (g : logging) : logging :=
  {| lg_level := l; lg_hooks := lg_hooks g; lg_files := lg_files g |}.

(** The settings, configlib/structs.go 23-28 and cmd/root.go 79-80: Logging, the flag
    --loglevel and the key loglevel of the file. *)
Record log_config := {
  lc_all : string; lc_install : string; lc_overwrite : bool;
  lc_flag : option string; lc_key : option string
}.

(** cmd/root.go 111-115, configlib/config.go 173-220: the first time setGlobals runs
    viper knows the flags only; the file and the default "info" come afterwards. *)
Definition first_level (c : log_config) : level := set_level (default "" (lc_flag c)).

(** cmd/add.go 58-65, cmd/root.go 111-115 and configlib/config.go 215: the level when
    initConfig runs again. *)
Definition second_level (c : log_config) : level :=
  set_level (match lc_flag c with Some s => s | None => default "info" (lc_key c) end).

(** The commands of cmd/add.go 48, cmd/remove.go 40, cmd/clean.go 53, cmd/cleanCache.go
    63, cmd/cleanPkgdb.go 50, cmd/inspect.go 76, cmd/install.go 55, cmd/load.go 75,
    cmd/plan.go 67 and cmd/run.go 54, with the flags that matter for the log. *)
Inductive command :=
  | Add (install : bool) | Remove | Clean | CleanCache | CleanPkgdbs | Inspect (json : bool)
  | InstallCmd | LoadCmd (json : bool) | PlanCmd | Run.

(** cmd/install.go 276-283: initInstallLog. *)
Definition install_log (can_open : string -> bool) (c : log_config) (g : logging) : logging :=
  if negb (String.eqb (lc_install c) "") then add_log_file can_open (lc_install c) (lc_overwrite c) g
  else add_log_file can_open (lc_all c) (lc_overwrite c) g.

(** cmd/inspect.go 78 and the same line of add, remove and clean. *)
Definition all_log (can_open : string -> bool) (c : log_config) (g : logging) : logging :=
  add_log_file can_open (lc_all c) (lc_overwrite c) g.

(** What a command does to the log before its messages: cmd/add.go 51, 73-75,
    cmd/remove.go 43, 62-64, cmd/clean.go 55, cmd/inspect.go 78-83, cmd/install.go 58,
    cmd/load.go 76-78; cmd/plan.go, cmd/run.go, cmd/cleanCache.go and cmd/cleanPkgdb.go
    have none. *)
Definition set_up (can_open : string -> bool) (c : log_config) (cmd : command) (g : logging) : logging :=
  match cmd with
  | Add _ | Remove | Clean => all_log can_open c g
  | Inspect json => let g' := all_log can_open c g in if json then with_level LFatal g' else g'
  | InstallCmd => install_log can_open c g
  | LoadCmd json => if json then with_level LFatal g else g
  | CleanCache | CleanPkgdbs | PlanCmd | Run => g
  end.

(** A run: [before] are the messages of initConfig (cmd/root.go 118-143), [body] those
    of the command.  [again] are the messages of the second initConfig and [rest] those
    of the installation in add --install (cmd/add.go 58-65).  The configuration that is
    read again is taken to have the same Logging section. *)
Definition run_logging (can_open : string -> bool) (c : log_config) (cmd : command)
    (before body again rest : list record) (files : gmap string (list record)) : logging :=
  let g0 := emit_all before {| lg_level := first_level c; lg_hooks := []; lg_files := files |} in
  let g1 := emit_all body (set_up can_open c cmd g0) in
  match cmd with
  | Add true => emit_all rest (install_log can_open c (emit_all again (with_level (second_level c) g1)))
  | _ => g1
  end.
