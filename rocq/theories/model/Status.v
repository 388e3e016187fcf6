(** How commands end, and what add and remove leave in the configuration file when
    reading or writing it fails: cmd/root.go, cmd/plan.go, cmd/inspect.go, cmd/run.go,
    cmd/cleanCache.go, cmd/add.go, cmd/remove.go.  The command install is in
    model/Rollback.v, clean in model/Commands.v, load in model/LoadCmd.v. *)
From stdpp Require Import strings list gmap.
From Coq Require Import Ascii ZArith.
From Verif.model Require Import GoStr Desc Nexus RepoDb Graph Plan Fs Install Clean Yml.

Local Open Scope string_scope.

(** A command returns, with or without an error, or ends early by log.Fatal or
    os.Exit(1), or by a panic. This is about cmd/root.go 47-54. *)
Inductive ending := Returns (err : bool) | Fatally | Panicking.

(** cmd/root.go 47-54: an error of the command gives os.Exit(-1), which is the status
    255.  log.Fatal gives the status 1, a panic the status 2. *)
Definition exit_status (e : ending) : nat :=
  match e with Returns false => 0 | Returns true => 255 | Fatally => 1 | Panicking => 2 end.

(** cmd/plan.go 67-100, 217-237, 258-260 and cmd/inspect.go 76-114: planInstall is called
    so that missing packages end the program.  [strict] and [library_exists]: lines
    96-100, where the error is only logged.  Simplified: R can be run, repositories and
    DESCRIPTION files can be read. *)
Definition planning_ends (strict library_exists : bool) (p : planned_install) : option ending :=
  match p with
  | PIPlan _ _ => Some (Returns false)
  | PIMissing _ | PIFatal => Some Fatally
  | PIPanic => Some Panicking
  | PIOutOfFuel => None
  end.

(** How an R session ends: it cannot be started, or with a status. This is about
    rcmd/RunR.go 18-59. *)
Inductive session := NotStarted | Ended (status : nat).

(** cmd/run.go 54-67, rcmd/Rsettings.go 16-25, 55-65, rcmd/RunR.go 18-59: R is run for
    its version first, then as a session, the error of which is dropped. *)
Definition run_ends (version_known : bool) (r : session) : ending :=
  if version_known then Returns false else Fatally.

(** cmd/cleanCache.go 63-66: the error of cleanCacheFolders is dropped. *)
Definition clean_cache_ends (r : clean_result) : ending :=
  match r with Panics => Panicking | Cleaned _ _ => Returns false end.

(** * Editing the configuration file *)

(** The configuration file: its contents, how many bytes of it can be read before an
    error ([None]: all), whether it can be opened for writing, and how many bytes can be
    written before the disk is full ([None]: enough). It is read in
    configlib/add_package.go 21 and configlib/config.go 251 and written in
    configlib/add_package.go 45 and configlib/config.go 273. *)
Record config_file := {
  cn_content : string; cn_readable : option nat; cn_writable : bool; cn_room : option nat
}.

(** What can be read in configlib/config.go 251, where an error is dropped, or written
    in configlib/config.go 273. *)
Definition cut (limit : option nat) (s : string) : string :=
  match limit with Some n => substring 0 n s | None => s end.

(** afero.WriteFile, and goutils.WriteLines taken to do the same: the file is opened and
    truncated, then written. Used in configlib/add_package.go 45 and configlib/config.go
    273. *)
Definition overwrite (c : config_file) (t : string) : bool * config_file :=
  if cn_writable c then
    (match cn_room c with Some n => (String.length t <=? n)%nat | None => true end,
     {| cn_content := cut (cn_room c) t; cn_readable := None; cn_writable := true; cn_room := cn_room c |})
  else (false, c).

(** cmd/add.go 48-71 without --install, configlib/add_package.go 17-47.  [yaml]: what the
    YAML library reads as Packages ([None]: an error).  Without arguments the help is
    shown. *)
Definition add_ends (yaml : string -> option (list string)) (c : config_file) (pkgs : list string)
    : ending * config_file :=
  match pkgs with
  | [] => (Returns false, c)
  | _ =>
      match cn_readable c with
      | Some _ => (Fatally, c)
      | None =>
          match yaml (cn_content c) with
          | None => (Fatally, c)
          | Some listed =>
              match add_packages (cn_content c) listed pkgs with
              | None => (Panicking, c)
              | Some t => let '(ok, c') := overwrite c t in (if ok then Returns false else Fatally, c')
              end
          end
      end
  end.

(** cmd/remove.go 40-60, configlib/config.go 238-278: the error of reading is dropped,
    and what could be read is taken for the file. *)
Fixpoint remove_ends (c : config_file) (names : list string) : ending * config_file :=
  match names with
  | [] => (Returns false, c)
  | name :: rest =>
      let '(ok, c') := overwrite c (remove_package (cut (cn_readable c) (cn_content c)) name) in
      if ok then remove_ends c' rest else (Fatally, c')
  end.
