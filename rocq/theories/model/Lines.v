(** From the command line to the commands add, remove and clean: cmd/add.go, cmd/remove.go,
    cmd/clean.go, cmd/cleanCache.go, cmd/cleanPkgdb.go. *)
From stdpp Require Import strings list gmap.
From Coq Require Import Ascii ZArith.
From Verif.model Require Import GoStr Customs Fs Config Start Flags Cli Desc Nexus RepoDb Install Extract Tarballs Clean Commands Status LoadLine.

Local Open Scope string_scope.

(** cmd/add.go 48-71 and cmd/remove.go 40-60 behind cmd/root.go 118-143: how the program with
    the arguments [args] ends, and the files afterwards.  [None]: another command, add with
    --install (model/Reread.v), or a name of the configuration file that cannot be read.
    Simplified: initConfig succeeds. *)
Definition edit_line (int : string -> option Z) (home : string) (cwd : path) (yaml : string -> option (list string))
    (args : list string) (files : path -> config_file) : option (ending * (path -> config_file)) :=
  match execute int args with
  | RunsCommand p given ws =>
      match config_name home (first_config given) with
      | None => None
      | Some name =>
          let file := edited_file cwd name in
          let after (r : ending * config_file) := Some (r.1, fun q => if bool_decide (q = file) then r.2 else files q) in
          match p with
          | ["add"] => if default false (bool_given "install" given) then None else after (add_ends yaml (files file) ws)
          | ["remove"] => after (remove_ends (files file) ws)
          | _ => None
          end
      end
  | _ => None
  end.

(** cmd/cleanCache.go 54-61: the flags.  [dir] is the working directory, [user] the directory of
    the cache of the user, [cache] the key Cache. *)
Definition clean_flags (given : list (string * string)) (dir user : path) (cache : string) (hashes : list string) : clean_config := {|
  cc_cwd := dir; cc_default := user; cc_cache := cache; cc_repos := default "ALL" (last_given "repos" given);
  cc_src_only := default false (bool_given "src-only" given); cc_binaries_only := default false (bool_given "binaries-only" given);
  cc_hashes := hashes
|}.

(** What clean finds: the cache of the user, the key Cache, the hashes of the tarballs of the
    configuration, and what the plan needs for the databases (model/Commands.v). For
    cmd/clean.go 53-76. *)
Record clean_world := {
  cl_user : path; cl_cache : string; cl_hashes : list string; cl_unpack : unpacking; cl_tarballs : list tarball;
  cl_fetch : fsys -> fsys; cl_md5 : string -> string; cl_binary : bool; cl_dbs_dir : path; cl_configured : list string;
  cl_dbs : list repo_db; cl_version : r_version
}.

(** cmd/clean.go 53-76, cmd/cleanCache.go 63-66 (where the error is dropped) and
    cmd/cleanPkgdb.go 50-90 behind cmd/root.go 118-143: the program with the arguments [args]
    ends with [e].  Simplified: initConfig succeeds, and the log file of cmd/clean.go 55 is left out
    (model/Logging.v). *)
Definition clean_line (int : string -> option Z) (home : string) (cwd : path) (w : clean_world) (args : list string) (f : fsys)
    (e : clean_end) : Prop :=
  exists p given ws name,
    execute int args = RunsCommand p given ws /\ config_name home (first_config given) = Some name /\
    let c := clean_flags given (command_dir cwd name) (cl_user w) (cl_cache w) (cl_hashes w) in
    match p with
    | ["clean"] =>
        clean_command (default false (bool_given "all" given)) c (cl_unpack w) (cl_tarballs w) (cl_fetch w) (cl_md5 w) (cl_binary w)
          (cl_dbs_dir w) (cl_configured w) (cl_dbs w) (cl_version w) f e
    | ["clean"; "cache"] =>
        exists r, clean_cache c f r /\ e = match r with Panics => Panicked | Cleaned f' _ => Done f' end
    | ["clean"; "pkgdbs"] =>
        match unpack_tarballs (cl_unpack w) (user_cache (cc_cwd c) (cc_default c) (cc_cache c)) (cl_tarballs w) (cl_fetch w f) with
        | None => exists f', e = Stopped f'
        | Some (f', _, _) =>
            e = Done (clean_pkgdbs (cl_md5 w) (cl_binary w) (cl_dbs_dir w) (cc_repos c) (cl_configured w) (cl_dbs w) (cl_version w) f')
        end
    | _ => False
    end.
