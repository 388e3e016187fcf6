(** From the command line to the commands inspect and run: cmd/inspect.go, cmd/run.go. *)
From stdpp Require Import strings list gmap.
From Coq Require Import Ascii ZArith.
From Verif.model Require Import GoStr Env Fs Desc Customs Config Start Flags Cli Graph Inspect Pacman Json Calls LoadLine.

Local Open Scope string_scope.

(** cmd/inspect.go 76-131: what inspect writes: a text of JSON, a tree (how its lines are
    drawn is left out), nothing, or the recursion of the tree does not end. *)
Inductive inspect_out := OutText (t : string) | OutTree (roots : list dep_tree) | OutNothing | OutEndless.

(** cmd/inspect.go 63-66, 135-142: a flag of inspect, off by default. *)
Definition on (n : string) (given : list (string * string)) : bool := default false (bool_given n given).

(** cmd/inspect.go 76-131 behind cmd/root.go 118-143: what the program with the arguments
    [args] writes; [None] if it does not run inspect.  [depdb] is the DepDb of the plan,
    [found] and [keys] are the packages of the library and the order in which they are visited.
    Simplified: initConfig and planInstall succeed; the log is model/Logging.v. *)
Definition inspect_line (int : string -> option Z) (fuel : nat) (o : oracle) (found : gmap string desc) (keys : list string)
    (depdb : gmap string (list string)) (args : list string) : option inspect_out :=
  match execute int args with
  | RunsCommand ["inspect"] given ws =>
      Some (if on "installed-from" given then OutText (installed_from_text found keys)
            else match inspect fuel o (on "deps" given) (on "reverse" given) (on "tree" given) ws depdb with
                 | ShownRecord m => OutText (deps_text m)
                 | ShownTree ts => OutTree ts
                 | ShownNothing => OutNothing
                 | ShownEndless => OutEndless
                 end)
  | _ => None
  end.

(** cmd/run.go 54-72 behind cmd/root.go 118-143: the process of R that the program with the
    arguments [args] starts; [None] if it does not run run, or the name of the configuration
    file cannot be read.  [env]: the environment of pkgr; [tmp]: the directory made by
    configureEnv.  Simplified: initConfig succeeds; the paths of the configuration are taken as
    they are (C85, C129). *)
Definition run_line (int : string -> option Z) (home : string) (cwd : path) (cpus : Z) (va : variables) (k : file_keys)
    (customs : pkg_customs) (env : list string) (os : Install.goos) (tmp : string) (args : list string) : option process :=
  match execute int args with
  | RunsCommand ["run"] given _ =>
      match config_name home (first_config given) with
      | None => None
      | Some name =>
          let s := init_settings cpus (flags_of int given) va k in
          Some (process_of {| ow_env := env; ow_dir := command_dir cwd name; ow_os := os |} tmp
            {| Calls.cf_rpath := se_rpath s; Calls.cf_library := se_library s; Calls.cf_customs := customs |} (se_library s)
            (URun (default "" (last_given "pkg" given))))
      end
  | _ => None
  end.
