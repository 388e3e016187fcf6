(** Starting a command: cmd/root.go, configlib/config.go, cmd/run.go,
    rcmd/Rsettings.go, rcmd/RunR.go, rcmd/install.go (CliArgs). *)
From stdpp Require Import strings list gmap.
From Coq Require Import Ascii ZArith NArith.
From Verif.model Require Import GoStr Fs Env RepoDb Install Download Urls Yml Config.

Local Open Scope string_scope.

(** ** Where paths lead *)

(** A name as the operating system resolves it in the working directory [cwd] (no
    symbolic links). Used for the names of configlib/config.go 188 and cmd/root.go
    141. *)
Definition resolve (cwd : path) (s : string) : path :=
  if has_prefix "/" s then join_path [] s else join_path cwd s.

(** configlib/config.go 174-188: the name of the configuration file that is
    given to viper and read.  [None]: homedir.Expand fails and returns an empty
    name. *)
Definition config_name (home flag : string) : option string :=
  expand_tilde home (clean (if String.eqb flag "" then "pkgr.yml" else flag)).

(** configlib/config.go 188: the file that is read, in the working directory of
    the caller. *)
Definition loaded_file (cwd : path) (name : string) : path := resolve cwd name.

(** cmd/root.go 135-141: the working directory after initConfig. *)
Definition command_dir (cwd : path) (name : string) : path := removelast (resolve cwd name).

(** configlib/config.go 239-246 (RemovePackage) and configlib/add_package.go
    (AddPackages): the file that is edited; viper.ConfigFileUsed returns [name]
    as it was given, the working directory is now another one. *)
Definition edited_file (cwd : path) (name : string) : path := resolve (command_dir cwd name) name.

(** A path in the configuration (Library, Cache, Tarballs, Descriptions, local
    repositories, log files) is used after initConfig. This is after cmd/root.go 141. *)
Definition config_path (cwd : path) (name p : string) : path := resolve (command_dir cwd name) p.

(** configlib/config.go 112-119 and rcmd/RunR.go 110-122: the directory in which
    renv is asked for its library, during NewConfig. *)
Definition renv_dir (cwd : path) (name : string) : path := cwd.

(** rcmd/install.go 146-151, rcmd/RunR.go: the program that is run for [rpath] by
    a command whose directory is [dir].  os/exec: a name with a slash is resolved
    in the directory of the command, [None] stands for a search on the PATH. *)
Definition r_program (dir : path) (rpath : string) : option path :=
  if contains "/" rpath then Some (resolve dir rpath) else None.

(** ** Environment variables in the configuration: os.ExpandEnv (library), called
    in configlib/config.go 196 *)

(** os.isShellSpecialVar (library), for configlib/config.go 196. *)
Definition special_var (c : ascii) : bool :=
  let n := nat_of_ascii c in
  (existsb (Nat.eqb n) [42; 35; 36; 64; 33; 63; 45] || ((48 <=? n) && (n <=? 57)))%nat.

(** os.isAlphaNum (library), for configlib/config.go 196. *)
Definition alnum (c : ascii) : bool :=
  let n := nat_of_ascii c in
  ((n =? 95) || ((48 <=? n) && (n <=? 57)) || ((97 <=? n) && (n <=? 122)) || ((65 <=? n) && (n <=? 90)))%nat.

(** The text before the first closing brace, if there is one. For configlib/config.go
    196. *)
Fixpoint to_brace (s : string) : option string :=
  match s with
  | "" => None
  | String c r =>
      if char_eqb c "}" then Some ""
      else match to_brace r with Some t => Some (String c t) | None => None end
  end.

(** The longest name at the start, for configlib/config.go 196. *)
Fixpoint word_of (s : string) : string :=
  match s with
  | String c r => if alnum c then String c (word_of r) else ""
  | "" => ""
  end.

(** os.getShellName: the name and the number of bytes it takes. In braces a single
    special character is a name like any other. For configlib/config.go 196. *)
Definition shell_name (s : string) : string * nat :=
  match s with
  | "" => ("", 0)
  | String c r =>
      if char_eqb c "{" then
        match to_brace r with
        | None => ("", 1)
        | Some "" => ("", 2)
        | Some n => (n, String.length n + 2)
        end
      else if special_var c then (String c "", 1)
      else let n := word_of s in (n, String.length n)
  end.

(** A helper for os.Expand in configlib/config.go 196. *)
Fixpoint drop_bytes (n : nat) (s : string) : string :=
  match n, s with
  | S n', String _ r => drop_bytes n' r
  | _, _ => s
  end.

(** os.Expand; the fuel is the length of the text. Used in configlib/config.go 196. *)
Fixpoint expand_loop (fuel : nat) (env : string -> string) (s : string) : string :=
  match fuel with
  | 0 => ""
  | S fuel' =>
      match s with
      | "" => ""
      | String c r =>
          if char_eqb c "$" && negb (String.eqb r "") then
            let '(name, w) := shell_name r in
            let out := if String.eqb name "" then (if (0 <? w)%nat then "" else "$") else env name in
            out +:+ expand_loop fuel' env (drop_bytes w r)
          else String c (expand_loop fuel' env r)
      end
  end.

(** os.Expand, as in configlib/config.go 196. *)
Definition os_expand (env : string -> string) (s : string) : string := expand_loop (String.length s) env s.

(** os.Getenv: an unset variable is empty. Used in configlib/config.go 196. *)
Definition getenv (vars : gmap string string) (n : string) : string := default "" (vars !! n).

(** ** The variables of one package *)

(** Customizations.Packages: maps of package names to Env, [None] when Env is not given.
    This is configlib/structs.go 4-12, 30-36. *)
Definition pkg_customs := list (list (string * option (list (string * string)))).

(** configlib/get_customization.go 20-29: GetPackageCustomizationByName, and
    cmd/run.go 61-64. *)
Fixpoint run_env (p : string) (cs : pkg_customs) : list (string * string) :=
  match cs with
  | [] => []
  | m :: cs' => match assoc p m with Some e => default [] e | None => run_env p cs' end
  end.

(** configlib/config.go 281-291: SetCustomizations. *)
Definition install_envs (cs : pkg_customs) : gmap string (list (string * string)) :=
  foldl (fun m kv => match kv.2 with Some e => <[kv.1 := e]> m | None => m end) ∅ (concat cs).

(** rcmd/configure.go 25: the variables of a package in PkgEnvVars. *)
Definition install_env (p : string) (cs : pkg_customs) : list (string * string) := default [] (install_envs cs !! p).

(** ** The commands that are run *)

(** rcmd/structs.go 33-49: InstallArgs. *)
Record install_args := {
  ia_clean : bool; ia_preclean : bool; ia_debug : bool; ia_no_configure : bool; ia_example : bool; ia_fake : bool;
  ia_build : bool; ia_install_tests : bool; ia_no_multiarch : bool; ia_keep_source : bool; ia_byte_compile : bool;
  ia_no_test_load : bool; ia_no_clean_on_error : bool; ia_library : string
}.

(** rcmd/install.go 40-64: one flag. *)
Definition flag (b : bool) (name : string) : list string := if b then ["--" +:+ name] else [].

(** rcmd/install.go 40-64: CliArgs, the fields in their order; the zero value of a
    field is left out. *)
Definition cli_args (a : install_args) : list string :=
  (flag (ia_clean a) "clean" ++ flag (ia_preclean a) "preclean" ++ flag (ia_debug a) "debug" ++
   flag (ia_no_configure a) "no-configure" ++ flag (ia_example a) "example" ++ flag (ia_fake a) "fake" ++
   flag (ia_build a) "build" ++ flag (ia_install_tests a) "install-tests" ++ flag (ia_no_multiarch a) "no-multiarch" ++
   flag (ia_keep_source a) "with-keep.source" ++ flag (ia_byte_compile a) "byte-compile" ++
   flag (ia_no_test_load a) "no-test-load" ++ flag (ia_no_clean_on_error a) "no-clean-on-error" ++
   (if String.eqb (ia_library a) "" then [] else ["--library=" +:+ ia_library a]))%list.

(** rcmd/install.go 28-36: NewDefaultInstallArgs, with the library of cmd/install.go
    105-106. *)
Definition default_args (library : string) : install_args :=
  {| ia_clean := false; ia_preclean := false; ia_debug := false; ia_no_configure := false; ia_example := false;
     ia_fake := false; ia_build := true; ia_install_tests := true; ia_no_multiarch := true; ia_keep_source := true;
     ia_byte_compile := false; ia_no_test_load := false; ia_no_clean_on_error := false; ia_library := library |}.

(** rcmd/install.go 124-130: the arguments of R. *)
Definition r_install_args (a : install_args) (pkg_path : string) : list string :=
  (["--vanilla"; "CMD"; "INSTALL"] ++ cli_args a ++ [pkg_path])%list.

(** rcmd/Rsettings.go 27-48: the R executable. *)
Definition r_path (os : goos) (rpath : string) : string :=
  let windows := bool_decide (os = Windows) in
  let r := if String.eqb rpath "" then (if windows then "R.exe" else "R") else trim_suffix "/" rpath in
  let r := clean r in
  if windows && negb (has_suffix ".exe" r) then r +:+ ".exe" else r.

(** rcmd/RunR.go 61-73: convertToRscript. *)
Definition rscript_path (rpath : string) : string :=
  if has_suffix ".exe" rpath then trim_suffix ".exe" rpath +:+ "script" +:+ ".exe" else rpath +:+ "script".

(** configlib/config.go 47-55 and rcmd/Rsettings.go 16-25, 55-65: the program that
    is asked for the version of R, in the working directory [dir].  Without a
    library in the configuration it is also asked before the tilde of RPath is
    expanded; [expanded]: the call after NewConfig. *)
Definition version_program (os : goos) (home : string) (dir : path) (rpath : string) (expanded : bool) : option path :=
  match (if expanded then expand_tilde home rpath else Some rpath) with
  | Some r => r_program dir (r_path os r)
  | None => None
  end.
