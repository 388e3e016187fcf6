(** The processes of R that pkgr starts: rcmd/RunR.go, rcmd/Rsettings.go, rcmd/install.go,
    cmd/run.go, cmd/load.go, cmd/install.go, cmd/experiment.go, configlib/config.go. *)
From stdpp Require Import strings list gmap.
From Coq Require Import Ascii ZArith.
From Verif.model Require Import GoStr Fs Env RepoDb Install Download Urls Yml Config Start.

Local Open Scope string_scope.

(** rcmd/structs.go 23-30: RSettings.  The components of the version are those of
    Config.version_data.  The variables of a package are in the order in which the map is
    iterated. *)
Record r_settings := {
  rs_version : Z * Z * Z; rs_platform : string; rs_libs : list string; rs_rpath : string;
  rs_global : nvps; rs_packages : gmap string (list (string * string))
}.

(** rcmd/Rsettings.go 17-21: the settings before R has been asked. *)
Definition unasked (rpath : string) : r_settings :=
  {| rs_version := (0, 0, 0)%Z; rs_platform := ""; rs_libs := []; rs_rpath := rpath; rs_global := []; rs_packages := ∅ |}.

(** cmd/run.go 60, cmd/experiment.go 51, rcmd/install.go 326: one more library. *)
Definition with_lib (lib : string) (rs : r_settings) : r_settings :=
  {| rs_version := rs_version rs; rs_platform := rs_platform rs; rs_libs := (rs_libs rs ++ [lib])%list;
     rs_rpath := rs_rpath rs; rs_global := rs_global rs; rs_packages := rs_packages rs |}.

(** cmd/run.go 63 and configlib/config.go 281-291: the variables of packages. *)
Definition with_packages (m : gmap string (list (string * string))) (rs : r_settings) : r_settings :=
  {| rs_version := rs_version rs; rs_platform := rs_platform rs; rs_libs := rs_libs rs;
     rs_rpath := rs_rpath rs; rs_global := rs_global rs; rs_packages := m |}.

(** rcmd/configure.go 14, 25: what configureEnv uses for a package. *)
Definition settings_for (rs : r_settings) (pkg : string) : env_settings :=
  {| e_global := rs_global rs; e_package := default [] (rs_packages rs !! pkg); e_rpath := rs_rpath rs; e_libs := rs_libs rs |}.

(** The process of pkgr: its environment (os.Environ), its working directory after
    initConfig (cmd/root.go 118-143), and runtime.GOOS, for rcmd/RunR.go 25-133. *)
Record own := { ow_env : list string; ow_dir : path; ow_os : goos }.

(** os/exec Cmd as in rcmd/RunR.go 44-57: program, arguments, directory, environment.
    Simplified: standard input and output are left out; os/exec adds PWD to an inherited
    environment. *)
Record process := { pr_program : string; pr_args : list string; pr_dir : path; pr_env : list string }.

(** rcmd/RunR.go 18-58: StartR.  [dir]: rdir, [None] for the empty text; [tmp]: the
    directory made by configureEnv. *)
Definition start_r (o : own) (tmp : string) (pkg : string) (rs : r_settings) (dir : option path) : process :=
  {| pr_program := r_path (ow_os o) (rs_rpath rs); pr_args := ["--vanilla"]; pr_dir := default (ow_dir o) dir;
     pr_env := configure_env (ow_env o) (settings_for rs pkg) tmp |}.

(** rcmd/RunR.go 95-124: RunRscriptWithArgs. *)
Definition run_rscript (o : own) (tmp : string) (pkg : string) (rs : r_settings) (args : list string) (dir : option path) : process :=
  {| pr_program := rscript_path (r_path (ow_os o) (rs_rpath rs)); pr_args := args; pr_dir := default (ow_dir o) dir;
     pr_env := configure_env (ow_env o) (settings_for rs pkg) tmp |}.

(** rcmd/RunR.go 75-91: RunR. *)
Definition run_r (o : own) (tmp : string) (pkg : string) (rs : r_settings) (script : string) (dir : option path) : process :=
  run_rscript o tmp pkg rs ["--vanilla"; "-e"; script] dir.

(** rcmd/RunR.go 126-149: RunRBatch.  Without a directory os/exec takes that of pkgr. *)
Definition run_r_batch (o : own) (tmp : string) (rs : r_settings) (args : list string) : process :=
  {| pr_program := r_path (ow_os o) (rs_rpath rs); pr_args := args; pr_dir := ow_dir o;
     pr_env := configure_env (ow_env o) (settings_for rs "") tmp |}.

(** rcmd/install.go 122-151: R CMD INSTALL in [dir] (es.WorkDir). *)
Definition run_install (o : own) (tmp : string) (pkg : string) (rs : r_settings) (a : install_args) (source : string) (dir : path) : process :=
  {| pr_program := r_path (ow_os o) (rs_rpath rs); pr_args := r_install_args a source; pr_dir := dir;
     pr_env := configure_env (ow_env o) (settings_for rs pkg) tmp |}.

(** cmd/load.go 291-313: runRCmd.  Env is not set, so that os/exec passes on the
    environment of pkgr. *)
Definition load_process (o : own) (rs : r_settings) (expression : string) (dir : path) : process :=
  {| pr_program := r_path (ow_os o) (rs_rpath rs); pr_args := ["--slave"; "--no-restore"; "-e"; expression]; pr_dir := dir;
     pr_env := ow_env o |}.

(** What R is used for.  [UVersion]: rcmd/Rsettings.go 55-65.  [URenv]:
    configlib/config.go 111-120.  [URun]: cmd/run.go 54-67.  [UExperiment]:
    cmd/experiment.go 47-66.  [UBuild]: rcmd/install.go 309-347, from source into the
    temporary directory [tmpdir], which is [dir].  [UBuilt]: rcmd/install.go 331-333,
    382-388, what was built there, into the library.  [UCached]: rcmd/install.go 282-295,
    a binary of the cache into the library.  [UTarball]: cmd/install.go 185-233.
    [ULoad]: cmd/load.go 168-313. *)
Inductive use :=
| UVersion
| URenv
| URun (pkg : string)
| UExperiment (script : string)
| UBuild (pkg source tmpdir : string) (dir : path)
| UBuilt (pkg source : string) (dir : path)
| UCached (pkg source : string)
| UTarball (pkg source : string) (dir : path)
| ULoad (expression : string) (dir : path).

(** configlib/structs.go 47-68: the configured values that are used here. *)
Record r_config := { cf_rpath : string; cf_library : string; cf_customs : pkg_customs }.

(** configlib/config.go 117: the expression. *)
Definition renv_expression : string :=
  "cat('" +:+ newline +:+ "_pkgr_', renv::paths$library(), '_pkgr_" +:+ newline +:+ "', sep = '')".

(** rcmd/install.go 331-333: the arguments for what was built: only the library. *)
Definition built_args (library : string) : install_args :=
  {| ia_clean := false; ia_preclean := false; ia_debug := false; ia_no_configure := false; ia_example := false;
     ia_fake := false; ia_build := false; ia_install_tests := false; ia_no_multiarch := false; ia_keep_source := false;
     ia_byte_compile := false; ia_no_test_load := false; ia_no_clean_on_error := false; ia_library := library |}.

(** rcmd/install.go 285: the arguments for a binary of the cache. *)
Definition cached_args (library : string) : install_args :=
  {| ia_clean := false; ia_preclean := false; ia_debug := false; ia_no_configure := false; ia_example := false;
     ia_fake := false; ia_build := false; ia_install_tests := true; ia_no_multiarch := true; ia_keep_source := true;
     ia_byte_compile := false; ia_no_test_load := false; ia_no_clean_on_error := false; ia_library := library |}.

(** The process for a use: the places in the code are given with [use].  [rs] has been
    made by NewRSettings (rcmd/Rsettings.go 16-25); in install it has the customizations
    (cmd/install.go 117).  The library given to install is absolute (cmd/install.go
    105-106, 169-177): [library]. *)
Definition process_of (o : own) (tmp : string) (c : r_config) (library : string) (u : use) : process :=
  let rs := unasked (cf_rpath c) in
  let custom := with_packages (install_envs (cf_customs c)) rs in
  match u with
  | UVersion => run_r_batch o tmp rs ["--version"]
  | URenv => run_rscript o tmp "" rs ["-e"; renv_expression] None
  | URun pkg => start_r o tmp pkg (with_packages {[pkg := run_env pkg (cf_customs c)]} (with_lib (cf_library c) rs)) None
  | UExperiment script => run_r o tmp "" (with_lib (cf_library c) rs) script None
  | UBuild pkg source tmpdir dir => run_install o tmp pkg (with_lib library custom) (default_args tmpdir) source dir
  | UBuilt pkg source dir => run_install o tmp pkg (with_lib library custom) (built_args library) source dir
  | UCached pkg source => run_install o tmp pkg custom (cached_args library) source (ow_dir o)
  | UTarball pkg source dir => run_install o tmp pkg custom (default_args library) source dir
  | ULoad expression dir => load_process o rs expression dir
  end.

(** ** Asking for the version *)

(** rcmd/Rsettings.go 55-99: the settings after asking and whether R was run, or
    log.Fatal, or a panic. *)
Inductive asked := Known (rs : r_settings) (ran : bool) | AskFatal | AskPanic.

(** rcmd/Rsettings.go 55-65: GetRVersion.  [answer]: the output of R, [None] if it could
    not be run or failed.  cran/r_version.go 11-13: the version is 0.0 as text. *)
Definition get_r_version (answer : option string) (rs : r_settings) : asked :=
  let '(major, minor, _) := rs_version rs in
  if (Z.eqb major 0 && Z.eqb minor 0)%bool then
    match answer with
    | None => AskFatal
    | Some out =>
        match parse_version_data out with
        | VData ma mi pa platform =>
            Known {| rs_version := (ma, mi, pa); rs_platform := platform; rs_libs := rs_libs rs; rs_rpath := rs_rpath rs;
                     rs_global := rs_global rs; rs_packages := rs_packages rs |} true
        | VFatal => AskFatal
        | VPanic => AskPanic
        end
    end
  else Known rs false.

(** rcmd/Rsettings.go 16-25: NewRSettings. *)
Definition new_r_settings (answer : option string) (rpath : string) : asked := get_r_version answer (unasked rpath).

(** A program that asks [n] times with the same settings, as cmd/plan.go 69-70,
    cmd/install.go 60-61, cmd/inspect.go 90-91 and configlib/config.go 48-49 do after
    NewRSettings: the settings and how often R was run.  [answer i] is given by the process
    number [i]. *)
Fixpoint ask_again (answer : nat -> option string) (n : nat) (rs : r_settings) (ran : nat) : option (r_settings * nat) :=
  match n with
  | O => Some (rs, ran)
  | S n =>
      match get_r_version (answer ran) rs with
      | Known rs' b => ask_again answer n rs' (if b then S ran else ran)
      | _ => None
      end
  end.
