(** From the command line of install to the library: cmd/root.go, cmd/plan.go,
    cmd/install.go. *)
From stdpp Require Import strings list gmap.
From Coq Require Import Ascii ZArith.
From Verif.model Require Import GoStr Version Desc Nexus Pacman RepoDb Graph Plan Fs Rollback Sched Install Download Tarballs Together Urls Fetching
  Config Start Flags Cli LoadLine.

Local Open Scope string_scope.

(** What the program finds when it is started: the home and working directories, the number
    of processors, the variables, and what is in the file, for configlib/config.go 36-64 and
    cmd/root.go 118-143; what R says of itself; the databases of the repositories
    (cmd/plan.go 153), the tarballs and DESCRIPTION files (181-209), and the orders in which
    maps are traversed.  [ic_file] is the part of the file that is used for planning; its
    NoUpdate is that of the settings.  [ic_dirs] are the directories in a library with
    what their DESCRIPTION files say (cmd/plan.go 106). *)
Record install_case := {
  ic_home : string; ic_cwd : path; ic_cpus : Z; ic_vars : variables; ic_keys : file_keys;
  ic_lock : string; ic_renv : option string; ic_version : r_version; ic_platform : string;
  ic_file : plan_config; ic_nexus : nexus; ic_tarballs : list desc; ic_unpacked : gmap string additional;
  ic_descriptions : list desc; ic_dirs : list (string * option desc); ic_orders : oracle
}.

(** configlib/config.go 42-54: the library of the configuration, as text. *)
Definition case_library (w : install_case) (a : flags) : option string :=
  library_of {| lc_flag := fl_library a; lc_env := va_library (ic_vars w); lc_file := fi_library (ic_keys w);
    lc_lock := ic_lock w; lc_renv := ic_renv w; lc_version := ic_version w; lc_platform := ic_platform w; lc_home := ic_home w |}.

(** configlib/structs.go 42-63 and cmd/root.go 132-134: the configuration for planning. *)
Definition case_config (w : install_case) (s : settings) : plan_config :=
  PlanConfig (cf_packages (ic_file w)) (cf_ignore (ic_file w)) (cf_suggests (ic_file w)) (cf_no_recommended (ic_file w))
    (se_no_update s) (Plan.cf_customs (ic_file w)).

(** cmd/plan.go 102-125: the packages found in the library; none if it does not exist. *)
Definition case_found (w : install_case) (f : fsys) (lib : path) : gmap string desc :=
  if fs_dir_exists f lib then prior_installed (ic_dirs w) ∅ else ∅.

(** cmd/plan.go 83-326 as install calls it (cmd/install.go 68). *)
Definition case_plan (w : install_case) (s : settings) (f : fsys) (lib : path) : planned_install :=
  plan_install (ic_orders w) (case_config w s) (ic_nexus w) (ic_tarballs w) (ic_descriptions w) (case_found w f lib) (fs_dir_exists f lib).

(** The program gets to cmd/install.go 55 with the library [lib], the settings [s] and the
    working directory [dir]: cmd/root.go 118-143. *)
Definition case_starts (int : string -> option Z) (w : install_case) (args : list string) (dir lib : path) (s : settings) : Prop :=
  exists given ws name l,
    execute int args = RunsCommand ["install"] given ws /\ config_name (ic_home w) (first_config given) = Some name /\
    dir = command_dir (ic_cwd w) name /\
    s = init_settings (ic_cpus w) (flags_of int given) (ic_vars w) (ic_keys w) /\
    case_library w (flags_of int given) = Some l /\ lib = config_path (ic_cwd w) name l.

(** How the program ends.  [PDone]: it gets to cmd/install.go 158; with the plan, the orders
    in which its map of dependencies and the tarballs are traversed, and whether there were
    errors in 123-132 and 137. *)
Inductive install_end :=
| PExit (code : Z)
| PStop     (* log.Fatal or a panic *)
| PDone (ip : install_plan) (keys add add' : list string) (l : list (string * additional)) (n : nat) (pe ae : bool).

(** cmd/install.go 55-159 behind cmd/root.go 118-143.  Left out: an error of DownloadPackages
    when a directory of the cache cannot be made; reading the databases and unpacking the
    tarballs into the cache, [f] being the files after that. *)
Inductive install_program (int : string -> option Z) (w : install_case) (e : Together.setting) (x : fetch_env) (Rs : rsystem) (R : rprog)
    (args : list string) (f : fsys) : install_end -> fsys -> Prop :=
| ip_missing dir lib s m : case_starts int w args dir lib s -> case_plan w s f lib = PIMissing m ->
    install_program int w e x Rs R args f (PExit 1) f                                        (** cmd/plan.go 233-235 *)
| ip_fatal dir lib s : case_starts int w args dir lib s -> (case_plan w s f lib = PIFatal \/ case_plan w s f lib = PIPanic) ->
    install_program int w e x Rs R args f PStop f
| ip_strict dir lib s nx ip : case_starts int w args dir lib s -> case_plan w s f lib = PIPlan nx ip ->
    ip_create_library ip = true -> (se_strict s = true \/ mkdir_all lib f = None) ->
    install_program int w e x Rs R args f PStop f                                            (** 70-84 *)
| ip_stopped dir lib s nx ip keys add add' ls st : case_starts int w args dir lib s -> case_plan w s f lib = PIPlan nx ip ->
    (ip_create_library ip = true -> se_strict s = false /\ mkdir_all lib f <> None) ->
    keys ≡ₚ (map_to_list (ip_depdb ip)).*1 -> add ≡ₚ (map_to_list (ic_unpacked w)).*1 -> add' ≡ₚ add ->
    fetching x (wants ip) (run_ops (prepare_ops (run_conf lib s) (RunInput ip keys add add' (case_found w f lib))) f) ls st ->
    f_stopped st = true ->
    install_program int w e x Rs R args f PStop (f_fs st)                                    (** 99 *)
| ip_done dir lib s nx ip keys add add' l n fd pe ae f3 : case_starts int w args dir lib s -> case_plan w s f lib = PIPlan nx ip ->
    (ip_create_library ip = true -> se_strict s = false /\ mkdir_all lib f <> None) ->
    keys ≡ₚ (map_to_list (ip_depdb ip)).*1 -> add ≡ₚ (map_to_list (ic_unpacked w)).*1 -> add' ≡ₚ add ->
    l ≡ₚ map_to_list (ic_unpacked w) -> Z.of_nat n = worker_count (se_threads s) (ic_cpus w) -> e_library e = lib -> x_cwd x = dir ->
    fetched x (wants ip) (run_ops (prepare_ops (run_conf lib s) (RunInput ip keys add add' (case_found w f lib))) f) (e_downloads e) fd ->
    installs e Rs (Job (ip_starting ip) (ip_depdb ip) keys n) R l fd pe ae f3 ->
    install_program int w e x Rs R args f (PDone ip keys add add' l n pe ae)
      (run_final (run_conf lib s) (RunInput ip keys add add' (case_found w f lib)) (RunWorld false (fun _ => f3) pe ae) f).  (** 86-158 *)
