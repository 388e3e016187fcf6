(** From the command line to the commands load and plan: cmd/load.go, cmd/plan.go. *)
From stdpp Require Import strings list gmap.
From Coq Require Import Ascii ZArith.
From Verif.model Require Import GoStr Customs Fs Config Start Flags Cli Desc Nexus Graph Plan Load LoadCmd.

Local Open Scope string_scope.

(** cast.ToBool (library), for viper.GetBool in cmd/load.go 39-40 and cmd/plan.go 74. *)
Definition key_bool (v : written) : bool :=
  match v with
  | WBool b => b
  | WInt z => negb (z =? 0)%Z
  | WText s => default false (parse_bool s)
  | WNull | WMany => false
  end.

(** cast.ToString (library), for viper.GetString in cmd/load.go 46. *)
Definition key_text (v : written) : string :=
  match v with
  | WBool b => if b then "true" else "false"
  | WInt z => int_text z
  | WText s => s
  | WNull | WMany => ""
  end.

(** The keys of the configuration file that have the names of the flags bound in
    cmd/load.go 67-69, cmd/plan.go 63 and cmd/root.go 77; [None]: there is no such key.  Left out:
    numbers with a fraction and dates. *)
Record view_keys := {
  vk_all : option written; vk_json : option written; vk_show_deps : option written; vk_config : option written
}.

(** viper.GetBool of a bound flag, once the file has been read: cmd/load.go 39-40,
    cmd/plan.go 74. *)
Definition asked (n : string) (given : list (string * string)) (key : option written) : bool :=
  setting (bool_given n given) None (option_map key_bool key) false.

(** viper.GetString of config, once the file has been read: cmd/load.go 46. *)
Definition config_text (given : list (string * string)) (key : option written) : string :=
  setting (last_given "config" given) None (option_map key_text key) "".

(** viper.GetString of config, before any file has been read: cmd/root.go 130. *)
Definition first_config (given : list (string * string)) : string := default "" (last_given "config" given).

(** cmd/load.go 38-60 behind cmd/root.go 118-143: the program with the arguments [args] runs
    load, which ends with [e] and writes [out].  [user] are the packages of the file, [plan]
    is the answer of planInstall. *)
Definition load_line (int : string -> option Z) (home : string) (cwd : path) (cpus : Z) (va : variables) (k : file_keys)
    (vk : view_keys) (r : r_session) (user : list string) (plan : planned_install) (keys additional : list string)
    (args : list string) (e : load_end) (out : option full_report) : Prop :=
  exists given ws name,
    execute int args = RunsCommand ["load"] given ws /\ config_name home (first_config given) = Some name /\
    load_command r (load_dir cwd name (config_text given (vk_config vk)))
      (se_threads (init_settings cpus (flags_of int given) va k)) (asked "all" given (vk_all vk)) user plan keys additional e /\
    out = match e with LoadReports rep => if asked "json" given (vk_json vk) then Some rep else None | LoadStops _ => None end.

(** cmd/plan.go 67-81: what plan writes of the dependencies, [ip] being the plan; the order
    is that of a map in Go and [deps] is any. *)
Definition plan_shows (given : list (string * string)) (vk : view_keys) (ip : install_plan) (deps : list (string * list string)) : Prop :=
  if asked "show-deps" given (vk_show_deps vk) then deps ≡ₚ map_to_list (ip_depdb ip) else deps = [].
