(** From the command line of plan to what it shows: cmd/root.go, cmd/plan.go. *)
From stdpp Require Import strings list gmap.
From Coq Require Import Ascii ZArith.
From Verif.model Require Import GoStr Version Desc Nexus Pacman RepoDb Graph Plan Report Fs Config Start Flags Cli LoadLine InstallLine.

Local Open Scope string_scope.

(** The program gets to cmd/plan.go 67 with the library [lib], the settings [s], the working
    directory [dir] and the flags [given]: cmd/root.go 118-143. *)
Definition plan_starts (int : string -> option Z) (w : install_case) (args : list string) (dir lib : path) (s : settings)
    (given : list (string * string)) : Prop :=
  exists ws name l,
    execute int args = RunsCommand ["plan"] given ws /\ config_name (ic_home w) (first_config given) = Some name /\
    dir = command_dir (ic_cwd w) name /\
    s = init_settings (ic_cpus w) (flags_of int given) (ic_vars w) (ic_keys w) /\
    case_library w (flags_of int given) = Some l /\ lib = config_path (ic_cwd w) name l.

(** What plan tells: cmd/plan.go 68 (workers), 263-322 (status, sources, updates, numbers,
    packages to install) and 74-79 (dependencies).  Left out: the messages of 102-262 and
    the times. *)
Record plan_text := {
  pt_workers : Z; pt_status : status_message; pt_sources : gmap string nat; pt_updates : list (string * bool);
  pt_to_update : nat; pt_to_install : Z; pt_library : string; pt_lines : list line; pt_deps : list (string * list string)
}.

(** cmd/plan.go 67-81: how plan ends. *)
Inductive shown_end :=
| SExit (code : Z)
| SStop     (* log.Fatal or a panic *)
| SShown (t : plan_text).

(** cmd/plan.go 67-81 behind cmd/root.go 118-143.  [keys], [add] and [inst] are the orders in
    which maps are traversed.  Files are not changed here; reading the databases and
    unpacking the tarballs into the cache are left out (Preview.v), [f] being the files after
    that. *)
Inductive plan_program (int : string -> option Z) (w : install_case) (vk : view_keys) (args : list string) (f : fsys) : shown_end -> Prop :=
| pp_missing dir lib s g m : plan_starts int w args dir lib s g -> case_plan w s f lib = PIMissing m ->
    plan_program int w vk args f (SExit 1)                                                   (** cmd/plan.go 233-235 *)
| pp_stop dir lib s g : plan_starts int w args dir lib s g -> (case_plan w s f lib = PIFatal \/ case_plan w s f lib = PIPanic) ->
    plan_program int w vk args f SStop
| pp_shown dir lib s g nx ip keys add inst deps l : plan_starts int w args dir lib s g -> case_plan w s f lib = PIPlan nx ip ->
    keys ≡ₚ (map_to_list (ip_depdb ip)).*1 -> add ≡ₚ (map_to_list (ic_unpacked w)).*1 ->
    inst ≡ₚ (map_to_list (case_found w f lib)).*1 -> plan_shows g vk ip deps -> case_library w (flags_of int g) = Some l ->
    plan_program int w vk args f (SShown {|
      pt_workers := worker_count (se_threads s) (ic_cpus w); pt_status := status_of ip keys add inst;
      pt_sources := sources_of ip add; pt_updates := update_messages (se_no_update s) ip; pt_to_update := to_update (se_no_update s) ip;
      pt_to_install := num_to_install ip keys add; pt_library := l; pt_lines := install_lines nx ip keys add inst; pt_deps := deps |}).
