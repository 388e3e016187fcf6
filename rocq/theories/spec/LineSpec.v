(** What is said about a command line for install: C159. *)
From stdpp Require Import strings list.
From Coq Require Import Ascii ZArith.
From Verif.model Require Import GoStr Customs Fs Flags Config Rollback Sched Cli.
From Verif.spec Require Import CliSpec.

Local Open Scope string_scope.

(** The line is one for install, and does not ask for help. *)
Definition install_line (int : string -> option Z) (ts : list token) : Prop :=
  (exists ws, line_for_command int ["install"] ts ws) /\ bool_given "help" (given_in ts) <> Some true.

(** The arguments start an installation with the settings [s]. *)
Definition starts_install (int : string -> option Z) (args : list string) (cpus : Z) (va : variables) (k : file_keys) (s : settings) : Prop :=
  exists given ws, execute int args = RunsCommand ["install"] given ws /\ s = init_settings cpus (flags_of int given) va k.

(** The scheduler has the workers that the settings ask for. *)
Definition has_workers (s : settings) (cpus : Z) (j : job) : Prop := Z.of_nat (j_workers j) = worker_count (se_threads s) cpus.
