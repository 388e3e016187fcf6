(** What is said about a command line for load or plan: C162. *)
From stdpp Require Import strings list.
From Coq Require Import Ascii ZArith.
From Verif.model Require Import GoStr Customs Fs Config Flags Cli LoadCmd LoadLine.
From Verif.spec Require Import CliSpec.

Local Open Scope string_scope.

(** The line is one for the command [p], and does not ask for help. *)
Definition command_line (int : string -> option Z) (p : list string) (ts : list token) : Prop :=
  (exists ws, line_for_command int p ts ws) /\ bool_given "help" (given_in ts) <> Some true.

(** The flag is given as on, given as off, or not given. *)
Definition turned_on (n : string) (ts : list token) : Prop := bool_given n (given_in ts) = Some true.
Definition turned_off (n : string) (ts : list token) : Prop := bool_given n (given_in ts) = Some false.
Definition untouched (n : string) (ts : list token) : Prop := last_given n (given_in ts) = None.

(** The file has none of these keys. *)
Definition no_keys : view_keys := {| vk_all := None; vk_json := None; vk_show_deps := None; vk_config := None |}.

(** Two answers of R are the same in a directory. *)
Definition agree_in (dir : path) (r r' : r_session) : Prop := forall x, r dir x = r' dir x.
