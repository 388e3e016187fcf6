(** What is said about the arguments of the tools: C161. *)
From stdpp Require Import strings list.
From Coq Require Import Ascii.
From Verif.model Require Import GoStr Customs.

Local Open Scope string_scope.

(** What someone writes for a flag: with a value after an equals sign, alone, or with a value
    as the next argument; with one dash or with two. *)
Inductive flag_token := FSet (two : bool) (n v : string) | FAlone (two : bool) (n : string) | FNext (two : bool) (n v : string).

Definition dashes (two : bool) : string := if two then "--" else "-".

Definition flag_args (t : flag_token) : list string :=
  match t with
  | FSet b n v => [dashes b +:+ n +:+ "=" +:+ v]
  | FAlone b n => [dashes b +:+ n]
  | FNext b n v => [dashes b +:+ n; v]
  end.

Definition flag_line (ts : list flag_token) : list string := concat (map flag_args ts).

(** The flag and the value that are meant. *)
Definition flag_given (t : flag_token) : string * string :=
  match t with FSet _ n v => (n, v) | FAlone _ n => (n, "true") | FNext _ n v => (n, v) end.

(** It is a flag of [fl], which says for each name whether the flag is a switch. *)
Definition flag_fits (fl : list (string * bool)) (t : flag_token) : Prop :=
  match t with
  | FSet _ n v => ((n, true) ∈ fl /\ is_Some (parse_bool v)) \/ (n, false) ∈ fl
  | FAlone _ n => (n, true) ∈ fl
  | FNext _ n _ => (n, false) ∈ fl
  end.

(** The names of flags: not empty, not with a dash in front, without an equals sign, each
    once. *)
Fixpoint without_equals (s : string) : Prop :=
  match s with "" => True | String c r => c <> "="%char /\ without_equals r end.
Definition flag_names (fl : list (string * bool)) : Prop :=
  NoDup (map fst fl) /\ forall n b, (n, b) ∈ fl -> without_equals n /\ exists c r, n = String c r /\ c <> "-"%char.

(** An argument that is no flag: empty, a single dash, or without a dash in front. *)
Definition no_flag (s : string) : Prop := s = "" \/ s = "-" \/ exists c r, s = String c r /\ c <> "-"%char.

(** The words behind the flags, if need be behind two dashes. *)
Definition words_behind (args ws : list string) : Prop :=
  args = "--" :: ws \/ (args = ws /\ forall s, head ws = Some s -> no_flag s).
