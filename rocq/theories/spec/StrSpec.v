(** Elementary vocabulary about byte strings. *)
From stdpp Require Import strings list.
From Coq Require Import Ascii.

Local Open Scope string_scope.

(** All bytes of a string satisfy [f]. *)
Fixpoint all_bytes (f : ascii -> bool) (s : string) : bool :=
  match s with "" => true | String c s' => f c && all_bytes f s' end.

(** ASCII white space: tab, line feed, vertical tab, form feed, carriage return, blank. *)
Definition white (c : ascii) : bool :=
  existsb (Nat.eqb (nat_of_ascii c)) [9; 10; 11; 12; 13; 32].

(** Membership in a set of bytes given as a string. *)
Fixpoint one_of (set : string) (c : ascii) : bool :=
  match set with "" => false | String d r => Ascii.eqb d c || one_of r c end.

(** A non-empty string with no white space and no byte of [bad]. *)
Definition word_without (bad : string) (s : string) : Prop :=
  s <> "" /\ all_bytes (fun c => negb (white c) && negb (one_of bad c)) s = true.
