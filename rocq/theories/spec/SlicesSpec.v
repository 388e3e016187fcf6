(** What is said about the lists of packages in memory: C157. *)
From stdpp Require Import strings list relations.
From Coq Require Import Ascii.
From Verif.model Require Import Slices.

(** A slice lies in its array. *)
Definition lies (m : memory) (s : slice) : Prop :=
  exists a, m !! sl_array s = Some a /\ sl_len s <= length a.

(** What can happen from a memory in which no list has been returned yet. *)
Definition lists_happen (grow : nat -> nat) (start : slice) (keys additional : list string) (m : memory) (x : lists) : Prop :=
  rtc (lists_step grow start keys additional) (Lists m []) x.
