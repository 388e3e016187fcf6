(** What temporary directories should be like. *)
From stdpp Require Import strings list.
From Coq Require Import Ascii.
From Verif.model Require Import Fs.

(** A directory in which there is nothing. *)
Definition nothing_in (f : fsys) (d : path) : Prop := forall x s, f (d ++ x :: s)%list = None.

(** The letters from A to Y. *)
Definition a_to_y (c : ascii) : Prop := (65 <= nat_of_ascii c <= 89)%nat.
