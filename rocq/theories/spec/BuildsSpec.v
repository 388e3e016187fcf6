(** What is said about builds of several runs with one cache of binaries. *)
From stdpp Require Import strings list gmap relations.
From Coq Require Import Ascii ZArith.
From Verif.model Require Import GoStr Fs Download Builds.

(** What can happen from the start. *)
Definition build_happens (es : list builder) (f : fsys) (x : builders) : Prop := rtc (builders_step es) (build_started es f) x.

(** Installation number [i] is at [a]. *)
Definition is_at (x : builders) (i : nat) (a : building) : Prop := bs_each x !! i = Some a.

(** Nobody is copying to [p]. *)
Definition not_copied (es : list builder) (x : builders) (p : list string) : Prop :=
  forall i e n c, es !! i = Some e -> bu_store e = p -> ~ is_at x i (BCopy n c).

(** Whoever builds for [p] builds this. *)
Definition same_ball (es : list builder) (p : list string) (c : string) : Prop :=
  forall e c', e ∈ es -> bu_store e = p -> bu_ball e = Some c' -> c' = c.

(** The byte [b] at offset [k] is that of a binary that somebody builds for [p], or that of what was there. *)
Definition byte_of (es : list builder) (f : fsys) (p : list string) (k : nat) (b : ascii) : Prop :=
  (exists e c, e ∈ es /\ bu_store e = p /\ bu_ball e = Some c /\ String.get k c = Some b) \/
  (exists s, f p = Some (File s) /\ String.get k s = Some b).
