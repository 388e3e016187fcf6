(** What is said about downloads of several runs into one cache. *)
From stdpp Require Import strings list gmap relations.
From Coq Require Import Ascii ZArith.
From Verif.model Require Import GoStr Fs Download Sharing.

(** What can happen from the start. *)
Definition get_happens (es : list getter) (f : fsys) (x : getters) : Prop := rtc (getters_step es) (get_started es f) x.

(** The download number [i] has ended with this result, and with an error or not. *)
Definition ended_with (x : getters) (i : nat) (d : download) (err : bool) : Prop := gs_each x !! i = Some (GEnd d err).

(** Nobody is writing the file at [p]. *)
Definition at_rest (es : list getter) (x : getters) (p : list string) : Prop :=
  forall i e n c ok, es !! i = Some e -> ge_dest e = p -> gs_each x !! i <> Some (GCopy n c ok).

(** Whoever gets a body for [p] gets this one, as a whole. *)
Definition same_body (es : list getter) (p : list string) (c : string) : Prop :=
  forall e c' ok, e ∈ es -> ge_dest e = p -> ge_reply e = Body c' ok -> c' = c /\ ok = true.
