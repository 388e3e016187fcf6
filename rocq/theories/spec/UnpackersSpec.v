(** What is said about tarballs unpacked by several runs: C155. *)
From stdpp Require Import strings list gmap relations.
From Coq Require Import Ascii ZArith.
From Verif.model Require Import GoStr Fs Extract Unpackers.
From Verif.spec Require Import LibSpec ExtractSpec.

(** What can happen from the start. *)
Definition unpack_happens (es : list unpacker) (f : fsys) (x : unpackers) : Prop := rtc (unpackers_step es) (unpack_started es f) x.

(** Where number [i] is. *)
Definition up_at (x : unpackers) (i : nat) (a : unpacks) : Prop := us_each x !! i = Some a.

(** The directories are next to each other in one cache that is there, each named once. *)
Definition one_cache (cache : list string) (es : list unpacker) (f : fsys) : Prop :=
  (forall q, in_dir q cache -> f q = Some Dir) /\
  (forall u, u ∈ es -> exists h, up_dir u = (cache ++ [h])%list) /\ NoDup (map up_dir es).
