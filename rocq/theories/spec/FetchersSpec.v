(** What is said about databases that are used at the same time. *)
From stdpp Require Import strings list gmap relations.
From Coq Require Import Ascii ZArith.
From Verif.model Require Import GoStr Nexus RepoDb DbCache Fs Fetchers.

(** Different paths lead to different files. *)
Definition no_links (d : disk) : Prop := forall p q k, dk_at d p = SFile k -> dk_at d q = SFile k -> p = q.

(** What can happen from the start on a disk. *)
Definition happens (g : gob) (us : list fetcher) (d : disk) (x : fetchers) : Prop :=
  rtc (fetchers_step g us) (started us d) x.

(** The goroutine number [i] is done with the result [r]. *)
Definition got (x : fetchers) (i : nat) (r : fetched) : Prop := fs_each x !! i = Some (FDone r).
