(** What is said about installing again. *)
From stdpp Require Import strings list gmap.
From Verif.model Require Import Desc Nexus.
From Verif.spec Require Import GraphSpec.

(** The packages [P] are installed in the versions that are offered. *)
Definition up_to_date (nx : nexus) (pre : gmap string desc) (P : string -> Prop) : Prop :=
  forall p, P p -> exists d d', pre !! p = Some d /\ offered nx p d' /\ d_version d = d_version d'.
