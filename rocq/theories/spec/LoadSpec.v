(** What loading packages should do. *)
From stdpp Require Import strings list gmap.
From Coq Require Import ZArith.
From Verif.model Require Import Load.

(** Nothing can happen any more, and the report has not been given. *)
Definition stuck (n cap : nat) (ends : nat -> attempt) (o : outcome) : Prop :=
  (forall o', ~ lstep n cap ends o o') /\
  match o with Going s => ls_main s = false | Fatal => False end.

(** R sessions running at the same time. *)
Definition running (o : outcome) : nat :=
  match o with Going s => length (List.filter (fun g => match g with GRun => true | _ => false end) (ls_gs s)) | Fatal => 0 end.

(** Number of failed attempts among the first [n]. *)
Definition failed_attempts (n : nat) (ends : nat -> attempt) : nat :=
  length (List.filter (fun i => match ends i with ExitNonZero => true | _ => false end) (seq 0 n)).

(** Packages whose entry in the report is a failure. *)
Definition failed_entries (pkgs : list string) (rep : load_report) : list string :=
  List.filter (fun p => match rep_results rep !! p with Some r => negb (lr_success r) | None => false end) pkgs.
