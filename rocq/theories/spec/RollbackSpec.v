(** What is left of the packages of a library after a failed run. *)
From stdpp Require Import strings list gmap.
From Coq Require Import Ascii ZArith.
From Verif.model Require Import GoStr Graph Fs Rollback.
From Verif.spec Require Import LibSpec.

Local Open Scope string_scope.

(** The directory with the contents that are put back: the package itself, or a backup
    of an earlier run that was in the way. *)
Definition old_copy (c : run_config) (f : fsys) (p x : string) : Prop :=
  (f (rc_library c ++ [backup_of p])%list = None /\ x = p) \/
  (f (rc_library c ++ [backup_of p])%list <> None /\ x = backup_of p).

(** A package that is outdated and given as a tarball as well. *)
Definition listed_twice (c : run_config) (i : run_input) (p : string) : Prop := updated c i p /\ overwritten i p.

(** Such a package is restored before [p]. *)
Definition cut_off (c : run_config) (i : run_input) (p : string) : Prop :=
  exists q l1 l2 l3, ri_additional' i = (l1 ++ q :: l2 ++ p :: l3)%list /\ listed_twice c i q.

(** The first of these packages is deleted. *)
Definition lost (c : run_config) (i : run_input) (p : string) : Prop := listed_twice c i p /\ ~ cut_off c i p.

(** The tarballs after it stay as they were installed. *)
Definition left_new (c : run_config) (i : run_input) (p : string) : Prop :=
  overwritten i p /\ ~ updated c i p /\ cut_off c i p.
