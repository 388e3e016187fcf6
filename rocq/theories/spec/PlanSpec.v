(** Independent vocabulary for the settings that planning uses. *)
From stdpp Require Import strings list gmap.
From Coq Require Import Ascii.
From Verif.model Require Import Version Desc Nexus Graph Plan.

Local Open Scope string_scope.

(** Some entry of the customizations sets key [k] of package [p]; [f] reads the value. *)
Definition setting {A} (k : string) (f : custom -> A) (cs : customs) (p : string) (v : A) : Prop :=
  exists m c, m ∈ cs /\ (p, c) ∈ m /\ k ∈ cu_keys c /\ f c = v.

(** Every package is customized at most once. *)
Definition customs_distinct (cs : customs) : Prop := NoDup (concat cs).*1.

(** The dependency fields of a DESCRIPTION that name [r]. *)
Definition listed_in (d : desc) (r : string) : Prop :=
  is_Some (d_imports d !! r) \/ is_Some (d_linkingto d !! r).

(** Dependency maps are filed under the name of the dependency (as [NewDesc] does). *)
Definition deps_ok (m : gmap string dep) : Prop := forall k v, m !! k = Some v -> dep_name v = k.

Definition desc_deps_ok (d : desc) : Prop :=
  deps_ok (d_imports d) /\ deps_ok (d_linkingto d) /\ deps_ok (d_suggests d) /\ deps_ok (d_depends d).

(** What is asked for before base packages are taken out. *)
Definition wanted (cfg : plan_config) (tarballs descriptions : list desc) (p : string) : Prop :=
  p ∈ cf_packages cfg \/
  (exists d, d ∈ tarballs /\ listed_in d p) \/
  (exists d, d ∈ descriptions /\ (listed_in d p \/ is_Some (d_suggests d !! p))).

(** Byte-wise lexicographic order. *)
Fixpoint byte_le (a b : string) : Prop :=
  match a, b with
  | "", _ => True
  | String _ _, "" => False
  | String c a', String d b' =>
      nat_of_ascii c < nat_of_ascii d \/ (c = d /\ byte_le a' b')
  end.

(** Number of elements of [l] with property [P]. *)
Inductive count {A} (P : A -> Prop) : list A -> nat -> Prop :=
| count_nil : count P [] 0
| count_yes x l n : P x -> count P l n -> count P (x :: l) (S n)
| count_no x l n : ~ P x -> count P l n -> count P (x :: l) n.
