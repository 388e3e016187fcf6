(** What pkgr inspect should show. *)
From stdpp Require Import strings list gmap relations sorting.
From Verif.model Require Import GoStr Nexus Graph Inspect.
From Verif.spec Require Import RepoSpec GraphSpec PlanSpec.

(** [l] lists exactly the [x] with [P x], in order and once each. *)
Definition listed (P : string -> Prop) (l : list string) : Prop :=
  StronglySorted byte_le l /\ NoDup l /\ forall x, x ∈ l <-> P x.

Definition root_of (t : dep_tree) : string := let 'DepTree p _ := t in p.

(** Below every package of a tree are exactly the packages [R] relates it to. *)
Inductive tree_of (R : string -> string -> Prop) : dep_tree -> Prop :=
| tree_of_intro p ts : listed (R p) (map root_of ts) -> Forall (tree_of R) ts -> tree_of R (DepTree p ts).
