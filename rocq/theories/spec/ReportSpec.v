(** What the messages about a plan should say. *)
From stdpp Require Import strings list gmap.
From Coq Require Import Ascii ZArith.
From Verif.model Require Import Desc Nexus Pacman Graph Report.
From Verif.spec Require Import GraphSpec PlanSpec.

Local Open Scope string_scope.

(** A package of the library that pkgr did not install: its DESCRIPTION does not have
    the field that pkgr adds. *)
Definition foreign (installed : gmap string desc) (p : string) : Prop :=
  exists d, installed !! p = Some d /\ d_pkgr_version d = "".

(** The package of a download comes from the repository called so. *)
Definition comes_from (rn : string) (dl : pkg_dl) : Prop := ru_name (pc_repo (dl_config dl)) = rn.

(** The line for a package names the package, and its version and repository. *)
Definition describes (nx : nexus) (p : string) (l : line) : Prop :=
  exists d c, get_package nx p = Some (d, c) /\ d_package d = p /\
    l = {| ln_package := p; ln_version := d_version d; ln_repo := ru_name (pc_repo c); ln_type := pc_type c |}.

(** A package of the plan that is left as it is. *)
Definition left_alone (ip : install_plan) (p : string) : Prop :=
  is_Some (ip_installed ip !! p) /\ forall x, x ∈ ip_outdated ip -> op_package x = p -> ip_update ip = false.

(** The sum of all numbers in a message. *)
Definition total (m : gmap string nat) : nat := foldr Nat.add 0 (map snd (map_to_list m)).
