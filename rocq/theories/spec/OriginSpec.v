(** What the messages about origins should say, and which words can be suggested. *)
From stdpp Require Import strings list gmap.
From Verif.model Require Import Desc Nexus Graph Origins.
From Verif.spec Require Import RepoSpec GraphSpec.

Local Open Scope string_scope.

(** [l] tells where the package of a download comes from, and whether the user has asked
    for it. *)
Definition tells (pkgs : list string) (dl : pkg_dl) (l : origin) : Prop :=
  og_package l = d_package (dl_package dl) /\ og_version l = d_version (dl_package dl) /\
  og_repo l = ru_name (pc_repo (dl_config dl)) /\ og_type l = pc_type (dl_config dl) /\
  (og_user l = true <-> d_package (dl_package dl) ∈ pkgs).

(** Some repository offers something called so. *)
Definition known_word (nx : nexus) (p : string) : Prop :=
  exists db st m, db ∈ nx_db nx /\ (st, m) ∈ db_types db /\ is_Some (m !! p).
