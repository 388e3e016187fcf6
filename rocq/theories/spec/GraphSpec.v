(** Independent vocabulary for planning: which packages pull in which others. *)
From stdpp Require Import strings list gmap relations.
From Coq Require Import Ascii ZArith.
From Verif.model Require Import Version Desc Nexus Graph.
From Verif.spec Require Import RepoSpec.

Local Open Scope string_scope.

(** The description the package database offers for a name. *)
Definition offered (nx : nexus) (p : string) (d : desc) : Prop :=
  exists c, get_package nx p = Some (d, c).

Definition available (nx : nexus) (p : string) : Prop := exists d, offered nx p d.

(** Packages that come with R and are not to be installed: the base ones, and
    with [no_recommended] also the recommended ones. *)
Definition r_base : list string :=
  ["base"; "compiler"; "datasets"; "grDevices"; "graphics"; "grid"; "methods"; "parallel";
   "splines"; "stats"; "stats4"; "tcltk"; "tools"; "utils"].

Definition r_recommended : list string :=
  ["KernSmooth"; "MASS"; "Matrix"; "boot"; "class"; "cluster"; "codetools"; "foreign"; "lattice";
   "mgcv"; "nlme"; "nnet"; "rpart"; "spatial"; "survival"].

Definition comes_with_r (no_recommended : bool) (p : string) : Prop :=
  p ∈ r_base \/ (no_recommended = true /\ p ∈ r_recommended).

(** The settings for a package: its own, else the default ones. *)
Definition settings_for (cfg : install_deps) (p : string) : pkg_deps :=
  match id_deps cfg !! p with Some pd => pd | None => id_default cfg end.

(** All three fields that are needed for building, and no Suggests. *)
Definition usual_config (nr : bool) : install_deps :=
  InstallDeps ∅ {| pd_depends := true; pd_imports := true; pd_suggests := false; pd_linkingto := true;
                   pd_no_recommended := nr |}.

(** The fields of [d] that [pd] enables list [r]. *)
Definition lists (pd : pkg_deps) (d : desc) (r : string) : Prop :=
  (pd_depends pd = true /\ is_Some (d_depends d !! r)) \/
  (pd_imports pd = true /\ is_Some (d_imports d !! r)) \/
  (pd_linkingto pd = true /\ is_Some (d_linkingto d !! r)).

Section with_config.
  Context (cfg : install_deps) (nx : nexus).

  (** [p] has to be installed after [r]. *)
  Definition requires (p r : string) : Prop :=
    exists d, offered nx p d /\ lists (settings_for cfg p) d r /\ available nx r /\
      ~ comes_with_r (pd_no_recommended (settings_for cfg p)) r.

  (** [p] brings in [r] without any order. *)
  Definition suggests (p r : string) : Prop :=
    exists d, offered nx p d /\ pd_suggests (settings_for cfg p) = true /\
      is_Some (d_suggests d !! r) /\ available nx r.

  (** Adding [p] adds [r]. *)
  Definition pulls (p r : string) : Prop := (requires p r \/ suggests p r) /\ r <> "R".

  (** The closure of a request. *)
  Definition closure (pkgs : list string) (q : string) : Prop :=
    exists p, p ∈ pkgs /\ rtc pulls p q.
End with_config.

(** What is needed to build a package, with all three fields and whatever the
    per-package settings. *)
Definition needs (nx : nexus) (nr : bool) (p r : string) : Prop :=
  requires (usual_config nr) nx p r.

(** The configurations planning works with (cmd/plan.go 177-179): only Suggests varies. *)
Definition standard_config (nr : bool) (cfg : install_deps) : Prop :=
  forall p, pd_depends (settings_for cfg p) = true /\ pd_imports (settings_for cfg p) = true /\
    pd_linkingto (settings_for cfg p) = true /\ pd_no_recommended (settings_for cfg p) = nr.

(** ** Layers *)

(** Position of a package in a list of layers. *)
Definition in_layer (layers : list (list string)) (k : nat) (p : string) : Prop :=
  exists l, layers !! k = Some l /\ p ∈ l.

(** The dependency relation of a graph, as [ResolveLayers] sees it. *)
Definition graph_dep (nr : bool) (g : graph) (p r : string) : Prop :=
  exists deps, g !! p = Some deps /\ r ∈ deps /\ ~ comes_with_r nr r.

Definition graph_closed (nr : bool) (g : graph) : Prop :=
  forall p r, graph_dep nr g p r -> is_Some (g !! r).

Definition has_cycle {A} (R : A -> A -> Prop) : Prop := exists x, tc R x x.

(** ** Plans *)

(** A package is planned when it is a starting package or has recorded dependencies. *)
Definition planned (ip : install_plan) (q : string) : Prop :=
  q ∈ ip_starting ip \/ is_Some (ip_depdb ip !! q).

(** The package names of a plan, each occurrence counted. *)
Definition planned_names (ip : install_plan) : list string :=
  (ip_starting ip ++ (map_to_list (ip_depdb ip)).*1)%list.

(** No repository has a record of [p]. *)
Definition no_record (nx : nexus) (p : string) : Prop :=
  forall db st d, db ∈ nx_db nx -> ~ has_record (db_types db) st p d.

(** Two lists of layers that differ only in the order within each layer. *)
Definition same_layers (ls ls' : list (list string)) : Prop := Forall2 (≡ₚ) ls ls'.

(** Two plans that differ only in the order of their lists. *)
Definition same_plan (a b : install_plan) : Prop :=
  ip_starting a ≡ₚ ip_starting b /\
  (forall q, match ip_depdb a !! q, ip_depdb b !! q with
             | None, None => True
             | Some l, Some l' => l ≡ₚ l'
             | _, _ => False
             end) /\
  ip_downloads a ≡ₚ ip_downloads b /\ ip_outdated a ≡ₚ ip_outdated b /\
  ip_installed a = ip_installed b /\ ip_create_library a = ip_create_library b /\
  ip_update a = ip_update b.
