(** What is said about pkgr plan and pkgr install with the same flags: C167. *)
From stdpp Require Import strings list gmap.
From Coq Require Import Ascii ZArith.
From Verif.model Require Import GoStr Desc Nexus Graph Plan Report Urls Download Fetching Config Cli Flags InstallLine.
From Verif.spec Require Import CliSpec.

Local Open Scope string_scope.

(** The two lines have the same flags, but for --show-deps. *)
Definition same_options (ts ts' : list token) : Prop :=
  forall n, n <> "show-deps" -> last_given n (given_in ts) = last_given n (given_in ts').

(** The same surroundings when the program is started once more: maps are traversed in other
    orders. *)
Definition once_more (w : install_case) (o : oracle) : install_case := {|
  ic_home := ic_home w; ic_cwd := ic_cwd w; ic_cpus := ic_cpus w; ic_vars := ic_vars w; ic_keys := ic_keys w;
  ic_lock := ic_lock w; ic_renv := ic_renv w; ic_version := ic_version w; ic_platform := ic_platform w;
  ic_file := ic_file w; ic_nexus := ic_nexus w; ic_tarballs := ic_tarballs w; ic_unpacked := ic_unpacked w;
  ic_descriptions := ic_descriptions w; ic_dirs := ic_dirs w; ic_orders := o
|}.

(** What is fetched is what the line of the plan says. *)
Definition is_told (l : line) (d : wanted) : Prop :=
  w_pkg d = ln_package l /\ w_version d = ln_version l /\ ru_name (w_repo d) = ln_repo l /\ w_type d = ln_type l.
