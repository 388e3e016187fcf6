(** Package descriptions: desc/desc.go (NewDesc), desc/structs.go (Desc). *)
From stdpp Require Import strings list gmap.
From Coq Require Import Ascii ZArith.
From Verif.model Require Import GoStr Version.

Local Open Scope string_scope.

(** desc/structs.go 101-125: the raw record filled in by the control-file
    parser (an external library).  Fields pkgr never reads back (Source,
    Maintainer, Description, License, MD5sum, Priority, Remotes) are left out. *)
Record raw_desc := RawDesc {
  raw_package : string; raw_version : string; raw_path : string; raw_repository : string;
  raw_needs_compilation : string;
  raw_imports : list string; raw_suggests : list string;
  raw_depends : list string; raw_linkingto : list string;
  raw_pkgr_version : string; raw_pkgr_type : string; raw_pkgr_url : string
}.

(** desc/structs.go 58-79: [Desc] (same fields left out). *)
Record desc := Desc {
  d_package : string; d_version : string; d_path : string; d_repository : string;
  d_needs_compilation : bool;
  d_imports : gmap string dep; d_suggests : gmap string dep;
  d_depends : gmap string dep; d_linkingto : gmap string dep;
  d_pkgr_version : string; d_pkgr_type : string; d_pkgr_url : string
}.

(** The zero value of [Desc]. desc/structs.go 58-79. *)
Definition empty_desc : desc := Desc "" "" "" "" false ∅ ∅ ∅ ∅ "" "" "".

(** desc/desc.go 73-97, one field: later entries overwrite earlier ones; [None]
    is a panic in [ParseDep]. *)
Fixpoint parse_deps (l : list string) (m : gmap string dep) : option (gmap string dep) :=
  match l with
  | [] => Some m
  | s :: l' =>
      match parse_dep s with
      | Some d => parse_deps l' (<[dep_name d := d]> m)
      | None => None
      end
  end.

(** desc/desc.go 49-99: [NewDesc]. *)
Definition new_desc (r : raw_desc) : option desc :=
  match parse_deps (raw_imports r) ∅, parse_deps (raw_suggests r) ∅,
        parse_deps (raw_depends r) ∅, parse_deps (raw_linkingto r) ∅ with
  | Some imports, Some suggests, Some depends, Some linkingto =>
      Some (Desc (raw_package r) (raw_version r) (raw_path r) (raw_repository r)
              (equal_fold (raw_needs_compilation r) "yes")
              imports suggests depends linkingto
              (raw_pkgr_version r) (raw_pkgr_type r) (raw_pkgr_url r))
  | _, _, _, _ => None
  end.

(** desc/structs.go 81-96: [GetCombinedDependencies]; later insertions win, so
    the union is biased to Suggests, then LinkingTo, then Imports. *)
Definition get_combined_dependencies (d : desc) (suggests : bool) : gmap string dep :=
  let c := d_linkingto d ∪ d_imports d in
  if suggests then d_suggests d ∪ c else c.
