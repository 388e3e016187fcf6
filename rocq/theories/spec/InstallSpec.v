(** What installing one package may do. *)
From stdpp Require Import strings list.
From Coq Require Import Ascii ZArith.
From Verif.model Require Import GoStr Nexus RepoDb Fs Install Download.
From Verif.spec Require Import LibSpec.

Local Open Scope string_scope.

(** [name f p]: the name of the package that R finds at [p].  R only changes the
    directory of this package and its lock directory in the library it is given,
    and, when told to build, its working directory. *)
Definition r_only (R : rprog) (name : fsys -> path -> string) : Prop :=
  forall c f code f' q, R c f = (code, f') -> f' q <> f q ->
    in_dir (rc_library c ++ [name f (rc_source c)])%list q \/
    in_dir (rc_library c ++ ["00LOCK-" +:+ name f (rc_source c)])%list q \/
    (rc_build c = true /\ in_dir (rc_dir c) q).

(** After success the package is in the library. *)
Definition r_installs (R : rprog) (name : fsys -> path -> string) : Prop :=
  forall c f f', R c f = (0%Z, f') -> f' (rc_library c ++ [name f (rc_source c)])%list = Some Dir.

(** The request is sensible: a proper package name, and a temporary directory that
    is new and has nothing to do with the library. *)
Definition request_ok (s : surroundings) (r : request) (f : fsys) : Prop :=
  r_name (q_pkg r) /\
  (forall q, in_dir (s_tmp s) q -> f q = None) /\
  ~ in_dir (s_tmp s) (q_library r) /\ ~ in_dir (q_library r) (s_tmp s).

(** A file name: not empty, no slash, not a dot or two. *)
Definition file_name (s : string) : Prop :=
  s <> "" /\ s <> "." /\ s <> ".." /\ all_chars (fun c => c <> "/"%char) s.

(** The request for the file downloaded for [w]. *)
Definition request_of (w : wanted) (p : string) (lib : list string) (pkgr : string) (rv : r_version) (platform : string) : request :=
  {| q_pkg := w_pkg w; q_path := p; q_meta_pkg := w_pkg w; q_meta_version := w_version w; q_type := w_type w;
     q_repo := w_repo w; q_library := lib; q_build := true; q_pkgr := pkgr; q_rversion := rv; q_platform := platform |}.

(** No slash. *)
Definition plain (s : string) : Prop := all_chars (fun c => c <> "/"%char) s.

(** A package is fetched as a binary: asked for, or usual on the system. *)
Definition means_binary (os : goos) (t : source_type) : Prop :=
  t = STBinary \/ t = STDefault /\ (os = Darwin \/ os = Windows).
