(** What is said about packages given as tarballs. *)
From stdpp Require Import strings list gmap sorting.
From Coq Require Import Ascii ZArith.
From Verif.model Require Import GoStr Version Desc Fs Extract Install Tarballs.
From Verif.spec Require Import LibSpec PlanSpec InstallSpec.

Local Open Scope string_scope.

(** Reading a directory gives the names in it, sorted. *)
Definition names_of (f : fsys) (dir : path) (names : list string) : Prop :=
  StronglySorted byte_le names /\ forall n, n ∈ names <-> f (dir ++ [n])%list <> None.

(** Sums have 32 digits. *)
Definition sums (md5 : string -> string) : Prop := forall s, String.length (md5 s) = 32.

(** [h] is what the directory of a tarball is called: half of the sum of its contents. *)
Definition called (md5 : string -> string) (t : tarball) (h : string) : Prop :=
  String.length h = 16 /\ exists rest, md5 (tb_content t) = h +:+ rest.

(** The names read for the tarballs are those in their directories. *)
Definition names_read (md5 : string -> string) (cache : path) (f : fsys) (ts : list tarball) : Prop :=
  forall t h, t ∈ ts -> called md5 t h -> names_of f (cache ++ [h])%list (tb_names t).

(** In the directory [h] of the cache, [n] is the first directory, and its
    DESCRIPTION says [d]. *)
Definition holds (parse : string -> option desc) (cache : path) (f : fsys) (h n : string) (d : desc) : Prop :=
  f (cache ++ [h; n])%list = Some Dir /\
  (forall n', f (cache ++ [h; n'])%list = Some Dir -> byte_le n n') /\
  exists c, f (cache ++ [h; n; "DESCRIPTION"])%list = Some (File c) /\ parse c = Some d.

(** Neither path is in the other. *)
Definition apart (p q : path) : Prop := ~ in_dir p q /\ ~ in_dir q p.

(** Tarballs that can be installed one after the other: different packages, with
    the name that R finds in them (whatever the file system), unpacked in different
    directories that are not part of the library. *)
Record installable (name : fsys -> path -> string) (library : path) (l : list (string * additional)) : Prop := {
  in_names : forall p a, (p, a) ∈ l -> r_name p /\ forall f, name f (ad_path a) = p;
  in_distinct : NoDup l.*1;
  in_paths : forall p a, (p, a) ∈ l -> ad_path a <> [];
  in_apart : forall p a q b, (p, a) ∈ l -> (q, b) ∈ l -> p <> q -> apart (removelast (ad_path a)) (removelast (ad_path b));
  in_library : forall p a, (p, a) ∈ l -> apart library (removelast (ad_path a))
}.
