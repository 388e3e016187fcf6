(** What is said about copying a directory: C160. *)
From stdpp Require Import strings list.
From Coq Require Import Ascii.
From Verif.model Require Import GoStr Fs.
From Verif.spec Require Import LibSpec TarballSpec.

(** [ls] gives each name in a directory once, for the directories below [src] and as long as
    they are as in [f]. *)
Definition lists (ls : fsys -> list string -> list string) (src : path) (f : fsys) : Prop :=
  forall g s, (forall t, g ((src ++ s) ++ t)%list = f ((src ++ s) ++ t)%list) ->
    NoDup (ls g (src ++ s)%list) /\ forall x, x ∈ ls g (src ++ s)%list <-> is_Some (f ((src ++ s) ++ [x])%list).

(** No path below [p] is longer than [d] names. *)
Definition at_most_deep (d : nat) (p : path) (f : fsys) : Prop :=
  forall s, d < length s -> f (p ++ s)%list = None.

(** Everything below [p] is in directories. *)
Definition tree_at (p : path) (f : fsys) : Prop :=
  forall s x, f ((p ++ s) ++ [x])%list <> None -> f (p ++ s)%list = Some Dir.

(** There is room for a copy of [src] at [dst]: no file on the way, no file in the place of a
    directory and no directory in the place of a file. *)
Definition room (src dst : path) (f : fsys) : Prop :=
  (forall a c, in_dir a dst -> f a <> Some (File c)) /\
  (forall s c, f (src ++ s)%list = Some Dir -> f (dst ++ s)%list <> Some (File c)) /\
  (forall s c, f (src ++ s)%list = Some (File c) -> f (dst ++ s)%list <> Some Dir).

(** [dst] has in [f'] what [src] has in [f], on top of what was there. *)
Definition copied_over (src dst : path) (f f' : fsys) : Prop :=
  (forall s n, f (src ++ s)%list = Some n -> f' (dst ++ s)%list = Some n) /\
  (forall s, f (src ++ s)%list = None -> f' (dst ++ s)%list = f (dst ++ s)%list).

(** Outside of [dst] nothing but the directories on the way to it are new. *)
Definition only_at (dst : path) (f f' : fsys) : Prop :=
  forall q, ~ in_dir dst q -> f' q = f q \/ (in_dir q dst /\ f' q = Some Dir).
