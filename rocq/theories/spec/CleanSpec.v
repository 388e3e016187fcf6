(** What cleaning the cache should do. *)
From stdpp Require Import strings list.
From Coq Require Import Ascii.
From Verif.model Require Import GoStr Fs Install Clean.
From Verif.spec Require Import LibSpec EnvSpec InstallSpec.

Local Open Scope string_scope.

(** [x] is in the list written with commas as [s]. *)
Definition listed (x s : string) : Prop :=
  exists l, join "," l = s /\ (forall y, y ∈ l -> without "," y) /\ x ∈ l.

(** The directory of the cache. *)
Definition cache_of (c : clean_config) (d : path) : Prop :=
  (cc_cache c = "" /\ d = cc_default c) \/ (cc_cache c <> "" /\ d = resolve (cc_cwd c) (cc_cache c)).

Definition chosen_folder (c : clean_config) (x : string) : Prop := cc_repos c = "ALL" \/ listed x (cc_repos c).

Definition chosen_sub (c : clean_config) (sub : string) : Prop :=
  (sub = "src" /\ cc_binaries_only c = false) \/ (sub = "binary" /\ cc_src_only c = false).

(** [q] is in something that was to be removed. *)
Definition chosen (c : clean_config) (d q : path) : Prop :=
  exists x sub, chosen_folder c x /\ chosen_sub c sub /\ in_dir (d ++ [x; sub])%list q.

(** [q] is a chosen folder of a repository in which nothing is left. *)
Definition emptied (c : clean_config) (d q : path) (f' : fsys) : Prop :=
  exists x, chosen_folder c x /\ q = (d ++ [x])%list /\ forall s, f' (q ++ s)%list = None.
