(** What is said about databases in the cache. *)
From stdpp Require Import strings list gmap.
From Coq Require Import Ascii ZArith.
From Verif.model Require Import GoStr Desc Nexus RepoDb DbCache.

Local Open Scope string_scope.

(** What is written can be read, and no beginning of it can. *)
Definition gob_ok (g : gob) : Prop :=
  (forall l s, g_text g l s -> g_read g s = Some l) /\
  (forall l a b, g_text g l (a +:+ b) -> b <> "" -> g_read g a = None).

(** The maps that the indexes gave: for each type the map that arrived, or the one that
    was there before. *)
Inductive gathered : list (source_type * option (gmap string desc)) -> db_maps -> db_maps -> Prop :=
| ga_nil l : gathered [] l l
| ga_map st m ar l l' : gathered ar (set_descs st m l) l' -> gathered ((st, Some m) :: ar) l l'
| ga_error st ar l l' : gathered ar l l' -> gathered ((st, None) :: ar) l l'.

(** [n] of the indexes could not be fetched. *)
Inductive failures : list (source_type * option (gmap string desc)) -> nat -> Prop :=
| fa_nil : failures [] 0
| fa_map st m ar n : failures ar n -> failures ((st, Some m) :: ar) n
| fa_error st ar n : failures ar n -> failures ((st, None) :: ar) (S n).

(** The indexes were fetched by [u] with the result [l]. *)
Definition fetched_by (u : db_use) (l : db_maps) : Prop :=
  exists ar n, u_arrivals u = Some ar /\ gathered ar (u_types u) l /\ failures ar n /\ ~ (1 < length l /\ n = length l).

(** The texts that uses write are texts of what they fetched. *)
Definition texts_ok (g : gob) (us : list db_use) : Prop :=
  forall u l, u ∈ us -> fetched_by u l -> g_text g l (u_text u).

(** Every index could be fetched. *)
Definition all_fetched (u : db_use) : Prop := exists ar, u_arrivals u = Some ar /\ failures ar 0.

(** Nothing goes wrong when writing. *)
Definition all_written (us : list db_use) : Prop := forall u, u ∈ us -> u_how u = Written.
