(** What is said about plan as a preview of install. *)
From stdpp Require Import strings list gmap.
From Coq Require Import Ascii ZArith.
From Verif.model Require Import GoStr Version Desc Nexus RepoDb DbCache Graph Plan Fs Extract Install Download Urls Tarballs Preview.
From Verif.spec Require Import RepoSpec GraphSpec PlanSpec LibSpec TarballSpec DbCacheSpec.

Local Open Scope string_scope.

(** Reading a directory depends on what is in it only. *)
Definition lists_ok (s : plan_setting) : Prop :=
  forall f g d, (forall n, f (d ++ [n])%list = g (d ++ [n])%list) -> pv_list s f d = pv_list s g d.

(** A file that was made so long ago is still used. *)
Definition still_used (w : fetch_world) (p : db_place) : Prop :=
  exists t b, p = PFile t b /\ (fw_now w < t + max_age (fw_env w))%Z.

(** Indexes arrive for the types that the repository has, and what is written is the text
    of what arrived. *)
Definition arrivals_ok (s : plan_setting) (w : fetch_world) (dbs : list repo_db) : Prop :=
  forall i db, dbs !! i = Some db ->
    (forall ar st m, fw_arrivals w i = Some ar -> (st, m) ∈ ar -> st ∈ (db_types db).*1) /\
    (forall l, fetched_by (use_of w i db) l -> g_text (pv_gob s) l (fw_text w i)).

(** Records are filed under their names, and none is called R. *)
Definition filed (m : gmap string desc) : Prop := forall p d, m !! p = Some d -> d_package d = p /\ p <> "R".

(** That is so for the indexes and for what is in the cache. *)
Definition filed_ok (s : plan_setting) (w : fetch_world) (st : plan_state) : Prop :=
  (forall i ar t m, fw_arrivals w i = Some ar -> (t, Some m) ∈ ar -> filed m) /\
  (forall q t b l ty m, st_dbs st q = PFile t b -> g_read (pv_gob s) b = Some l -> (ty, m) ∈ l -> filed m).

(** Two ends of planning that differ only in the order of lists. *)
Definition same_outcome (a b : planned_install) : Prop :=
  match a, b with
  | PIPlan nx p, PIPlan nx' p' => nx = nx' /\ same_plan p p'
  | PIMissing l, PIMissing l' => forall q, q ∈ l <-> q ∈ l'
  | PIFatal, PIFatal | PIPanic, PIPanic => True
  | _, _ => False
  end.

(** Two states that have the same databases and the same files. *)
Definition same_state (a b : plan_state) : Prop :=
  (forall q, st_fs a q = st_fs b q) /\ (forall q, st_dbs a q = st_dbs b q).
