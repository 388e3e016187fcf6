(** What is said about several runs with one library. *)
From stdpp Require Import strings list gmap relations.
From Coq Require Import Ascii.
From Verif.model Require Import GoStr Fs Rollback Runs.
From Verif.spec Require Import LibSpec.

(** What can happen from the start, with several runs, and with one alone. *)
Definition runs_happen (lib : list string) (rs : list run) (f : fsys) (x : runs_state) : Prop :=
  rtc (runs_step lib rs) (runs_started rs f) x.

Definition alone (lib : list string) (r : run) (f : fsys) (a : phase) (g : fsys) : Prop :=
  rtc (run_step lib r) (RMake, f) (a, g).

(** Run number [i] is at [a]. *)
Definition run_at (x : runs_state) (i : nat) (a : phase) : Prop := rs_each x !! i = Some a.

(** The packages that a run is about, and their places in the library. *)
Definition about (r : run) (p : string) : Prop :=
  p ∈ rn_new r \/ p ∈ rn_updates r \/ p ∈ rn_overwrites r \/ exists j, j ∈ rn_jobs r /\ jb_name j = p.

Definition own (lib : list string) (r : run) (q : list string) : Prop :=
  exists p s, about r p /\ (q = (lib ++ p :: s)%list \/ q = (lib ++ backup_of p :: s)%list).

(** Packages have the names of R packages; no run is to create the library. *)
Definition plain_runs (rs : list run) : Prop := forall r p, r ∈ rs -> about r p -> r_name p.

Definition no_creation (rs : list run) : Prop := forall r, r ∈ rs -> rn_create r = false.

(** Different runs are about different packages. *)
Definition disjoint_runs (rs : list run) : Prop :=
  forall i j r r' p, rs !! i = Some r -> rs !! j = Some r' -> i <> j -> about r p -> ~ about r' p.

(** What planning establishes about a library as it is in [f]: new packages are not there, those
    to be renamed are and have no backups, and others that are to be installed are
    there. *)
Definition run_planned (lib : list string) (f : fsys) (r : run) : Prop :=
  f lib = Some Dir /\ NoDup (rn_new r ++ rn_updates r ++ rn_overwrites r)%list /\
  (forall p, p ∈ rn_new r -> no_dir lib p f) /\
  (forall p, p ∈ rn_updates r \/ p ∈ rn_overwrites r -> f (lib ++ [p])%list = Some Dir /\ no_dir lib (backup_of p) f) /\
  (forall j, j ∈ rn_jobs r -> jb_name j ∈ (rn_new r ++ rn_updates r ++ rn_overwrites r)%list \/
     (jb_tarball j = false /\ f (lib ++ [jb_name j])%list = Some Dir)).

(** All that is new or renamed is to be installed, once. *)
Definition run_complete (r : run) : Prop :=
  NoDup (map jb_name (rn_jobs r)) /\
  forall p, p ∈ (rn_new r ++ rn_updates r ++ rn_overwrites r)%list -> exists j, j ∈ rn_jobs r /\ jb_name j = p.

(** The folder of a package is that which R made in this job. *)
Definition holds (lib : list string) (f : fsys) (j : job) : Prop :=
  forall s, f (lib ++ jb_name j :: s)%list = jb_tree j s.

(** All runs have ended, without errors. *)
Definition all_well (x : runs_state) : Prop := forall i a, run_at x i a -> a = RDone false.
