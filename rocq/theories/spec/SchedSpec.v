(** Independent vocabulary for executions of install plans. *)
From stdpp Require Import strings list gmap.
From Verif.model Require Import Graph Sched.

Local Open Scope string_scope.

(** The packages of a job. *)
Definition in_plan (j : job) (p : string) : Prop := p ∈ j_starting j \/ is_Some (j_depdb j !! p).

(** [d] is recorded among the dependencies of [p]. *)
Definition depends_on (j : job) (p d : string) : Prop := exists l, j_depdb j !! p = Some l /\ d ∈ l.

(** What planning guarantees (see C24): starting packages are the ones without
    dependencies, the recorded dependencies are planned, transitive and acyclic. *)
Record job_ok (j : job) : Prop := {
  jo_nodup : NoDup (j_starting j);
  jo_keys : j_keys j ≡ₚ (map_to_list (j_depdb j)).*1;
  jo_starting : forall p, p ∈ j_starting j -> j_depdb j !! p = None;
  jo_deps : forall p l, j_depdb j !! p = Some l -> l <> [] /\ NoDup l /\ p ∉ l;
  jo_closed : forall p d, depends_on j p d -> in_plan j d;
  jo_trans : forall p d e, depends_on j p d -> depends_on j d e -> depends_on j p e
}.

(** The number of packages of a job. *)
Definition plan_size (j : job) : nat := length (j_starting j) + size (j_depdb j).

(** Histories. *)
Definition started (ls : list label) (p : string) : Prop := Start p ∈ ls.
Definition succeeded (ls : list label) (p : string) : Prop := exists c, Finish p (ROk c) ∈ ls.
Definition did_fail (ls : list label) (p : string) : Prop := Finish p RFail ∈ ls.

(** No request was dropped. *)
Definition none_dropped (ls : list label) : Prop := forall p, Drop p ∉ ls.

(** No binary could not be copied to the cache. *)
Definition all_copied (ls : list label) : Prop := forall p, Finish p (ROk false) ∉ ls.

Definition no_failures (ls : list label) : Prop := forall p, ~ did_fail ls p.

(** Installations that are running: started but not finished. *)
Definition running (ls : list label) (p : string) : Prop := started ls p /\ forall r, Finish p r ∉ ls.

Definition returned (s : state) (e : option (list string)) : Prop := s_main s = MReturned e.
