(** What is said about installing a plan concurrently. *)
From stdpp Require Import strings list gmap.
From Coq Require Import Ascii ZArith.
From Verif.model Require Import GoStr Nexus RepoDb Graph Fs Rollback Sched Install Download Tarballs Together.
From Verif.spec Require Import SchedSpec LibSpec InstallSpec TarballSpec.

Local Open Scope string_scope.

(** [name p]: the package that is in the file or directory [p].  R only changes the
    directory of this package and its lock directory in the library it is given and,
    when told to build, its working directory; and what it leaves is a tree. *)
Definition rs_only (Rs : rsystem) (name : path -> string) : Prop :=
  forall c x f x' f', rs_step Rs c x f x' f' ->
    (forall q, f' q <> f q ->
       in_dir (rc_library c ++ [name (rc_source c)])%list q \/
       in_dir (rc_library c ++ ["00LOCK-" +:+ name (rc_source c)])%list q \/
       (rc_build c = true /\ in_dir (rc_dir c) q)) /\
    (tree_ok f -> tree_ok f').

(** R ends with status 0 only if the package is in the library. *)
Definition rs_installs (Rs : rsystem) (name : path -> string) : Prop :=
  forall c x f, rs_exit Rs c x f 0 -> f (rc_library c ++ [name (rc_source c)])%list = Some Dir.

(** R can always go on or end. *)
Definition rs_live (Rs : rsystem) : Prop :=
  forall c x f, (exists x' f', rs_step Rs c x f x' f') \/ exists code, rs_exit Rs c x f code.

(** R takes at most [m x] further steps from [x]. *)
Definition rs_bounded (Rs : rsystem) (m : rs_state Rs -> nat) : Prop :=
  forall c x f x' f', rs_step Rs c x f x' f' -> m x' < m x.

(** Nothing more can happen. *)
Definition all_stuck (e : setting) (Rs : rsystem) (j : job) (st : tstate (rs_state Rs)) : Prop :=
  forall l st', ~ tstep e Rs j st l st'.

(** Somewhere in these directories. *)
Definition in_some (ds : list path) (q : path) : Prop := exists d, d ∈ ds /\ in_dir d q.

(** The directories [ds], lock directories of R for the packages [ps] in the library,
    and what [ds] are in, but for what the library is in. *)
Definition scratch (lib : path) (ds : list path) (ps : list string) (q : path) : Prop :=
  in_some ds q \/ (exists p, p ∈ ps /\ in_dir (lib ++ ["00LOCK-" +:+ p])%list q) \/
  (exists d, d ∈ ds /\ in_dir q d /\ ~ in_dir q lib).

(** Sensible surroundings: the packages have proper names, files contain what they
    are named after, temporary directories are different and, like the directories for
    binaries, in [ds], which have nothing to do with the library. *)
Record setting_ok (e : setting) (j : job) (name : path -> string) (ds : list path) : Prop := {
  so_names : forall p, in_plan j p -> r_name p;
  so_files : forall p k c, in_plan j p -> call_for e p k = Some c -> name (rc_source c) = p;
  so_source : forall p, in_plan j p -> file_name (base_name (source_for e p));
  so_platform : plain (e_platform e);
  so_apart : forall d, d ∈ ds -> apart (e_library e) d;
  so_tmp : forall p, in_plan j p -> in_some ds (e_tmp e p);
  so_tmps : forall p p', in_plan j p -> in_plan j p' -> p <> p' -> apart (e_tmp e p) (e_tmp e p');
  so_binaries : forall p, in_plan j p -> in_some ds (binary_dir e p)
}.

(** The file of every package is there, neither the files nor the cached binaries are in
    the library or in a temporary directory. *)
Record files_ok (e : setting) (j : job) (f : fsys) : Prop := {
  fo_there : forall p, in_plan j p -> f (source_for e p) <> None;
  fo_source : forall p p', in_plan j p -> in_plan j p' -> ~ in_dir (e_library e) (source_for e p) /\ ~ in_dir (e_tmp e p') (source_for e p);
  fo_cached : forall p p' bp, in_plan j p -> in_plan j p' -> cache_path (surroundings_for e p) (request_for e p) = Some bp ->
    ~ in_dir (e_library e) bp /\ ~ in_dir (e_tmp e p') bp
}.

(** ** A whole run *)

(** R, as a function, leaves a tree. *)
Definition r_trees (R : rprog) : Prop := forall c f code f', R c f = (code, f') -> tree_ok f -> tree_ok f'.

(** Changes in the places [sc] only. *)
Definition only_in (sc : path -> Prop) (f f' : fsys) : Prop :=
  (forall q, ~ sc q -> f' q = f q) /\ (tree_ok f -> tree_ok f').

(** What is installed in a run with input [i]: the job is that of the plan, the tarballs
    are those of the run, and they are unpacked in [ds]. *)
Record whole_ok (c : run_config) (i : run_input) (e : setting) (j : job) (l : list (string * additional))
    (name : path -> string) (ds : list path) : Prop := {
  ho_setting : setting_ok e j name ds;
  ho_library : e_library e = Rollback.rc_library c;
  ho_starting : j_starting j = ip_starting (ri_plan i);
  ho_depdb : j_depdb j = ip_depdb (ri_plan i);
  ho_keys : forall p, p ∈ ri_keys i <-> is_Some (ip_depdb (ri_plan i) !! p);
  ho_tarballs : l.*1 ≡ₚ ri_additional i;
  ho_installable : installable (fun _ => name) (e_library e) l;
  ho_unpacked : forall p a, (p, a) ∈ l -> in_some ds (removelast (ad_path a))
}.

(** The unpacked tarballs are there, outside the library and temporary directories. *)
Definition tarballs_there (e : setting) (j : job) (l : list (string * additional)) (f : fsys) : Prop :=
  forall p a, (p, a) ∈ l -> f (ad_path a) <> None /\ ~ in_dir (e_library e) (ad_path a) /\
    forall p', in_plan j p' -> ~ in_dir (e_tmp e p') (ad_path a).

(** Where a run may leave things. *)
Definition leftovers (e : setting) (i : run_input) (ds : list path) : path -> Prop :=
  scratch (e_library e) ds (required i).
