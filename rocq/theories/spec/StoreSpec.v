(** What is said about the binaries that InstallPackagePlan puts into the cache. *)
From stdpp Require Import strings list gmap.
From Verif.model Require Import GoStr Fs Sched Install Download Together.
From Verif.spec Require Import SchedSpec LibSpec InstallSpec TarballSpec TogetherSpec.

Local Open Scope string_scope.

(** At some moment on the way [ls] to [st], R had ended without error after it was told to build [p],
    and its binary was [n] then. *)
Definition built (e : setting) (Rs : rsystem) (j : job) (f : fsys) (p : string) (n : node)
    (ls : list label) (st : tstate (rs_state Rs)) : Prop :=
  exists ls1 st1 ls2 b, ls = (ls1 ++ ls2)%list /\ together e Rs j (tinitial _ j f) ls1 st1 /\ together e Rs j st1 ls2 st /\
    t_work st1 !! p = Some WBall /\ ball_for e p = Some b /\ t_fs st1 b = Some n.

(** The binaries of different packages are stored in different places, none of which is
    a directory for binaries or has to do with temporary directories. *)
Record binaries_ok (e : setting) (j : job) : Prop := {
  bo_tmp : forall p p', in_plan j p -> in_plan j p' -> apart (binary_dir e p) (e_tmp e p');
  bo_stores : forall p p' b b', in_plan j p -> in_plan j p' -> p <> p' -> ball_for e p = Some b -> ball_for e p' = Some b' ->
    store_for e p b <> store_for e p' b';
  bo_dirs : forall p p' b, in_plan j p -> in_plan j p' -> ball_for e p = Some b -> store_for e p b <> binary_dir e p'
}.
