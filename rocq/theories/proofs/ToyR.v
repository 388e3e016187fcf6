(** A small R for examples: it installs the package a file is named after, with a
    DESCRIPTION, and makes a binary when told to build; for some packages it fails
    and leaves its lock directory behind. *)
From stdpp Require Import strings list gmap.
From Coq Require Import Ascii ZArith Lia.
From Verif.model Require Import GoStr Nexus RepoDb Graph Fs Sched Install Download Tarballs Together.
From Verif.spec Require Import LibSpec InstallSpec TogetherSpec.
From Verif.proofs Require Import FsProofs TogetherProofs.

Local Open Scope string_scope.

Fixpoint before_underscore (s : string) : string :=
  match s with
  | "" => ""
  | String c r => if Ascii.eqb c "_"%char then "" else String c (before_underscore r)
  end.

Definition toy_name (p : list string) : string := before_underscore (base_name p).

Definition set_node (p : list string) (n : node) (f : fsys) : fsys := fun q => if bool_decide (q = p) then Some n else f q.

Definition toy_dir (c : rcall) : list string := (rc_library c ++ [toy_name (rc_source c)])%list.
Definition toy_desc (c : rcall) : list string := (toy_dir c ++ ["DESCRIPTION"])%list.
Definition toy_lock (c : rcall) : list string := (rc_library c ++ ["00LOCK-" +:+ toy_name (rc_source c)])%list.
Definition toy_ball (c : rcall) : list string :=
  (rc_dir c ++ [replace1 ".tar.gz" "_R_x.tar.gz" (base_name (rc_source c))])%list.

Definition toy_can (c : rcall) (f : fsys) : bool :=
  bool_decide (f (rc_library c) = Some Dir) && bool_decide (f (toy_desc c) <> Some Dir) && bool_decide (f (toy_lock c) = None).

Definition toy_put (c : rcall) (f : fsys) : fsys :=
  set_node (toy_desc c) (File (toy_name (rc_source c) +:+ " new")) (set_node (toy_dir c) Dir f).

Definition toy_builds (c : rcall) (f : fsys) : bool :=
  rc_build c && bool_decide (f (rc_dir c) = Some Dir) && bool_decide (f (toy_ball c) <> Some Dir).

Definition toy_new (c : rcall) (f : fsys) : fsys :=
  let g := toy_put c f in
  if toy_builds c g then set_node (toy_ball c) (File "binary") g else g.

Definition toy (bad : list string) : rprog := fun c f =>
  if toy_can c f then
    if bool_decide (toy_name (rc_source c) ∈ bad) then (1%Z, set_node (toy_lock c) Dir f) else (0%Z, toy_new c f)
  else (2%Z, f).

Lemma toy_good bad c f : toy_can c f = true -> toy_name (rc_source c) ∉ bad -> toy bad c f = (0%Z, toy_new c f).
Proof. intros H1 H2. unfold toy. rewrite H1, bool_decide_eq_false_2; done. Qed.

Lemma toy_bad bad c f : toy_can c f = true -> toy_name (rc_source c) ∈ bad -> toy bad c f = (1%Z, set_node (toy_lock c) Dir f).
Proof. intros H1 H2. unfold toy. rewrite H1, bool_decide_eq_true_2; done. Qed.

Lemma set_changes p n f q : set_node p n f q <> f q -> q = p.
Proof. unfold set_node. destruct (decide (q = p)); [done|]. by rewrite bool_decide_eq_false_2. Qed.

Lemma can_spec c f : toy_can c f = true -> f (rc_library c) = Some Dir /\ f (toy_desc c) <> Some Dir /\ f (toy_lock c) = None.
Proof.
  unfold toy_can. intros H. apply andb_true_iff in H as [H H3]. apply andb_true_iff in H as [H1 H2].
  by rewrite !bool_decide_eq_true in *.
Qed.

Lemma toy_new_changes c f q : toy_new c f q <> f q ->
  in_dir (toy_dir c) q \/ (rc_build c = true /\ in_dir (rc_dir c) q).
Proof.
  unfold toy_new. intros H.
  assert (toy_put c f q <> f q -> in_dir (toy_dir c) q) as K.
  { intros H2. unfold toy_put in H2. destruct (decide (q = toy_desc c)) as [->|Hq].
    - unfold toy_desc. by eexists.
    - unfold set_node at 1 in H2. rewrite bool_decide_eq_false_2 in H2 by done. apply set_changes in H2 as ->.
      exists []. by rewrite app_nil_r. }
  destruct (toy_builds c (toy_put c f)) eqn:E; [|left; by apply K].
  destruct (decide (q = toy_ball c)) as [->|Hq].
  - right. unfold toy_builds in E. apply andb_true_iff in E as [E _]. apply andb_true_iff in E as [E _]. split; [done|].
    unfold toy_ball. by eexists.
  - left. apply K. unfold set_node in H at 1. by rewrite bool_decide_eq_false_2 in H.
Qed.

Lemma dir_desc c : toy_dir c <> toy_desc c.
Proof. unfold toy_desc. intros E. apply (f_equal length) in E. rewrite app_length in E. cbn in E. lia. Qed.

Lemma put_dir c f : toy_put c f (toy_dir c) = Some Dir.
Proof.
  unfold toy_put, set_node. rewrite bool_decide_eq_false_2 by apply dir_desc. by rewrite bool_decide_eq_true_2.
Qed.

Lemma put_tree c f : toy_can c f = true -> tree_ok f -> tree_ok (toy_put c f).
Proof.
  intros H T. apply can_spec in H as (H1 & H2 & _). unfold toy_put. apply set_tree.
  - apply set_tree; [done| |unfold toy_dir; by rewrite removelast_last|done]. unfold toy_dir. by destruct (rc_library c).
  - unfold toy_desc. by destruct (toy_dir c).
  - unfold toy_desc. rewrite removelast_last. unfold set_node. by rewrite bool_decide_eq_true_2.
  - unfold set_node. rewrite bool_decide_eq_false_2; [congruence|]. intros E. by apply (dir_desc c).
Qed.

Lemma toy_new_tree c f : toy_can c f = true -> tree_ok f -> tree_ok (toy_new c f).
Proof.
  intros H T. unfold toy_new. pose proof (put_tree c f H T) as T2.
  destruct (toy_builds c (toy_put c f)) eqn:E; [|done].
  unfold toy_builds in E. apply andb_true_iff in E as [E E3]. apply andb_true_iff in E as [_ E2].
  rewrite !bool_decide_eq_true in *. apply set_tree; [done| |unfold toy_ball; by rewrite removelast_last|done].
  unfold toy_ball. by destruct (rc_dir c).
Qed.

Lemma lock_tree c f : toy_can c f = true -> tree_ok f -> tree_ok (set_node (toy_lock c) Dir f).
Proof.
  intros H T. apply can_spec in H as (H1 & _ & _). apply set_tree; [done| |unfold toy_lock; by rewrite removelast_last|done].
  unfold toy_lock. by destruct (rc_library c).
Qed.

Lemma toy_changes bad c f code f' q : toy bad c f = (code, f') -> f' q <> f q ->
  in_dir (rc_library c ++ [toy_name (rc_source c)])%list q \/ in_dir (rc_library c ++ ["00LOCK-" +:+ toy_name (rc_source c)])%list q \/
  (rc_build c = true /\ in_dir (rc_dir c) q).
Proof.
  unfold toy. destruct (toy_can c f) eqn:E; [|by intros [= <- <-]].
  destruct (bool_decide _); intros [= <- <-] H.
  - apply set_changes in H as ->. right. left. exists []. by rewrite app_nil_r.
  - apply toy_new_changes in H as [H|H]; auto.
Qed.

Lemma toy_trees bad : r_trees (toy bad).
Proof.
  intros c f code f'. unfold toy. destruct (toy_can c f) eqn:E; [|by intros [= <- <-]].
  destruct (bool_decide _); intros [= <- <-] T; [by apply lock_tree|by apply toy_new_tree].
Qed.

Lemma toy_r_only bad : r_only (toy bad) (fun _ => toy_name).
Proof. intros c f code f' q H Hq. by eapply toy_changes. Qed.

Lemma toy_new_dir c f : toy_new c f (toy_dir c) = Some Dir.
Proof.
  unfold toy_new. destruct (toy_builds c (toy_put c f)) eqn:E; [|apply put_dir].
  unfold set_node. destruct (decide (toy_dir c = toy_ball c)) as [E2|E2].
  - unfold toy_builds in E. apply andb_true_iff in E as [_ E]. apply bool_decide_eq_true in E. rewrite <- E2, put_dir in E. done.
  - rewrite bool_decide_eq_false_2 by done. apply put_dir.
Qed.

Lemma toy_installs bad : r_installs (toy bad) (fun _ => toy_name).
Proof.
  intros c f f'. unfold toy. destruct (toy_can c f); [|done]. destruct (bool_decide _); [done|]. intros [= <-].
  apply toy_new_dir.
Qed.

(** ** The same as a process: it works in one step, and knows whether it has
    installed the package as long as nobody else removes it. *)
Definition toy_process (bad : list string) : rsystem := {|
  rs_state := option Z; rs_init := fun _ => None;
  rs_step := fun c x f x' f' => x = None /\ exists code, toy bad c f = (code, f') /\ x' = Some code;
  rs_exit := fun c x f code => x = Some code /\ (code = 0%Z -> f (toy_dir c) = Some Dir) \/
    exists n, x = Some n /\ n = 0%Z /\ f (toy_dir c) <> Some Dir /\ code = 3%Z
|}.

Lemma toy_rs_only bad : rs_only (toy_process bad) toy_name.
Proof.
  intros c x f x' f' (_ & code & H & _). split.
  - intros q Hq. by eapply toy_changes.
  - by eapply toy_trees.
Qed.

Lemma toy_rs_installs bad : rs_installs (toy_process bad) toy_name.
Proof. intros c x f [[_ H]|(n & _ & _ & _ & H)]; [by apply H|done]. Qed.

Lemma toy_rs_live bad : rs_live (toy_process bad).
Proof.
  intros c [code|] f.
  - right. destruct (decide (f (toy_dir c) = Some Dir)) as [E|E].
    + exists code. by left.
    + destruct (decide (code = 0%Z)) as [->|Hne]; [|exists code; by left].
      exists 3%Z. right. exists 0%Z. done.
  - left. destruct (toy bad c f) as [code f'] eqn:E. exists (Some code), f'. split; [done|]. by exists code.
Qed.

Lemma toy_rs_bounded bad : rs_bounded (toy_process bad) (fun x => match x with None => 1 | Some _ => 0 end).
Proof. intros c x f x' f' (-> & code & _ & ->). lia. Qed.
