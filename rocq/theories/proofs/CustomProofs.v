(** Customizations of a package: its repository and its type. *)
From stdpp Require Import strings list gmap.
From Coq Require Import Ascii ZArith.
From Verif.model Require Import GoStr Version Desc Nexus RepoDb.
From Verif.spec Require Import StrSpec VersionSpec RepoSpec UrlSpec.
From Verif.proofs Require Import GoStrLemmas VersionProofs RepoProofs UrlProofs.

Local Open Scope string_scope.

Lemma set_type_words t st : set_type t = Some st ->
  same_word t "source" /\ st = STSource \/ same_word t "binary" /\ st = STBinary.
Proof.
  unfold set_type. destruct (equal_fold t "source") eqn:E1.
  { intros [= <-]. left. by apply equal_fold_same in E1. }
  destruct (equal_fold t "binary") eqn:E2; [|done].
  intros [= <-]. right. by apply equal_fold_same in E2.
Qed.

Lemma set_package_type_words nx pkg t nx' :
  set_package_type nx pkg t = Some nx' ->
  (forall q, q <> pkg -> get_package nx' q = get_package nx q) /\
  forall d c, get_package nx' pkg = Some (d, c) ->
    same_word t "source" /\ pc_type c = STSource \/ same_word t "binary" /\ pc_type c = STBinary.
Proof.
  intros H. apply set_package_type_spec in H as (H1 & st & H2 & H3). split; [done|].
  intros d c Hd. rewrite (H3 _ _ Hd). by apply set_type_words.
Qed.

Lemma set_package_type_error nx pkg t :
  set_package_type nx pkg t = None <-> ~ same_word t "source" /\ ~ same_word t "binary".
Proof.
  unfold set_package_type, set_type. rewrite <- !equal_fold_not.
  destruct (equal_fold t "source"); [naive_solver|]. destruct (equal_fold t "binary"); naive_solver.
Qed.

Lemma set_type_keeps_repo nx pkg c0 t nx' d c :
  nx_packages nx !! pkg = Some c0 -> set_package_type nx pkg t = Some nx' ->
  get_package nx' pkg = Some (d, c) -> ru_name (pc_repo c0) <> "" ->
  ru_name (pc_repo c) = ru_name (pc_repo c0).
Proof.
  intros H0. unfold set_package_type. destruct (set_type t) as [st|]; [|done]. rewrite H0.
  intros [= <-] H Hr. apply get_package_spec in H as (l1 & db' & l2 & E & (_ & Ha & _) & -> & _).
  unfold allowed_repo in Ha. cbn [nx_packages] in Ha.
  specialize (Ha _ (lookup_insert _ _ _)). cbn [pc_repo default] in *. symmetry. by apply Ha.
Qed.

Lemma set_repo_keeps_type nx pkg c0 repo nx' d c :
  nx_packages nx !! pkg = Some c0 -> set_package_repo nx pkg repo = Some nx' ->
  get_package nx' pkg = Some (d, c) -> pc_type c0 <> STDefault ->
  pc_type c = pc_type c0.
Proof.
  intros H0. unfold set_package_repo. destruct (find_repo (nx_db nx) repo) as [db|]; [|done]. rewrite H0.
  intros [= <-] H Hr. apply get_package_spec in H as (l1 & db' & l2 & E & (Hw & _) & _).
  apply wanted_type_chosen in Hw. unfold chosen_type in Hw. cbn [nx_packages] in Hw.
  rewrite lookup_insert in Hw. cbn [pc_type default] in Hw. by rewrite decide_False in Hw.
Qed.
