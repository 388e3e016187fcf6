(** C134: where the packages of a plan come from.  C135: what is suggested for missing
    packages. *)
From stdpp Require Import strings list gmap relations sorting.
From Coq Require Import Ascii ZArith Lia.
From Verif.model Require Import GoStr Version Desc Nexus Pacman Graph RepoDb Plan Origins.
From Verif.spec Require Import VersionSpec RepoSpec GraphSpec PlanSpec OriginSpec.
From Verif.proofs Require Import RepoProofs FetchProofs GraphProofs LayerProofs PlanProofs PlanProps SettingsProofs ExampleChecks OriginProofs.
From Verif.props Require Import P_Graph.

Local Open Scope string_scope.

(** * C134: the origin of each package is told once

    In full: the messages "package repository set" tell for each package that will be
    downloaded, and for no other, once, its repository, type and version, and whether the
    user asked for it.  Missing: requests that name a package twice. *)

Theorem C134_once_partial : forall nx nr o pkgs pre cfg update le ip,
  nexus_ok nx -> ~ available nx "R" -> oracle_ok o -> standard_config nr cfg ->
  (forall p, p ∈ pkgs -> available nx p) -> NoDup pkgs ->
  resolve_installation_reqs o pkgs pre cfg nx update le nr = PlanOk ip ->
  exists ls, origin_lines nx pkgs ip ≡ₚ ls /\ Forall2 (tells pkgs) (ip_downloads ip) ls.
Proof.
  intros nx nr o pkgs pre cfg update le ip H1 H2 H3 H4 H5 H6 E. eexists.
  split; [by apply (origins_exact nx nr o pkgs pre cfg update le ip)|].
  apply Forall2_fmap_r. apply Forall_Forall2_diag. apply Forall_forall. intros dl _. apply origin_tells.
Qed.

(** For every request. *)
Theorem C134_told : forall nx nr o pkgs pre cfg update le ip,
  nexus_ok nx -> ~ available nx "R" -> oracle_ok o -> standard_config nr cfg ->
  (forall p, p ∈ pkgs -> available nx p) ->
  resolve_installation_reqs o pkgs pre cfg nx update le nr = PlanOk ip ->
  (forall dl, dl ∈ ip_downloads ip -> exists l, l ∈ origin_lines nx pkgs ip /\ tells pkgs dl l) /\
  (forall l, l ∈ origin_lines nx pkgs ip -> exists dl, dl ∈ ip_downloads ip /\ tells pkgs dl l).
Proof.
  intros nx nr o pkgs pre cfg update le ip H1 H2 H3 H4 H5 E.
  pose proof (fun l => origins_set nx nr o pkgs pre cfg update le ip l H1 H2 H3 H4 H5 E) as S. split.
  - intros dl Hdl. eexists. split; [|apply origin_tells]. apply S. by exists dl.
  - intros l Hl. apply S in Hl as (dl & Hdl & ->). exists dl. split; [done|apply origin_tells].
Qed.

Example C134_example :
  match resolve_installation_reqs id_oracle ["lib1"; "MASS"] ∅ (default_config false) ex_nx true true false with
  | PlanOk ip => map (fun l => (og_package l, og_repo l, og_version l, og_user l)) (origin_lines ex_nx ["lib1"; "MASS"] ip)
      = [("lib1", "CRAN", "0.2", true); ("MASS", "CRAN", "7.3-51", true); ("core", "CRAN", "2.1.0", false)]
  | _ => False
  end.
Proof. vm_compute. done. Qed.

(** A package named twice in the configuration is told twice. *)
Theorem C134_twice_refuted :
  match resolve_installation_reqs id_oracle ["lib1"; "lib1"] ∅ (default_config false) ex_nx true true false with
  | PlanOk ip => length (ip_downloads ip) = 2 /\
      map (fun l => (og_package l, og_user l)) (origin_lines ex_nx ["lib1"; "lib1"] ip) = [("lib1", true); ("lib1", true); ("core", false)]
  | _ => False
  end.
Proof. vm_compute. done. Qed.

(** * C135: suggestions

    The words that can be suggested for a missing package are the names of everything that
    some repository offers, as source or binary, each once; packages that are to be ignored
    are not among them. *)

Theorem C135_words : forall perm nx ignored, (forall l, perm l ≡ₚ l) ->
  NoDup (get_all_pkgs_by_name perm (ignore_packages nx ignored)) /\
  forall p, p ∈ get_all_pkgs_by_name perm (ignore_packages nx ignored) <-> known_word nx p /\ p ∉ ignored.
Proof.
  intros perm nx ignored Hp. unfold get_all_pkgs_by_name. split; [rewrite Hp; apply NoDup_elements|].
  intros p. rewrite Hp, elem_of_elements, known_names. apply ignored_unknown.
Qed.

Theorem C135_asked : forall perm nx pkgs, (forall l, perm l ≡ₚ l) ->
  (suggestion_words perm nx pkgs = None <-> forall p, p ∈ pkgs -> available nx p) /\
  (forall words p, suggestion_words perm nx pkgs = Some words -> p ∈ pkgs -> available nx p -> p ∈ words).
Proof.
  intros perm nx pkgs Hp. unfold suggestion_words.
  assert (ap_missing (get_packages nx pkgs) = [] <-> forall p, p ∈ pkgs -> available nx p) as H.
  { cbn [get_packages ap_missing]. split.
    - intros H p Hin. destruct (get_package nx p) as [[d c]|] eqn:E; [by exists d, c|].
      assert (p ∈ List.filter (fun p => negb (get_package_go nx p).2) pkgs) as H'.
      { apply in_lfilter. split; [done|]. unfold get_package_go. by rewrite E. }
      rewrite H in H'. by apply elem_of_nil in H'.
    - intros H. destruct (List.filter _ pkgs) as [|p l] eqn:E; [done|exfalso].
      assert (p ∈ List.filter (fun p => negb (get_package_go nx p).2) pkgs) as H' by (rewrite E; by left).
      apply in_lfilter in H' as [Hin H']. destruct (H p Hin) as (d & c & Eg). unfold get_package_go in H'. by rewrite Eg in H'. }
  rewrite <- H. split; [by destruct (ap_missing (get_packages nx pkgs))|].
  intros words p Hw _ Ha. destruct (ap_missing (get_packages nx pkgs)); [done|]. injection Hw as <-.
  unfold get_all_pkgs_by_name. rewrite Hp, elem_of_elements, known_names. by apply available_known.
Qed.

(** A package that is missing because it is only offered as a binary is among the words
    itself. *)
Definition binary_only : nexus :=
  Nexus [RepoDb [(STSource, ∅); (STBinary, {["curl" := mk_pkg "curl" "1.0" [] [] [] []]})] (RepoURL "https://CRAN" "CRAN" "") STSource ""] ∅ STSource.

Example C135_example :
  ap_missing (get_packages binary_only ["curl"]) = ["curl"] /\ suggestion_words id binary_only ["curl"] = Some ["curl"] /\
  suggestion_words id (ignore_packages binary_only ["curl"]) ["curl"] = Some [].
Proof. vm_compute. done. Qed.

(** Lookups in one repository give what that repository offers. *)
Theorem C135_lookup : forall nx p repo d c, get_package_from_repo nx p repo = Some (d, c) ->
  known_word nx p /\ exists db, db ∈ nx_db nx /\ (repo = "" \/ ru_name (db_repo db) = repo) /\ pc_repo c = db_repo db /\
    pkg_exists_in_repo p (db_types db) = true.
Proof.
  intros nx p repo d c H. destruct (from_repo_sound nx p repo d c H) as (db & Hd & Hr & Hc & Hp).
  destruct (descs_of_in (db_types db) (pc_type c)) as [E|[t Ht]]; [rewrite E in Hp; by rewrite lookup_empty in Hp|]. split.
  - exists db, t, (descs_of (db_types db) (pc_type c)). split; [done|]. split; [done|]. by eexists.
  - exists db. split; [done|]. split; [done|]. split; [done|]. apply exists_in_repo. exists t, (descs_of (db_types db) (pc_type c)).
    split; [done|]. by eexists.
Qed.

Example C135_lookup_example :
  match get_package_from_repo (Nexus (nx_db binary_only) {["curl" := PkgConfig (RepoURL "" "" "") STBinary]} STSource) "curl" "CRAN" with
  | Some (d, _) => d_version d = "1.0" | None => False end /\
  get_package_from_repo binary_only "curl" "CRAN" = None.
Proof. vm_compute. done. Qed.

Print Assumptions C134_once_partial.
Print Assumptions C134_told.
Print Assumptions C134_twice_refuted.
Print Assumptions C135_words.
Print Assumptions C135_asked.
Print Assumptions C135_lookup.
