(** Details of C130, C132 and C134 that the theorems there leave out, found with wrong
    programs. *)
From stdpp Require Import strings list gmap.
From Coq Require Import Ascii ZArith NArith Lia.
From Verif.model Require Import GoStr Version Desc Nexus RepoDb Graph Fs Env Install Download Urls Calls Origins Fetching.
From Verif.spec Require Import LibSpec StrSpec UrlSpec ApartSpec.
From Verif.proofs Require Import GoStrLemmas ApartProofs.

Local Open Scope string_scope.

(** ** C130: what is asked for, and where

    The downloads of a plan, with the version of the record, and the type and repository
    that were chosen for the package. *)
Theorem C130_wants ip : map w_pkg (wants ip) = map (fun dl => d_package (dl_package dl)) (ip_downloads ip) /\
  forall w, w ∈ wants ip <-> exists dl, dl ∈ ip_downloads ip /\ w_pkg w = d_package (dl_package dl) /\
    w_version w = d_version (dl_package dl) /\ w_type w = pc_type (dl_config dl) /\ w_repo w = pc_repo (dl_config dl).
Proof.
  split; [unfold wants; by rewrite map_map|]. intros w. unfold wants. rewrite elem_of_list_fmap. split.
  - intros (dl & -> & H). exists dl. done.
  - intros (dl & H & E1 & E2 & E3 & E4). exists dl. split; [|done]. destruct w. cbn in *. by subst.
Qed.

(** A package is asked for by its name and version in the directory of the type: that of
    the request, or without one that of the machine. *)
Theorem C130_address x w : sum_texts (x_md5 x) -> sensible w -> x_os x <> OtherOs ->
  let binary := w_type w = STBinary \/ w_type w = STDefault /\ (x_os x = Darwin \/ x_os x = Windows) in
  let base := trim_suffix "/" (ru_url (w_repo w)) in
  let file p v := if decide (x_os x = Linux) then
      p +:+ "_" +:+ v +:+ (if is_rhel (x_rel x) then "_R_x86_64-redhat-linux-gnu.tar.gz" else "_R_x86_64-pc-linux-gnu.tar.gz")
    else p +:+ "_" +:+ v +:+ (if decide (x_os x = Darwin) then ".tgz" else ".zip") in
  (~ binary -> w_type (meant x w) = STSource /\
     address x w = Some (base +:+ "/src/contrib/" +:+ w_pkg w +:+ "_" +:+ w_version w +:+ ".tar.gz")) /\
  (binary -> w_type (meant x w) = STBinary /\
     forall u, cran_binary_url (x_os x) (x_rel x) (x_rv x) = Some u ->
       address x w = Some (base +:+ "/bin/" +:+ u +:+ (if decide (ru_suffix (w_repo w) = "") then "" else "/" +:+ ru_suffix (w_repo w)) +:+
         "/contrib/" +:+ rv_short (x_rv x) +:+ "/" +:+ file (w_pkg w) (w_version w))).
Proof.
  intros Hm Hs Ho binary base file. destruct (download_path_eq (x_md5 x) (x_os x) (is_rhel (x_rel x)) (x_cache x) (x_rv x) w Hm Hs Ho)
    as (y & _ & E & Hsrc & Hbin).
  assert (base_name (place x w) = w_pkg w +:+ "_" +:+ w_version w +:+ y) as Eb.
  { unfold base_name, place. rewrite E, !app_assoc. by rewrite last_last. }
  assert (effective_type (x_os x) (w_type w) = STBinary <-> binary) as Hb.
  { unfold binary. destruct (w_type w), (x_os x); cbn; split; try tauto; try discriminate; intros [H|[H1 [H2|H2]]]; discriminate. }
  unfold address. rewrite Eb. cbn [meant w_type]. unfold package_url. fold base. split.
  - intros Hn. assert (effective_type (x_os x) (w_type w) = STSource) as Es.
    { destruct (effective_type (x_os x) (w_type w)) eqn:Et; [|done|by destruct Hn; apply Hb].
      unfold effective_type in Et. destruct (w_type w); try done. by destruct (x_os x). }
    rewrite Es in *. rewrite bool_decide_eq_true_2 by done. rewrite Hsrc by done. done.
  - intros Hy. apply Hb in Hy as Et. rewrite Et. split; [done|]. intros u Hu. rewrite bool_decide_eq_false_2 by done. rewrite Hu.
    assert (w_pkg w +:+ "_" +:+ w_version w +:+ y = file (w_pkg w) (w_version w)) as ->.
    { rewrite <- Hbin by done. unfold file, cran_binary_name. destruct (x_os x); try done; by destruct (is_rhel (x_rel x)). }
    destruct (decide (ru_suffix (w_repo w) = "")) as [Ex|Ex].
    + rewrite Ex. cbn. done.
    + apply String.eqb_neq in Ex. rewrite Ex. cbn [negb]. by rewrite !app_assoc_str.
Qed.

Example C130_address_example : exists x w, sensible w /\ w_type w = STDefault /\
  address x w = Some "https://r.org/src/contrib/Rcpp_2.5.1.tar.gz".
Proof.
  exists {| x_md5 := fun _ => "0123456789abcdef0123456789abcdef"; x_os := Linux; x_rel := None; x_cache := ["cache"];
            x_rv := RVersion 4 1 2; x_cwd := ["home"]; x_serve := fun _ _ => True |},
    {| w_pkg := "Rcpp"; w_version := "2.5.1"; w_type := STDefault; w_repo := RepoURL "https://r.org/" "CRAN" "" |}.
  split; [|split; [done|by vm_compute]]. split; [|by split; repeat split]. cbn. unfold name_char, letter. vm_compute. repeat split; lia.
Qed.

(** ** C132: the directory of a process

    The one that is given, and without one that of pkgr. *)
Theorem C132_directory o tmp pkg rs :
  (forall d, pr_dir (start_r o tmp pkg rs (Some d)) = d) /\ pr_dir (start_r o tmp pkg rs None) = ow_dir o /\
  (forall args d, pr_dir (run_rscript o tmp pkg rs args (Some d)) = d) /\ (forall args, pr_dir (run_rscript o tmp pkg rs args None) = ow_dir o) /\
  (forall script d, pr_dir (run_r o tmp pkg rs script (Some d)) = d) /\ (forall script, pr_dir (run_r o tmp pkg rs script None) = ow_dir o).
Proof. done. Qed.

(** ** C134: packages of the library by their origin

    Every package is in one of the two lists. *)
Theorem C134_from x p : p ∈ (if_pkgr x ++ if_packrat x ++ if_unknown x)%list <-> p ∈ from_pkgr x \/ p ∈ not_from_pkgr x.
Proof. unfold from_pkgr, not_from_pkgr. rewrite !elem_of_app. tauto. Qed.

Theorem C134_from_exact x p : (p ∈ from_pkgr x <-> p ∈ if_pkgr x) /\ (p ∈ not_from_pkgr x <-> p ∈ if_packrat x \/ p ∈ if_unknown x).
Proof. unfold from_pkgr, not_from_pkgr. by rewrite elem_of_app. Qed.

Example C134_from_example :
  from_pkgr {| if_pkgr := ["a"]; if_packrat := ["b"]; if_unknown := ["c"] |} = ["a"] /\
  not_from_pkgr {| if_pkgr := ["a"]; if_packrat := ["b"]; if_unknown := ["c"] |} = ["b"; "c"].
Proof. done. Qed.

Print Assumptions C130_wants.
Print Assumptions C130_address.
Print Assumptions C132_directory.
Print Assumptions C134_from.
Print Assumptions C134_from_exact.
