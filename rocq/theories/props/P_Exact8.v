(** What the program does in the cases left out by C63, C80, C82 and C107. *)
From stdpp Require Import strings list gmap.
From Coq Require Import Ascii ZArith NArith Lia.
From Verif.model Require Import GoStr Desc Nexus RepoDb Fs Env Yml Install Download Urls Config Valtools.
From Verif.spec Require Import StrSpec EnvSpec VersionSpec YmlSpec UrlSpec ConfigSpec ExactSpec ValSpec Exact8Spec.
From Verif.proofs Require Import GoStrLemmas VersionProofs StampProofs YmlProofs CleanProofs ConfigProofs ExactProofs UrlProofs ValProofs Exact8Proofs.
From Verif.props Require Import P_Url P_Val.

Local Open Scope string_scope.

(** ** C63: when removing a package undoes adding it

    There has to be a Packages section, and no line of the file may look like an item for
    the package or for one whose name starts with it, wherever it stands.  [listed] may
    contain the package or not. *)

Theorem C63_exact lines listed p c : (forall l, l ∈ lines -> unix_line l) -> is_line p ->
  add_packages (text lines) listed [p] = Some c ->
  remove_package c p = text lines <->
  (exists l, l ∈ lines /\ packages_key l = true) /\ (forall l, l ∈ lines -> ~ item_like p l).
Proof. apply add_remove_exact. Qed.

Example C63_exact_example :
  let back ls p := match add_packages (text ls) [] [p] with Some c => String.eqb (remove_package c p) (text ls) | None => false end in
  back ["Packages:"; "  - dplyr"; "Library: lib"] "R6" = true /\
  back ["Packages:"; "  - dplyr"; "Library: lib"] "dply" = false /\
  back ["Packages:"; "  - dplyr"; "Repos:"; "  - CRAN: url"] "CRAN" = false /\
  back ["Library: lib"] "R6" = false.
Proof. vm_compute. done. Qed.

(** ** C80: what is read from any output

    The lines are without white space at their ends and do not start with a bracket. *)

Theorem C80_exact lines : (forall l, l ∈ lines -> unix_line l /\ tidy l) ->
  version_read_as lines (parse_version_data (text lines)).
Proof. apply version_read_exact. Qed.

Example C80_exact_example :
  parse_version_data (text ["R version 4.2.3 (2023-03-15)"; "Platform: x86_64-pc-linux-gnu (64-bit)"; "R version 3.x.y"; "Platform:"]) = VPanic /\
  parse_version_data (text ["R version 4.2.3 (2023-03-15)"; "Platform: x86_64-pc-linux-gnu (64-bit)"; "R version 3.x.99999999999999999999"])
    = VData 3 0 (2 ^ 63 - 1) "x86_64-pc-linux-gnu" /\
  parse_version_data (text ["R version 4.2"; "Platform:"]) = VFatal.
Proof. vm_compute. done. Qed.

(** ** C82: the type of a repository with any number of entries

    The last entry decides, on all platforms. *)

Theorem C82_exact os rel repos cs db vs : db ∈ configured_dbs os rel repos cs -> entries_for (ru_name (db_repo db)) cs vs ->
  let v := default empty_repo_custom (last vs) in
  (db_default db = STBinary <->
   ~ same_word (rq_type v) "source" /\
   (same_word (rq_type v) "binary" \/ same_word (rq_repo_type v) "MPN" \/ os = Darwin \/ os = Windows)) /\
  (db_default db = STSource \/ db_default db = STBinary) /\
  (reads_index db (db_default db) <->
   db_default db = STSource \/ os = Darwin \/ os = Windows \/
   os = Linux /\ (exists r, rel = Some r /\ or_id r <> "") /\ same_word (rq_repo_type v) "MPN").
Proof.
  intros H Hv. cbv zeta. pose proof H as H'. unfold configured_dbs in H'. apply elem_of_list_fmap in H' as (r & E & Hr).
  assert (db_default db = (let v := default empty_repo_custom (last vs) in
    if bool_decide (rc_default (make_repo_config v) = STDefault) then default_type os else rc_default (make_repo_config v))) as Ed.
  { rewrite E in Hv |- *. cbn [new_repo_db db_default db_repo] in *. rewrite (install_config_lookup _ _ _ Hv).
    destruct (last vs) as [v|]; [done|]. rewrite <- default_entry. done. }
  cbv zeta in Ed.
  assert (db_default db = STBinary <->
    ~ same_word (rq_type (default empty_repo_custom (last vs))) "source" /\
    (same_word (rq_type (default empty_repo_custom (last vs))) "binary" \/
     same_word (rq_repo_type (default empty_repo_custom (last vs))) "MPN" \/ os = Darwin \/ os = Windows)) as A.
  { rewrite Ed. apply make_default_exact. }
  assert (db_default db = STSource \/ db_default db = STBinary) as B by (rewrite Ed; apply make_default_known).
  split; [exact A|]. split; [exact B|]. destruct B as [B|B]; rewrite B.
  - split; [intros _; by left|]. intros _. by eapply C82_source_index.
  - rewrite (C82_binary_index os rel repos cs db vs H Hv). split.
    + intros [K|[K|(K1 & K2 & v & Hl & K3)]]; [tauto..|]. right. right. right. rewrite Hl. done.
    + intros [K|[K|[K|(K1 & K2 & K3)]]]; [done|tauto..|]. right. right. split; [done|]. split; [done|].
      destruct (last vs) as [v|]; [by exists v|]. by inversion K3.
Qed.

Example C82_exact_example :
  let two := [[("MPN", {| rq_type := "source"; rq_repo_type := "mpn"; rq_suffix := "" |})];
              [("MPN", {| rq_type := "binary"; rq_repo_type := ""; rq_suffix := "" |})]] in
  let types os cs := map (fun db => (db_default db, length (db_types db))) (configured_dbs os (Some ubuntu) one_repo cs) in
  types Linux two = [(STBinary, 1)] /\ types Linux (rev two) = [(STSource, 2)] /\ types OtherOs [] = [(STSource, 1)].
Proof. vm_compute. done. Qed.

(** ** C107: the matrices for which checkmat exits with 0 *)

Theorem C107_exact matrix docs top f : (forall l x, docs = Some l -> x ∈ l -> plain_name x) ->
  checkmat_exit (check_matrix matrix docs top f) = 0%Z <->
  exists es l, matrix = Some es /\ docs = Some l /\
    (forall e, e ∈ es -> entry_passes top f e) /\ NoDup (map en_point es) /\
    (forall x, x ∈ l -> exists e, e ∈ es /\ documents x (en_point e)).
Proof.
  intros Hl. assert (forall r : list issue * bool, checkmat_exit r = 0%Z <-> r = ([], false)) as A.
  { intros [[|m out] [|]]; unfold checkmat_exit; cbn; done. }
  rewrite A. split.
  - intros H. destruct matrix as [es|]; [|done]. destruct docs as [l|].
    + exists es, l. split; [done|]. split; [done|]. apply matrix_passes; [|done]. intros x. by apply Hl.
    + unfold check_matrix in H. by destruct (check_files f top (flat_map entry_files es)) as [is [|]].
  - intros (es & l & -> & -> & H). apply matrix_passes; [|done]. intros x. by apply Hl.
Qed.

Example C107_exact_example :
  let plan tests doc := {| en_point := "pkgr clean cache"; en_code := ""; en_doc := doc; en_tests := tests; en_skip := false |} in
  let exit es := checkmat_exit (check_matrix (Some es) (Some ["pkgr_clean_cache.md"]) ["w"] project) in
  exit [plan ["."; "cmd/cleanCache.go"] "docs/commands/pkgr_clean_cache.md"] = 0%Z /\
  exit [plan ["./cmd/cleanCache.go"] "docs/commands/pkgr_clean_cache.md"] = 1%Z /\
  exit [plan ["cmd/cleanCache.go/x"] "docs/commands/pkgr_clean_cache.md"] = 2%Z /\
  exit [plan [] "docs/commands/pkgr_clean_cache.md"; {| en_point := ""; en_code := ""; en_doc := ""; en_tests := []; en_skip := false |}] = 0%Z.
Proof. vm_compute. done. Qed.

Print Assumptions C63_exact.
Print Assumptions C80_exact.
Print Assumptions C82_exact.
Print Assumptions C107_exact.
