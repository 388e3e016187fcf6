(** C81 to C84 and C106: repository settings, addresses and the Linux distribution. *)
From stdpp Require Import strings list gmap.
From Coq Require Import Ascii ZArith NArith.
From Verif.model Require Import GoStr Desc Nexus RepoDb Fs Install Download Urls OsRelease.
From Verif.spec Require Import StrSpec UrlSpec OsReleaseSpec.
From Verif.proofs Require Import UrlProofs OsReleaseProofs WayProofs.

Local Open Scope string_scope.

(** * C81: packages are fetched from the directory of their index

    In full: for every configured repository, the address of a package is in
    the directory of the index it was found in.  Proved on Linux, for
    repositories without a suffix and for source packages, when the repository
    is customized at most once. *)
Theorem C81_beside_index_partial : forall os rel rv repos cs db vs st file u,
  db ∈ configured_dbs os rel repos cs -> entries_for (ru_name (db_repo db)) cs vs -> length vs <= 1 ->
  os = Linux \/ ru_suffix (db_repo db) = "" \/ st = STSource ->
  package_url os rel rv (db_repo db) st file = Some u ->
  exists i, index_url os rel rv db st = Some i /\ beside i u file.
Proof.
  intros os rel rv repos cs db vs st file u H1 H2 H3 H4 H5. eapply urls_beside; [|done|done]. by eapply suffix_agree.
Qed.
Print Assumptions C81_beside_index_partial.

Definition ubuntu : os_release := {| or_id := "ubuntu"; or_version_id := "20.04"; or_codename := "focal" |}.
Definition r41 : r_version := RVersion 4 1 0.
Definition with_suffix (x : string) : repo_custom := {| rq_type := ""; rq_repo_type := "mpn"; rq_suffix := x |}.
Definition one_repo : list (list (string * string)) := [[("MPN", "https://mpn.org/a/")]].

Definition mpn_db (os : goos) (cs : repo_customs) : repo_db :=
  new_repo_db os (Some ubuntu) (install_config cs) (RepoURL "https://mpn.org/a/" "MPN" (rq_suffix (repo_custom_by_name "MPN" cs))).

Lemma mpn_db_in os cs : mpn_db os cs ∈ configured_dbs os (Some ubuntu) one_repo cs.
Proof. unfold configured_dbs, configured_repos, one_repo. cbn [flat_map map]. left. Qed.

Example C81_example :
  let cs := [[("MPN", with_suffix "x86")]] in
  package_url Linux (Some ubuntu) r41 (db_repo (mpn_db Linux cs)) STBinary "a_1.0_R_x86_64-pc-linux-gnu.tar.gz" =
    Some "https://mpn.org/a/bin/linux/ubuntu/focal/x86/contrib/4.1/a_1.0_R_x86_64-pc-linux-gnu.tar.gz" /\
  index_url Linux (Some ubuntu) r41 (mpn_db Linux cs) STBinary =
    Some "https://mpn.org/a/bin/linux/ubuntu/focal/x86/contrib/4.1/PACKAGES" /\
  index_url Linux (Some ubuntu) r41 (mpn_db Linux cs) STSource = Some "https://mpn.org/a/src/contrib/PACKAGES".
Proof. split; [reflexivity|]. split; reflexivity. Qed.

(** On macOS and Windows the index is read without the suffix, the packages are
    fetched with it. *)
Theorem C81_macos_refuted : exists cs i u,
  entries_for "MPN" cs [with_suffix "x86"] /\ mpn_db Darwin cs ∈ configured_dbs Darwin (Some ubuntu) one_repo cs /\
  index_url Darwin (Some ubuntu) r41 (mpn_db Darwin cs) STBinary = Some i /\
  package_url Darwin (Some ubuntu) r41 (db_repo (mpn_db Darwin cs)) STBinary "a_1.0.tgz" = Some u /\
  ~ beside i u "a_1.0.tgz".
Proof.
  exists [[("MPN", with_suffix "x86")]], "https://mpn.org/a/bin/macosx/contrib/4.1/PACKAGES",
    "https://mpn.org/a/bin/macosx/x86/contrib/4.1/a_1.0.tgz".
  split; [reflexivity|]. split; [apply mpn_db_in|]. split; [reflexivity|]. split; [reflexivity|].
  intros (dir & H1 & H2).
  assert (E : dir = "https://mpn.org/a/bin/macosx/contrib/4.1").
  { symmetry. by apply (app_inj_end _ _ "/PACKAGES"). }
  rewrite E in H2. discriminate H2.
Qed.
Print Assumptions C81_macos_refuted.

(** Two entries for one repository: the index is read with the suffix of the
    last one, the packages are fetched with the suffix of the first one. *)
Theorem C81_two_entries_refuted : exists cs i u,
  entries_for "MPN" cs [with_suffix "x"; with_suffix "y"] /\ mpn_db Linux cs ∈ configured_dbs Linux (Some ubuntu) one_repo cs /\
  index_url Linux (Some ubuntu) r41 (mpn_db Linux cs) STBinary = Some i /\
  package_url Linux (Some ubuntu) r41 (db_repo (mpn_db Linux cs)) STBinary "a.tar.gz" = Some u /\
  i = "https://mpn.org/a/bin/linux/ubuntu/focal/y/contrib/4.1/PACKAGES" /\
  u = "https://mpn.org/a/bin/linux/ubuntu/focal/x/contrib/4.1/a.tar.gz".
Proof.
  exists [[("MPN", with_suffix "x")]; [("MPN", with_suffix "y")]],
    "https://mpn.org/a/bin/linux/ubuntu/focal/y/contrib/4.1/PACKAGES",
    "https://mpn.org/a/bin/linux/ubuntu/focal/x/contrib/4.1/a.tar.gz".
  split; [reflexivity|]. split; [apply mpn_db_in|]. split; [reflexivity|]. split; [reflexivity|]. split; reflexivity.
Qed.
Print Assumptions C81_two_entries_refuted.

(** * C82: the type of packages of a repository

    In full: a repository is asked for the type of package that is configured
    for it, or the default of the platform, and its index of that type is read.
    Proved for the type; for the index see below. *)
Theorem C82_type_partial : forall os rel repos cs db, os <> OtherOs -> db ∈ configured_dbs os rel repos cs ->
  (forall v, entries_for (ru_name (db_repo db)) cs [v] -> repo_asks os v (db_default db)) /\
  (entries_for (ru_name (db_repo db)) cs [] -> repo_asks os empty_repo_custom (db_default db)).
Proof. intros. split; [intros v; by eapply db_default_asks|by eapply db_default_none]. Qed.
Print Assumptions C82_type_partial.

(** Exactly the configured repositories are read, with their addresses. *)
Theorem C82_repositories : forall os rel repos cs n u,
  (n, u) ∈ concat repos <-> exists db, db ∈ configured_dbs os rel repos cs /\ ru_name (db_repo db) = n /\ ru_url (db_repo db) = u.
Proof.
  intros os rel repos cs n u. split.
  - intros H. apply (configured_repos_in _ _ _ cs) in H. eexists. split; [apply elem_of_list_fmap; eexists; split; [reflexivity|exact H]|done].
  - intros (db & H & <- & <-). apply elem_of_list_fmap in H as (r & -> & Hr). by apply configured_repos_inv in Hr as [Hr _].
Qed.
Print Assumptions C82_repositories.

Theorem C82_source_index : forall os rel repos cs db, db ∈ configured_dbs os rel repos cs -> reads_index db STSource.
Proof. exact reads_source. Qed.
Print Assumptions C82_source_index.

Theorem C82_binary_index : forall os rel repos cs db vs, db ∈ configured_dbs os rel repos cs ->
  entries_for (ru_name (db_repo db)) cs vs ->
  reads_index db STBinary <->
  (os = Darwin \/ os = Windows \/
   os = Linux /\ (exists r, rel = Some r /\ or_id r <> "") /\ exists v, last vs = Some v /\ same_word (rq_repo_type v) "MPN").
Proof. exact reads_binary. Qed.
Print Assumptions C82_binary_index.

Example C82_example :
  let cs := [[("MPN", with_suffix "")]; [("CRAN", {| rq_type := "Source"; rq_repo_type := ""; rq_suffix := "" |})]] in
  let repos := [[("CRAN", "https://c.org")]; [("MPN", "https://mpn.org")]; [("local", "~/r")]] in
  map (fun db => (ru_name (db_repo db), db_default db)) (configured_dbs Linux (Some ubuntu) repos cs) =
    [("CRAN", STSource); ("MPN", STBinary); ("local", STSource)] /\
  map (fun db => (ru_name (db_repo db), db_default db)) (configured_dbs Darwin None repos cs) =
    [("CRAN", STSource); ("MPN", STBinary); ("local", STBinary)].
Proof. split; reflexivity. Qed.

(** A repository on Linux that is configured with Type: binary, but not as MPN,
    has no binary index: none of its packages is found. *)
Theorem C82_no_index_refuted : exists cs v, entries_for "MPN" cs [v] /\ same_word (rq_type v) "binary" /\
  mpn_db Linux cs ∈ configured_dbs Linux (Some ubuntu) one_repo cs /\
  db_default (mpn_db Linux cs) = STBinary /\ ~ reads_index (mpn_db Linux cs) STBinary.
Proof.
  exists [[("MPN", {| rq_type := "binary"; rq_repo_type := ""; rq_suffix := "" |})]], {| rq_type := "binary"; rq_repo_type := ""; rq_suffix := "" |}.
  split; [reflexivity|]. split; [by apply equal_fold_same|]. split; [apply mpn_db_in|]. split; [reflexivity|].
  intros (m & H). cbn in H. apply elem_of_list_singleton in H. done.
Qed.
Print Assumptions C82_no_index_refuted.

(** * C83: the directory of binaries on Linux

    In full: ubuntu/<codename>, centos/<major version> for CentOS and Red Hat,
    otherwise <id>/<version>.  Proved unless the major version of CentOS or Red
    Hat has two digits or is missing. *)
Theorem C83_linux_directory_partial : forall r u, linux_dir r u ->
  (or_id r = "centos" \/ or_id r = "rhel" -> exists c rest, or_version_id r = String c rest /\
     (rest = "" \/ exists minor, rest = "." +:+ minor)) ->
  linux_binary_uri (Some r) = Some u.
Proof. exact linux_uri_ok. Qed.
Print Assumptions C83_linux_directory_partial.

Definition red_hat (v : string) : os_release := {| or_id := "rhel"; or_version_id := v; or_codename := "" |}.

Example C83_example :
  linux_dir ubuntu "ubuntu/focal" /\ linux_binary_uri (Some ubuntu) = Some "ubuntu/focal" /\
  linux_dir (red_hat "8.4") "centos/8" /\ linux_binary_uri (Some (red_hat "8.4")) = Some "centos/8".
Proof.
  split; [exact (dir_ubuntu ubuntu eq_refl)|]. split; [reflexivity|]. split; [|reflexivity].
  apply (dir_centos (red_hat "8.4") "8" ".4"); [by right|done|done|done|right; by exists "4"].
Qed.

Theorem C83_ten_refuted : linux_dir (red_hat "10.1") "centos/10" /\ linux_binary_uri (Some (red_hat "10.1")) = Some "centos/1".
Proof.
  split; [|reflexivity]. apply (dir_centos (red_hat "10.1") "10" ".1"); [by right|done|done|done|right; by exists "1"].
Qed.
Print Assumptions C83_ten_refuted.

(** Without VERSION_ID the program panics. *)
Theorem C83_no_version_refuted : linux_binary_uri (Some (red_hat "")) = None.
Proof. reflexivity. Qed.
Print Assumptions C83_no_version_refuted.

(** * C84: reading /etc/os-release

    In full: the values of ID, VERSION_ID and VERSION_CODENAME are those of the
    file, for every file of blank lines, comments, and plain or quoted values
    ([os_line_ok]).  Proved for files whose lines also satisfy
    [os_line_simple]. *)
Theorem C84_os_release_partial : forall ls,
  Forall os_line_ok ls -> Forall os_line_simple ls -> NoDup (map fst (assignments ls)) ->
  exists r, read_os_release (Some (os_text ls)) = Some r /\
    os_value ls "ID" (or_id r) /\ os_value ls "VERSION_ID" (or_version_id r) /\ os_value ls "VERSION_CODENAME" (or_codename r).
Proof. exact os_release_read. Qed.
Print Assumptions C84_os_release_partial.

Definition focal_lines : list os_line :=
  [LComment " a=b"; LPlain "ID" "ubuntu"; LBlank; LQuoted "VERSION_ID" "20.04"; LPlain "VERSION_CODENAME" "focal";
   LQuoted "VERSION" "20.04.1 LTS (Focal Fossa)"].

Example C84_example :
  Forall os_line_ok focal_lines /\ Forall os_line_simple focal_lines /\ read_os_release (Some (os_text focal_lines)) = Some ubuntu.
Proof.
  split; [|split].
  - repeat constructor; done.
  - repeat constructor; try done. intros [|? [|? [|? [|? [|? a]]]]] E; discriminate E.
  - reflexivity.
Qed.

(** A quoted value with an equals sign, an empty plain value: the file is not
    read at all. *)
Theorem C84_equals_refuted : exists ls, Forall os_line_ok ls /\ NoDup (map fst (assignments ls)) /\
  read_os_release (Some (os_text ls)) = None.
Proof.
  exists [LPlain "ID" "ubuntu"; LQuoted "BUG_REPORT_URL" "https://b.org/?p=u"]. split; [repeat constructor; done|].
  split; [|reflexivity]. cbn. apply NoDup_cons. split; [set_solver|]. apply NoDup_singleton.
Qed.
Print Assumptions C84_equals_refuted.

Theorem C84_empty_refuted : exists ls, Forall os_line_ok ls /\ NoDup (map fst (assignments ls)) /\
  read_os_release (Some (os_text ls)) = None.
Proof.
  exists [LPlain "ID_LIKE" ""; LPlain "ID" "ubuntu"]. split; [repeat constructor; done|].
  split; [|reflexivity]. cbn. apply NoDup_cons. split; [set_solver|]. apply NoDup_singleton.
Qed.
Print Assumptions C84_empty_refuted.

(** * C106: addresses of the web are fetched, directories are read

    In full: the indexes and packages of a repository are fetched over HTTP if its
    address is an address of the web, and read as files otherwise. *)

(** Indexes and packages are always reached in the same way, and it only depends
    on the address. *)
Theorem C106_same_way : forall os rel rv db st st' file i u,
  index_url os rel rv db st = Some i -> package_url os rel rv (db_repo db) st' file = Some u ->
  is_http i = is_http (ru_url (db_repo db)) /\ is_http u = is_http (ru_url (db_repo db)).
Proof. intros. split; [by eapply index_same_way|by eapply package_same_way]. Qed.
Print Assumptions C106_same_way.

(** Missing: schemes in other letters than lower case, and directories with a name
    that starts with "http". *)
Theorem C106_way_partial : forall os rel rv r st file u, package_url os rel rv r st file = Some u ->
  (forall s rest, s = "http" \/ s = "https" -> ru_url r = s +:+ "://" +:+ rest -> is_http u = true) /\
  ((forall rest, ru_url r <> "http" +:+ rest) -> is_http u = false).
Proof.
  intros os rel rv r st file u H. rewrite (package_same_way _ _ _ _ _ _ _ H). split.
  - intros s rest [-> | ->] E; apply is_http_true; rewrite E; by eexists.
  - intros Hn. destruct (is_http (ru_url r)) eqn:E; [|done]. apply is_http_true in E as [x E]. by destruct (Hn x).
Qed.
Print Assumptions C106_way_partial.

Example C106_example :
  is_http "https://mpn.org/a/src/contrib/PACKAGES" = true /\ is_http "/srv/http/cran/src/contrib/PACKAGES" = false /\
  web_address "https://mpn.org/a".
Proof.
  split; [done|]. split; [done|]. exists "https", "mpn.org/a". split; [done|]. right. repeat constructor.
Qed.

(** A web address in capitals is opened as a file, a directory is fetched. *)
Theorem C106_way_refuted :
  (exists a, web_address a /\ is_http a = false) /\
  (exists a, ~ web_address a /\ is_http a = true /\
    package_url Linux (Some ubuntu) r41 (RepoURL a "local" "") STSource "a_1.0.tar.gz" = Some "httpd/cran/src/contrib/a_1.0.tar.gz").
Proof.
  split.
  - exists "HTTP://mpn.org/a". split; [|done]. exists "HTTP", "mpn.org/a". split; [done|]. left.
    repeat (apply same_cons; [right|]); [exists 7|exists 19|exists 19|exists 15|by constructor]; (split; [lia|by left]).
  - exists "httpd/cran". split; [|done]. intros (s & rest & E & _).
    assert (Hc : ":"%char ∈ String.list_ascii_of_string "httpd/cran").
    { rewrite E, <- (String.string_of_list_ascii_of_string s).
      clear. induction (String.list_ascii_of_string s); cbn; set_solver. }
    cbn in Hc. set_unfold. naive_solver.
Qed.
Print Assumptions C106_way_refuted.
