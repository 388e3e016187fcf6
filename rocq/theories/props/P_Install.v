(** C49, C50, C78 and the rest of C43: installing one package. *)
From stdpp Require Import strings list.
From Coq Require Import Ascii ZArith NArith.
From Verif.model Require Import GoStr Nexus RepoDb Fs Stamp Yml Install Download.
From Verif.spec Require Import StrSpec LibSpec InstallSpec.
From Verif.proofs Require Import GoStrLemmas FsProofs ExtractProofs InstallProofs CacheProofs RunLink.

Local Open Scope string_scope.

(** * C49

    In full: an installation changes the library only after the package was built
    in a temporary directory or found in the cache; a package that is present is
    skipped; if something fails, the library is unchanged and an error is
    reported.  Missing: a package file that does not exist, see
    [C43_missing_file_refuted].  R is any program that behaves like [r_only]. *)

Theorem C49_present_skipped_partial : forall R s r f,
  f (join_path (q_library r) (q_pkg r)) = Some Dir ->
  install_through_binary R s r f = (Done (-999) false None, f, []).
Proof. exact present_skipped. Qed.
Print Assumptions C49_present_skipped_partial.

(** Whatever happens, nothing changes except the package (and R's lock) in the
    library and the temporary directory. *)
Theorem C49_only_the_package_partial : forall R name s r f o f' t q,
  r_only R name -> r_name (q_pkg r) -> install_through_binary R s r f = (o, f', t) ->
  (forall c g, c ∈ t -> name g (rc_source c) = q_pkg r) -> f' q <> f q ->
  in_dir (q_library r ++ [q_pkg r])%list q \/ in_dir (q_library r ++ ["00LOCK-" +:+ q_pkg r])%list q \/
  in_dir (s_tmp s) q \/ in_dir q (s_tmp s).
Proof. intros R name s r f o f' t q H1 H2 H3 H4. by apply (run_frame R name s r f o f' t q). Qed.
Print Assumptions C49_only_the_package_partial.

(** R is told to install into the library only when the binary is in the cache,
    or after R has built it successfully in the temporary directory. *)
Theorem C49_library_last_partial : forall R s r f o f' t c,
  q_library r <> s_tmp s -> install_through_binary R s r f = (o, f', t) -> c ∈ t -> rc_library c = q_library r ->
  rc_build c = false /\
  ((t = [c] /\ cache_path s r = Some (rc_source c) /\ f (rc_source c) <> None) \/
   exists c0 f0 f1, t = [c0; c] /\ rc_library c0 = s_tmp s /\ rc_dir c0 = s_tmp s /\
     mkdir_all (s_tmp s) f = Some f0 /\ R c0 f0 = (0%Z, f1) /\ f1 (rc_source c) <> None).
Proof. intros R s r f o f' t c. apply (library_call R). Qed.
Print Assumptions C49_library_last_partial.

(** If building fails, nothing outside the temporary directory has changed and
    the error is reported. *)
Theorem C49_build_failure_partial : forall R name s r f f0 f1 code,
  r_only R name -> r_name (q_pkg r) -> f (join_path (q_library r) (q_pkg r)) <> Some Dir ->
  (exists bp, cache_path s r = Some bp /\ f bp = None) -> mkdir_all (s_tmp s) f = Some f0 ->
  f0 (resolve (s_cwd s) (q_path r)) <> None ->
  R {| rc_dir := s_tmp s; rc_library := s_tmp s; rc_build := q_build r; rc_source := resolve (s_cwd s) (q_path r) |} f0
    = (code, f1) -> code <> 0%Z ->
  exists f', install_through_binary R s r f =
    (Done code true None, f', [{| rc_dir := s_tmp s; rc_library := s_tmp s; rc_build := q_build r;
                                  rc_source := resolve (s_cwd s) (q_path r) |}]) /\
    forall q, ~ in_dir (s_tmp s) q -> ~ in_dir q (s_tmp s) -> f' q = f q.
Proof. exact build_failure. Qed.
Print Assumptions C49_build_failure_partial.

(** No error means that the package was there, or is there now, or that its file
    does not exist. *)
Theorem C49_success_partial : forall R name s r f code b f' t,
  r_installs R name -> r_name (q_pkg r) -> install_through_binary R s r f = (Done code false b, f', t) ->
  (forall c g, c ∈ t -> name g (rc_source c) = q_pkg r) ->
  (code = (-999)%Z /\ f' = f /\ f (q_library r ++ [q_pkg r])%list = Some Dir) \/
  (code = 0%Z /\ f' (q_library r ++ [q_pkg r])%list = Some Dir) \/
  (code = 1%Z /\ t = [] /\ exists f0, mkdir_all (s_tmp s) f = Some f0 /\ f0 (resolve (s_cwd s) (q_path r)) = None).
Proof. intros R name s r f code b f' t H1 H2 H3 H4. by apply (success_means R name s r f code b f' t). Qed.
Print Assumptions C49_success_partial.

(** ** Example: an R that installs sources with contents "ok" *)

Definition toy_R : rprog := fun c f =>
  if bool_decide (f (rc_source c) = Some (File "ok")) then
    (0%Z, fun q =>
       if bool_decide (q = (rc_library c ++ ["MASS"])%list) then Some Dir
       else if bool_decide (q = (rc_library c ++ ["MASS"; "DESCRIPTION"])%list) then Some (File "Package: MASS")
       else if rc_build c && bool_decide (q = (rc_dir c ++ ["MASS_7.3_R_x.tar.gz"])%list) then Some (File "ok")
       else f q)
  else (1%Z, f).

Lemma toy_only : r_only toy_R (fun _ _ => "MASS").
Proof.
  intros c f code f' q. unfold toy_R.
  destruct (bool_decide (f (rc_source c) = Some (File "ok"))); [|by intros [= _ <-]].
  intros [= <- <-].
  destruct (decide (q = (rc_library c ++ ["MASS"])%list)) as [->|H1].
  { intros _. left. by exists []; rewrite app_nil_r. }
  rewrite (bool_decide_eq_false_2 _ H1).
  destruct (decide (q = (rc_library c ++ ["MASS"; "DESCRIPTION"])%list)) as [->|H2].
  { intros _. left. exists ["DESCRIPTION"]. by rewrite <- app_assoc. }
  rewrite (bool_decide_eq_false_2 _ H2).
  destruct (decide (q = (rc_dir c ++ ["MASS_7.3_R_x.tar.gz"])%list)) as [->|H3].
  - destruct (rc_build c) eqn:E; cbn [andb]; [|done]. intros _. right. right. split; [done|]. by eexists.
  - rewrite (bool_decide_eq_false_2 _ H3), andb_false_r. done.
Qed.

Definition toy_surroundings : surroundings :=
  {| s_cwd := ["home"]; s_tmp := ["tmp"; "abc"]; s_cache := ["cache"]; s_os := Linux; s_md5 := fun _ => "0123456789abcdef";
     s_read := fun c => Some (scan_lines c) |}.

Definition toy_request (p : string) : request :=
  {| q_pkg := "MASS"; q_path := p; q_meta_pkg := "MASS"; q_meta_version := "7.3"; q_type := STSource;
     q_repo := RepoURL "https://a.org" "CRAN" ""; q_library := ["lib"]; q_build := true; q_pkgr := "3.0";
     q_rversion := RVersion 4 1 0; q_platform := "x" |}.

Definition toy_fs (content : string) : fsys := fun q =>
  if bool_decide (q ∈ [[]; ["home"]; ["tmp"]; ["cache"]; ["lib"]]) then Some Dir
  else if bool_decide (q = ["cache"; "a.tar.gz"]) then Some (File content)
  else if bool_decide (q = ["cache"; "MASS_7.3.tar.gz"]) then Some (File content)
  else None.

Example C49_example :
  let run := install_through_binary toy_R toy_surroundings (toy_request "/cache/MASS_7.3.tar.gz") (toy_fs "ok") in
  run.1.1 = Done 0 false (Some ["tmp"; "abc"; "MASS_7.3_R_x.tar.gz"]) /\
  run.1.2 ["lib"; "MASS"; "DESCRIPTION"] = Some (File (write_lines ["Package: MASS"; "PkgrVersion: 3.0"; "PkgrInstallType: source"; "PkgrRepositoryURL: https://a.org"])) /\
  run.1.2 ["tmp"; "abc"; "MASS"] = None /\ length run.2 = 2.
Proof. vm_compute. done. Qed.

Example C49_example_failure :
  let run := install_through_binary toy_R toy_surroundings (toy_request "/cache/MASS_7.3.tar.gz") (toy_fs "bad") in
  run.1.1 = Done 1 true None /\ run.1.2 ["lib"; "MASS"] = None /\ length run.2 = 1.
Proof. vm_compute. done. Qed.

(** The name of the built binary is derived from the name of the file: a package
    downloaded as "a.tar.gz" is built but not installed. *)
Example C49_example_no_binary :
  let run := install_through_binary toy_R toy_surroundings (toy_request "/cache/a.tar.gz") (toy_fs "ok") in
  run.1.1 = Done 1 true None /\ run.1.2 ["lib"; "MASS"] = None /\ length run.2 = 1.
Proof. vm_compute. done. Qed.

(** * C43: the file of a package does not exist

    R is not even started and the package is not installed, but no error is
    returned; the scheduler takes this for a success (rcmd/install.go 428). *)
Theorem C43_missing_file_refuted : exists R name s r f f',
  r_only R name /\ request_ok s r f /\
  install_through_binary R s r f = (Done 1 false None, f', []) /\ f' (q_library r ++ [q_pkg r])%list = None.
Proof.
  exists toy_R, (fun _ _ => "MASS"), toy_surroundings, (toy_request "/cache/gone.tar.gz"), (toy_fs "ok").
  eexists. split; [apply toy_only|]. split.
  - split; [|split; [|split]].
    + by apply r_nameb_sound.
    + intros q [x ->]. reflexivity.
    + intros [x E]. discriminate E.
    + intros [x E]. discriminate E.
  - split; [reflexivity|]. reflexivity.
Qed.
Print Assumptions C43_missing_file_refuted.

(** * C50

    In full: the path a built binary is stored at, or a binary is downloaded to,
    is the path looked up.  Missing: package names with "tar.gz" in them, and
    Linux platforms other than the one written into the program. *)
Theorem C50_stored_is_found_partial : forall s rhel w p lib pkgr rv platform n,
  ~ means_binary (s_os s) (w_type w) ->
  plain (w_pkg w) -> plain (w_version w) -> plain platform ->
  contains "tar.gz" (w_pkg w +:+ "_" +:+ w_version w) = false ->
  let d := download_path (s_md5 s) (s_os s) rhel (s_cache s) rv w in
  binary_ext (s_os s) (base_name d) platform = Some n ->
  cache_path s (request_of w p lib pkgr rv platform) = Some (store_path d rv (join_path (s_tmp s) n)).
Proof. exact stored_found. Qed.
Print Assumptions C50_stored_is_found_partial.

Theorem C50_downloaded_is_found_partial : forall s (rhel : bool) w p lib pkgr rv platform,
  means_binary (s_os s) (w_type w) ->
  (s_os s = Darwin \/ s_os s = Windows \/
   s_os s = Linux /\ platform = if rhel then "x86_64-redhat-linux-gnu" else "x86_64-pc-linux-gnu") ->
  cache_path s (request_of w p lib pkgr rv platform) = Some (download_path (s_md5 s) (s_os s) rhel (s_cache s) rv w).
Proof. exact downloaded_found. Qed.
Print Assumptions C50_downloaded_is_found_partial.

Definition mass : wanted :=
  {| w_pkg := "MASS"; w_version := "7.3-51"; w_type := STSource; w_repo := RepoURL "https://a.org" "CRAN" "" |}.

Example C50_example :
  let d := download_path (s_md5 toy_surroundings) Linux false ["cache"] (RVersion 4 1 2) mass in
  d = ["cache"; "CRAN-0123456789ab"; "src"; "MASS_7.3-51.tar.gz"] /\
  binary_ext Linux (base_name d) "x86_64-pc-linux-gnu" = Some "MASS_7.3-51_R_x86_64-pc-linux-gnu.tar.gz" /\
  store_path d (RVersion 4 1 2) ["tmp"; "abc"; "MASS_7.3-51_R_x86_64-pc-linux-gnu.tar.gz"] =
    ["cache"; "CRAN-0123456789ab"; "binary"; "4.1"; "MASS_7.3-51_R_x86_64-pc-linux-gnu.tar.gz"].
Proof. vm_compute. done. Qed.

(** "tar.gz" is a valid name of an R package. *)
Theorem C50_tar_gz_refuted : exists pkg version platform,
  r_name pkg /\ binary_ext Darwin (pkg +:+ "_" +:+ version +:+ ".tar.gz") platform <> binary_name Darwin pkg version platform.
Proof.
  exists "tar.gz", "1.0", "x". split; [by apply r_nameb_sound|vm_compute; discriminate].
Qed.
Print Assumptions C50_tar_gz_refuted.

(** On other Linux platforms a downloaded binary is not found in the cache. *)
Theorem C50_platform_refuted : exists s w p lib pkgr rv platform,
  s_os s = Linux /\ w_type w = STBinary /\
  cache_path s (request_of w p lib pkgr rv platform) <> Some (download_path (s_md5 s) (s_os s) false (s_cache s) rv w).
Proof.
  exists toy_surroundings, {| w_pkg := "MASS"; w_version := "7.3"; w_type := STBinary; w_repo := RepoURL "https://a.org" "MPN" "" |},
    "", ["lib"], "3.0", (RVersion 4 1 2), "aarch64-unknown-linux-gnu".
  split; [done|]. split; [done|]. vm_compute. discriminate.
Qed.
Print Assumptions C50_platform_refuted.

(** * C78: what is handed to R

    In full: every source handed to R is the file downloaded for the package, the
    binary in the cache, or the binary built in the temporary directory.  Proved
    for downloads that have a path; a failed download has none. *)
Theorem C78_sources_partial : forall R s r f o f' t c, has_prefix "/" (q_path r) = true ->
  install_through_binary R s r f = (o, f', t) -> c ∈ t ->
  rc_source c = join_path [] (q_path r) \/ cache_path s r = Some (rc_source c) \/
  exists n, binary_ext (s_os s) (base_name (join_path [] (q_path r))) (q_platform r) = Some n /\
            rc_source c = join_path (s_tmp s) n.
Proof. exact sources. Qed.
Print Assumptions C78_sources_partial.

Example C78_example :
  (install_through_binary toy_R toy_surroundings (toy_request "/cache/MASS_7.3.tar.gz") (toy_fs "ok")).2 =
  [ {| rc_dir := ["tmp"; "abc"]; rc_library := ["tmp"; "abc"]; rc_build := true; rc_source := ["cache"; "MASS_7.3.tar.gz"] |};
    {| rc_dir := ["tmp"; "abc"]; rc_library := ["lib"]; rc_build := false; rc_source := ["tmp"; "abc"; "MASS_7.3_R_x.tar.gz"] |} ].
Proof. vm_compute. done. Qed.

(** After a failed download the path is empty, and R is told to install the
    working directory of pkgr. *)
Theorem C78_failed_download : forall R s r f f0,
  q_path r = "" -> f (join_path (q_library r) (q_pkg r)) <> Some Dir ->
  (exists bp, cache_path s r = Some bp /\ f bp = None) -> mkdir_all (s_tmp s) f = Some f0 ->
  f0 (s_cwd s) = Some Dir ->
  exists c, c ∈ (install_through_binary R s r f).2 /\ rc_source c = s_cwd s.
Proof. exact installs_cwd. Qed.
Print Assumptions C78_failed_download.

Theorem C78_working_directory_refuted : exists R s r f c,
  c ∈ (install_through_binary R s r f).2 /\ rc_source c = s_cwd s /\ cache_path s r <> Some (s_cwd s) /\
  ~ in_dir (s_tmp s) (s_cwd s).
Proof.
  exists toy_R, toy_surroundings, (toy_request ""), (toy_fs "ok"),
    {| rc_dir := ["tmp"; "abc"]; rc_library := ["tmp"; "abc"]; rc_build := true; rc_source := ["home"] |}.
  split; [vm_compute; by left|]. split; [done|]. split; [vm_compute; discriminate|]. intros [x E]. discriminate E.
Qed.
Print Assumptions C78_working_directory_refuted.

Example C78_example_cwd :
  map rc_source (install_through_binary toy_R toy_surroundings (toy_request "") (toy_fs "ok")).2 = [["home"]].
Proof. vm_compute. done. Qed.
