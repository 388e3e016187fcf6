(** Details of C126, C130, C132 and C136 that the theorems there leave out. *)
From stdpp Require Import strings list gmap relations.
From Coq Require Import Ascii ZArith NArith Lia.
From Verif.model Require Import GoStr Desc Nexus RepoDb Fs Env Yml Install Download Urls Config Start Calls Status Shared Fetching.
From Verif.spec Require Import StrSpec EnvSpec YmlSpec UrlSpec ApartSpec InstallSpec FetchingSpec CallsSpec StatusSpec SharedSpec.
From Verif.proofs Require Import GoStrLemmas ApartProofs SharedProofs.
From Verif.props Require Import P_Calls.

Local Open Scope string_scope.

(** ** C126: add without arguments *)

Theorem C126_add_nothing yaml c : exit_status (add_ends yaml c []).1 = 0 /\ (add_ends yaml c []).2 = c.
Proof. done. Qed.

Example C126_add_nothing_example :
  (add_ends (fun _ => None) {| cn_content := "Packages:"; cn_readable := None; cn_writable := false; cn_room := None |} []).1 = Returns false.
Proof. done. Qed.

(** ** C130: the file of a binary package

    On Linux its name has the platform of R on Red Hat when the file /etc/os-release says
    so, and otherwise that of R elsewhere. *)

Definition on_red_hat (x : fetch_env) : Prop := exists r, x_rel x = Some r /\ or_id r = "rhel".

Theorem C130_file x w : sum_texts (x_md5 x) -> sensible w -> x_os x = Linux -> w_type w = STBinary ->
  exists dir platform, place x w = (dir ++ [w_pkg w +:+ "_" +:+ w_version w +:+ platform])%list /\
    (on_red_hat x -> platform = "_R_x86_64-redhat-linux-gnu.tar.gz") /\
    (~ on_red_hat x -> platform = "_R_x86_64-pc-linux-gnu.tar.gz").
Proof.
  intros Hm Hs Ho Ht. destruct (download_path_eq (x_md5 x) (x_os x) (is_rhel (x_rel x)) (x_cache x) (x_rv x) w Hm Hs)
    as (y & _ & E & _ & Hb); [by rewrite Ho|].
  assert (effective_type (x_os x) (w_type w) = STBinary) as He by (by rewrite Ht).
  specialize (Hb He "" ""). rewrite Ho in Hb. cbn [cran_binary_name] in Hb.
  assert (is_rhel (x_rel x) = true <-> on_red_hat x) as Hr.
  { unfold is_rhel, on_red_hat. destruct (x_rel x) as [r|]; [|split; [done|by intros (? & ? & _)]].
    rewrite String.eqb_eq. split; [intros; by exists r|]. by intros (? & [= <-] & ?). }
  eexists _, y. split; [unfold place; rewrite E, !app_assoc; reflexivity|].
  destruct (is_rhel (x_rel x)); cbn in Hb; injection Hb as <-; (split; [intros H|intros H]); try done.
  - destruct H. by apply Hr.
  - by apply Hr in H.
Qed.

Example C130_file_example : exists x w, on_red_hat x /\ w_type w = STBinary /\
  place x w = ["cache"; "CRAN-0123456789ab"; "binary"; "4.1"; "R6_2.5.1_R_x86_64-redhat-linux-gnu.tar.gz"].
Proof.
  exists {| x_md5 := fun _ => "0123456789abcdef0123456789abcdef"; x_os := Linux;
            x_rel := Some {| or_id := "rhel"; or_version_id := "8"; or_codename := "" |}; x_cache := ["cache"];
            x_rv := RVersion 4 1 2; x_cwd := ["home"]; x_serve := fun _ _ => True |},
    {| w_pkg := "R6"; w_version := "2.5.1"; w_type := STBinary; w_repo := RepoURL "https://r.org" "CRAN" "" |}.
  split; [by eexists|]. split; [done|]. vm_compute. reflexivity.
Qed.

(** ** C132: the arguments of every process *)

Definition quoted_newline : string := String (ascii_of_nat 10) "".

Definition into (library : string) : list string := if decide (library = "") then [] else ["--library=" +:+ library].

Theorem C132_arguments_exact o tmp c library u :
  pr_args (process_of o tmp c library u) =
  match u with
  | UVersion => ["--version"]
  | URenv => ["-e"; "cat('" +:+ quoted_newline +:+ "_pkgr_', renv::paths$library(), '_pkgr_" +:+ quoted_newline +:+ "', sep = '')"]
  | URun _ => ["--vanilla"]
  | UExperiment script => ["--vanilla"; "-e"; script]
  | UBuild _ source tmpdir _ =>
      (["--vanilla"; "CMD"; "INSTALL"; "--build"; "--install-tests"; "--no-multiarch"; "--with-keep.source"] ++ into tmpdir ++ [source])%list
  | UBuilt _ source _ => (["--vanilla"; "CMD"; "INSTALL"] ++ into library ++ [source])%list
  | UCached _ source =>
      (["--vanilla"; "CMD"; "INSTALL"; "--install-tests"; "--no-multiarch"; "--with-keep.source"] ++ into library ++ [source])%list
  | UTarball _ source _ =>
      (["--vanilla"; "CMD"; "INSTALL"; "--build"; "--install-tests"; "--no-multiarch"; "--with-keep.source"] ++ into library ++ [source])%list
  | ULoad expression _ => ["--slave"; "--no-restore"; "-e"; expression]
  end.
Proof.
  assert (forall l, (if String.eqb l "" then [] else ["--library=" +:+ l]) = into l) as E.
  { intros l. unfold into. by destruct l. }
  destruct u; try reflexivity; unfold process_of, run_install, r_install_args, cli_args; cbn [pr_args ia_library default_args built_args cached_args];
    rewrite E; reflexivity.
Qed.

Example C132_arguments_exact_example :
  pr_args (process_of ex_own "/tmp/a" ex_r_config "/proj/lib" (UBuild "curl" "/c/curl_4.3.tar.gz" "/tmp/b" ["tmp"; "b"])) =
    ["--vanilla"; "CMD"; "INSTALL"; "--build"; "--install-tests"; "--no-multiarch"; "--with-keep.source"; "--library=/tmp/b"; "/c/curl_4.3.tar.gz"].
Proof. reflexivity. Qed.

(** ** C136: the map is never used by two goroutines, one of them writing

    And if it were, the program would end. *)

Theorem C136_alone (V : Type) (programs : list (list (op V))) s i k o o' l l' :
  rtc share (new_shared programs) s -> i <> k ->
  sh_all s !! i = Some (Using o l) -> sh_all s !! k = Some (Using o' l') ->
  exists x y, o = Get x /\ o' = Get y.
Proof.
  intros H N Hi Hk. apply inv_reach in H as [Hw Hr Hx _ _ _ _ _].
  pose proof (sum_two hw (sh_all s) i k _ _ N Hi Hk) as A. pose proof (sum_two hr (sh_all s) i k _ _ N Hi Hk) as B.
  destruct s as [ts w r m d c]. cbn [sh_all sh_locked sh_readers] in *.
  cbn [hw hr] in A, B. destruct w; [specialize (Hx eq_refl)|]; destruct o, o'; cbn [is_write] in *; try (exfalso; lia); by eexists _, _.
Qed.

Theorem C136_noticed (V : Type) (s s' : shared V) i k o o' l l' :
  i <> k -> sh_all s !! i = Some (Locked o l) -> sh_all s !! k = Some (Using o' l') ->
  ~ (exists x y, o = Get x /\ o' = Get y) -> share s s' -> sh_all s' !! i = Some (Using o l) -> sh_crashed s' = true.
Proof.
  intros N Hi Hk Hn Hs Hi'. destruct Hs as [i0|i0 o0 l0 ts w r m d c E|i0|i0]; cbn [sh_all sh_crashed] in *.
  all: destruct (decide (i0 = i)) as [->|M];
    [rewrite list_lookup_insert in Hi' by (by eapply lookup_lt_Some)|rewrite list_lookup_insert_ne in Hi' by done]; try congruence.
  injection Hi' as -> ->. apply orb_true_iff. right. unfold in_conflict. apply existsb_exists. exists (Using o' l').
  split; [apply elem_of_list_In; by eapply elem_of_list_lookup_2|].
  destruct o, o'; try done. destruct Hn. by eexists _, _.
Qed.

Example C136_noticed_example : exists s s' : shared nat,
  sh_all s = [Locked (Put "MASS" 1) []; Using (Get "MASS") []] /\ share s s' /\ sh_crashed s' = true.
Proof.
  exists (Shared [Locked (Put "MASS" 1) []; Using (Get "MASS") []] true 1 ∅ [] false). eexists.
  split; [done|]. split; [by apply (share_begin 0)|]. reflexivity.
Qed.

Print Assumptions C126_add_nothing.
Print Assumptions C130_file.
Print Assumptions C132_arguments_exact.
Print Assumptions C136_alone.
Print Assumptions C136_noticed.
