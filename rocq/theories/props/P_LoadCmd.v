(** The command load: C117 to C120. *)
From stdpp Require Import strings list gmap.
From Coq Require Import Ascii ZArith NArith Lia.
From Verif.model Require Import GoStr Env Fs Yml Config Start Desc Nexus Graph Plan Load LoadCmd.
From Verif.spec Require Import StrSpec YmlSpec ConfigSpec StartSpec GraphSpec LoadSpec LoadCmdSpec.
From Verif.proofs Require Import GoStrLemmas StartProofs LoadProofs ValProofs LoadCmdProofs.
From Verif.props Require Import P_Tarball P_Cmd.

Local Open Scope string_scope.

(** * C117: packages are loaded in the directory of the configuration file

    In full: whatever the name of the configuration file is, R is run in its directory.
    Missing: names with a directory that are not absolute, see the refutations. *)

Theorem C117_directory_partial : forall home cwd flag dir f,
  flag <> "" -> no_tilde flag -> stands_for cwd flag (dir ++ [f])%list -> ends_in flag f ->
  (exists r, flag = "/" +:+ r) \/ plain_name flag ->
  exists name, config_name home flag = Some name /\ loaded_file cwd name = (dir ++ [f])%list /\ load_dir cwd name flag = dir.
Proof.
  intros home cwd flag dir f Hn Ht Hf He Ha. exists (clean flag). split; [by apply config_name_plain|].
  destruct (command_dir_file _ _ _ _ Hf) as [H1 H2]. split; [done|]. unfold load_dir. rewrite H2.
  destruct (String.eqb_spec flag ""); [done|].
  pose proof (resolve_dir cwd flag f He) as E0. rewrite (resolve_stands _ _ _ Hf) in E0. apply app_inj_tail in E0 as [E0 _].
  destruct Ha as [[r ->]|Hp].
  - pose proof (resolve_dir dir _ f He) as E. rewrite (resolve_rooted dir cwd), (resolve_stands _ _ _ Hf) in E.
    by apply app_inj_tail in E as [E _].
  - assert (flag = f) as ->.
    { destruct He as [_ [->|[a ->]]]; [done|]. destruct Hp as (_ & _ & _ & Hp). exfalso. clear -Hp.
      induction a as [|c a IH]; cbn [append all_bytes] in Hp; [done|]. apply andb_true_iff in Hp as [_ Hp]. auto. }
    pose proof (resolve_dir dir f f He) as E. rewrite (resolve_stands _ _ _ (plain_stands dir f Hp)) in E.
    by apply app_inj_tail in E as [E _].
Qed.
Print Assumptions C117_directory_partial.

(** Without --config it is the working directory. *)
Theorem C117_default : forall home cwd, exists name,
  config_name home "" = Some name /\ load_dir cwd name "" = cwd.
Proof.
  intros home cwd. exists "pkgr.yml". split; [done|]. unfold load_dir. cbn [String.eqb].
  assert (plain_name "pkgr.yml") as Hp by done.
  destruct (command_dir_file cwd "pkgr.yml" cwd "pkgr.yml") as [_ H]; [by apply plain_stands|]. exact H.
Qed.
Print Assumptions C117_default.

(** With --config sub/pkgr.yml R is run in sub/sub. *)
Theorem C117_directory_refuted : forall home cwd sub f,
  sub <> [] -> (forall x, x ∈ (sub ++ [f])%list -> plain_name x) -> no_tilde (join "/" (sub ++ [f])%list) ->
  let flag := join "/" (sub ++ [f])%list in
  exists name, config_name home flag = Some name /\ loaded_file cwd name = (cwd ++ sub ++ [f])%list /\
    load_dir cwd name flag = (cwd ++ sub ++ sub)%list /\ load_dir cwd name flag <> (cwd ++ sub)%list.
Proof.
  intros home cwd sub f Hs Hp Ht flag.
  assert ((sub ++ [f])%list <> []) as Hn by (by destruct sub).
  assert (stands_for cwd flag ((cwd ++ sub) ++ [f])%list) as Hf.
  { rewrite <- app_assoc. by apply plain_join_stands. }
  assert (flag <> "") as Hne.
  { unfold flag. destruct (sub ++ [f])%list as [|x k]; [done|]. destruct (Hp x) as [H _]; [by left|].
    destruct k; cbn [join]; by destruct x. }
  destruct (command_dir_file _ _ _ _ Hf) as [H1 H2].
  assert (ends_in flag f) as He.
  { split; [apply Hp, elem_of_app; right; by left|]. right. unfold flag. clear -Hs.
    induction sub as [|x sub IH]; [done|]. destruct sub as [|y sub].
    - exists x. done.
    - destruct IH as [a Ha]; [done|]. cbn [app] in Ha |- *. exists (x +:+ "/" +:+ a).
      change (join "/" (x :: y :: (sub ++ [f])%list)) with (x +:+ "/" +:+ join "/" (y :: (sub ++ [f])%list)).
      rewrite Ha. by rewrite !app_assoc_str. }
  assert (load_dir cwd (clean flag) flag = (cwd ++ sub ++ sub)%list) as Hl.
  { unfold load_dir. destruct (String.eqb_spec flag ""); [done|]. rewrite H2.
    pose proof (resolve_dir (cwd ++ sub)%list flag f He) as E. unfold flag in E at 1. rewrite plain_resolve in E by done.
    rewrite app_assoc in E. apply app_inj_tail in E as [E _]. by rewrite <- E, app_assoc. }
  exists (clean flag). split; [by apply config_name_plain|]. rewrite H1, Hl. split; [by rewrite <- app_assoc|]. split; [done|].
  intros E. apply (f_equal length) in E. rewrite !app_length in E. destruct sub; [done|]. cbn in E. lia.
Qed.
Print Assumptions C117_directory_refuted.

(** A tilde is expanded in the name of the file, but not in the directory for R. *)
Theorem C117_tilde_refuted :
  config_name "/home/me" "~/proj/pkgr.yml" = Some "/home/me/proj/pkgr.yml" /\
  loaded_file ["work"] "/home/me/proj/pkgr.yml" = ["home"; "me"; "proj"; "pkgr.yml"] /\
  load_dir ["work"] "/home/me/proj/pkgr.yml" "~/proj/pkgr.yml" = ["home"; "me"; "proj"; "~"; "proj"].
Proof. vm_compute. repeat split. Qed.
Print Assumptions C117_tilde_refuted.

Example C117_example :
  load_dir ["work"] "/srv/x/pkgr.yml" "/srv/./y/../x/pkgr.yml" = ["srv"; "x"] /\
  load_dir ["work"] "pkgr-dev.yml" "pkgr-dev.yml" = ["work"].
Proof. vm_compute. by split. Qed.

(** * C118: the load report says what R said

    In full: for every package the report gives the directory and the version that R
    names, the texts R has written, and whether loading it succeeded; and the report
    lists the libraries that R names.  Missing: answers of R that are not one text in
    each row, see the refutations. *)

Theorem C118_packages_partial : forall r dir threads all user plan keys additional rep,
  load_command r dir threads all user plan keys additional (LoadReports rep) ->
  forall p x, fl_results rep !! p = Some x ->
  let called := r dir ("library('" +:+ p +:+ "')") in
  let asked := r dir ("find.package('" +:+ p +:+ "'); as.character(packageVersion('" +:+ p +:+ "'))") in
  fr_pkg x = p /\ an_end called <> CannotRun /\ (fr_success x = true <-> an_end called = ExitZero) /\
  (fr_success x = true -> fr_exiterr x = "") /\ (fr_success x = false -> fr_exiterr x = an_message called) /\
  (forall lines, Forall bare_line lines -> an_out called = text lines -> fr_stdout x = join newline lines) /\
  (forall lines, Forall bare_line lines -> an_err called = text lines -> fr_stderr x = join newline lines) /\
  (forall i k path version, digits i -> digits k -> plain_text path -> plain_text version ->
     an_end asked = ExitZero -> an_out asked = text [row i path; row k version] ->
     fr_path x = path /\ fr_version x = version).
Proof.
  intros r dir threads all user plan keys additional rep H p x Hx called asked.
  assert (attempt_full r dir p = Some x) as E.
  { assert (exists got, rep = full_report_of r dir (to_load all user plan keys additional) got) as [got ->].
    { unfold load_command in H. destruct plan; try done; destruct (sem_cap threads); try done;
        destruct H as [(s & _ & _ & [= ->])|[_ ?]]; try done; by exists (ls_got s). }
    by eapply report_full. }
  unfold attempt_full, run_r_cmd in E. change (r dir (library_call p)) with called in E.
  assert (forall i k path version, digits i -> digits k -> plain_text path -> plain_text version ->
     an_end asked = ExitZero -> an_out asked = text [row i path; row k version] -> additional_info r dir p = (path, version)) as I.
  { intros i k path version Hi Hk Hp Hv He Ho. unfold additional_info, run_r_cmd. fold asked. rewrite He, Ho.
    destruct (scan_rows true [(i, path); (k, version)]) as [S1 S2]; [apply Forall_cons; split; [done|]; apply Forall_cons; by split|].
    cbn [map fst snd] in S1, S2. destruct (scan_r_output true (text [row i path; row k version])) as [|a [|b [|? ?]]]; try done.
    cbn [map] in S1. by injection S1 as -> ->. }
  destruct (an_end called) eqn:Ee; [| |done]; injection E as <-; cbn [fr_pkg fr_success fr_exiterr fr_stdout fr_stderr fr_path fr_version];
    (split; [done|]); (split; [done|]); (split; [done|]); (split; [done|]); (split; [done|]); (split; [|split]).
  1,4: intros lines Hl ->; by rewrite scan_bare.
  1,3: intros lines Hl ->; by rewrite scan_bare.
  all: intros i k path version Hi Hk Hp Hv He Ho; by rewrite (I i k path version).
Qed.
Print Assumptions C118_packages_partial.

Theorem C118_libraries_partial : forall r dir threads all user plan keys additional rep rows,
  load_command r dir threads all user plan keys additional (LoadReports rep) ->
  Forall (fun x => digits x.1 /\ plain_text x.2) rows ->
  let a := r dir ".libPaths()" in
  an_end a = ExitZero -> an_err a = "" -> an_out a = text (map (fun x => row x.1 x.2) rows) ->
  fl_libs rep = map snd rows.
Proof.
  intros r dir threads all user plan keys additional rep rows H Hr a He Hq Ho.
  assert (exists got, rep = full_report_of r dir (to_load all user plan keys additional) got) as [got ->].
  { unfold load_command in H. destruct plan; try done; destruct (sem_cap threads); try done;
      destruct H as [(s & _ & _ & [= ->])|[_ ?]]; try done; by exists (ls_got s). }
  rewrite report_libs. unfold session_lib_paths, run_r_cmd. fold a. rewrite He, Hq, Ho. cbn [scan_r_output].
  change (scan_r_output false "") with (@nil string). cbv iota. by apply scan_rows.
Qed.
Print Assumptions C118_libraries_partial.

(** R answers every expression with [out]. *)
Definition always (out : string) : r_session := fun _ _ => {| an_out := out; an_err := ""; an_end := ExitZero; an_message := "" |}.

(** Two libraries in one row, as R prints them when they are short, become one. *)
Theorem C118_row_refuted :
  let q := quote in
  session_lib_paths (always (text ["[1] " +:+ q +:+ "/usr/local/lib/R/site-library" +:+ q +:+ " " +:+ q +:+ "/usr/lib/R/library" +:+ q])) []
  = ["/usr/local/lib/R/site-library /usr/lib/R/library"].
Proof. vm_compute. reflexivity. Qed.
Print Assumptions C118_row_refuted.

(** With ten rows or more R puts a blank before the first numbers, and these stay. *)
Theorem C118_index_refuted :
  session_lib_paths (always (text [" " +:+ row "1" "/opt/one"; row "10" "/opt/ten"])) [] = ["[1] /opt/one"; "/opt/ten"].
Proof. vm_compute. reflexivity. Qed.
Print Assumptions C118_index_refuted.

(** A line that is written when R starts, say by a profile, takes the place of a library
    and hides the directory and the version of every package. *)
Theorem C118_profile_refuted : forall dir p,
  let r := always (text ["hello"; row "1" ("/opt/lib/" +:+ p); row "1" "1.0"]) in
  plain_text p -> (N.of_nat (String.length p) < 20000)%N ->
  additional_info r dir p = ("could not retrieve", "could not retrieve").
Proof.
  intros dir p r [Hp _] Hl. unfold additional_info, run_r_cmd, r. cbn [always an_out an_err an_end].
  assert (length (scan_r_output true (text ["hello"; row "1" ("/opt/lib/" +:+ p); row "1" "1.0"])) = 3) as E.
  { unfold scan_r_output. rewrite YmlProofs.scan_text.
    - cbn [map List.filter]. rewrite !clean_row by (split; [done|split; [cbn; lia|done]]). rewrite !keep_quoted. done.
    - intros l Hx. rewrite !elem_of_cons, elem_of_nil in Hx. destruct Hx as [->|[->|[->|[]]]].
      + by apply YmlProofs.unix_check.
      + apply row_unix; [split; [done|split; [cbn; lia|done]]|]. split.
        * change ("/opt/lib/" +:+ p) with ("/opt/lib/" +:+ p). cbn [append all_bytes]. done.
        * cbn [append String.length]. lia.
      + apply row_unix; [split; [done|split; [cbn; lia|done]]|]. by split. }
  destruct (scan_r_output true _) as [|a [|b [|c k]]]; done.
Qed.
Print Assumptions C118_profile_refuted.

Example C118_example :
  let r : r_session := fun dir e =>
    if String.eqb e "library('core')" then {| an_out := ""; an_err := text ["Error in library"]; an_end := ExitNonZero; an_message := "exit status 1" |}
    else if String.eqb e ".libPaths()" then {| an_out := text [row "1" "/opt/lib"; row "2" "/usr/lib/R/library"]; an_err := ""; an_end := ExitZero; an_message := "" |}
    else {| an_out := text [row "1" "/opt/lib/core"; row "1" "1.2.3"]; an_err := ""; an_end := ExitZero; an_message := "" |} in
  let rep := full_report_of r ["work"] ["core"] [0] in
  fl_libs rep = ["/opt/lib"; "/usr/lib/R/library"] /\ fl_failures rep = 1 /\
  fl_results rep !! "core" = Some {| fr_pkg := "core"; fr_version := "1.2.3"; fr_path := "/opt/lib/core";
    fr_exiterr := "exit status 1"; fr_stdout := ""; fr_stderr := "Error in library"; fr_success := false |}.
Proof. vm_compute. repeat split. Qed.

(** * C119: load loads what it should

    In full: without --all the report has an entry for each package of the
    configuration, with --all for each package of the plan and for no other.  Missing:
    --all when some package of the configuration is in no repository. *)

Theorem C119_configured : forall r dir threads user plan keys additional rep,
  load_command r dir threads false user plan keys additional (LoadReports rep) ->
  forall p, is_Some (fl_results rep !! p) <-> p ∈ user.
Proof.
  intros r dir threads user plan keys additional rep H p.
  assert (exists s cap, lexec (length user) cap (session_ends r dir user) (Going s) /\ ls_main s = true /\
    rep = full_report_of r dir user (ls_got s)) as (s & cap & He & Hm & ->).
  { unfold load_command in H. destruct plan; try done; destruct (sem_cap threads) as [cap|]; try done;
      destruct H as [(s & K1 & K2 & [= ->])|[_ ?]]; try done; by exists s, cap. }
  destruct (report_complete _ _ _ _ He Hm) as (K & _ & _). rewrite K, <- report_short. cbn. by rewrite lookup_fmap, fmap_is_Some.
Qed.
Print Assumptions C119_configured.

Theorem C119_all_partial : forall r dir threads user nx ip keys additional rep,
  load_command r dir threads true user (PIPlan nx ip) keys additional (LoadReports rep) ->
  keys ≡ₚ (map_to_list (ip_depdb ip)).*1 ->
  forall p, is_Some (fl_results rep !! p) <-> planned ip p \/ p ∈ additional.
Proof.
  intros r dir threads user nx ip keys additional rep H Hk p. unfold load_command in H.
  destruct (sem_cap threads) as [cap|]; [|done]. destruct H as [(s & He & Hm & [= ->])|[_ ?]]; [|done].
  destruct (report_complete _ _ _ _ He Hm) as (K & _ & _).
  set (R := full_report_of r dir (get_all_packages ip keys additional) (ls_got s)).
  assert (is_Some (fl_results R !! p) <-> is_Some (rep_results (shortened R) !! p)) as ->.
  { cbn. by rewrite lookup_fmap, fmap_is_Some. }
  unfold R. rewrite report_short. change (get_all_packages ip keys additional) with (to_load true user (PIPlan nx ip) keys additional).
  rewrite <- K. unfold to_load, get_all_packages. rewrite !elem_of_app, Hk. unfold planned. split.
  - intros [Hp|[Hp|Hp]]; [by left; left| |by right]. left. right. apply elem_of_list_fmap in Hp as ([q d] & -> & Hp).
    apply elem_of_map_to_list in Hp. by exists d.
  - intros [[Hp|[d Hp]]|Hp]; [by left| |by right; right]. right. left. apply elem_of_list_fmap. exists (p, d). split; [done|].
    by apply elem_of_map_to_list.
Qed.
Print Assumptions C119_all_partial.

(** With a package that no repository has, --all loads nothing at all and says that all
    packages were loaded. *)
Theorem C119_missing_refuted :
  plan_install (fun _ l => l) (PlanConfig ["core"; "nope"] [] false false false []) cmd_repo [] [] ∅ true = PIMissing ["nope"] /\
  forall r dir threads user missing keys additional, (1 <= threads)%Z -> exists rep,
    load_command r dir threads true user (PIMissing missing) keys additional (LoadReports rep) /\
    fl_results rep = ∅ /\ says_all_loaded (LoadReports rep) = true /\ load_status (LoadReports rep) = 0.
Proof.
  split; [vm_compute; reflexivity|]. intros r dir threads user missing keys additional Ht. eexists. split.
  - unfold load_command, to_load. unfold sem_cap. destruct (Z.ltb_spec (threads * 2) 0); [lia|]. left. cbn [length].
    eexists. split; [|split].
    + eapply le_step; [apply le_init|]. apply l_return; done.
    + done.
    + reflexivity.
  - done.
Qed.
Print Assumptions C119_missing_refuted.

Example C119_example : exists rep,
  load_command (always "") [] 1 true ["core"] (plan_install (fun _ l => l) (PlanConfig ["core"] [] false false false []) cmd_repo [] [] ∅ true)
    [] [] (LoadReports rep) /\ is_Some (fl_results rep !! "core").
Proof.
  eexists. split.
  - assert (exists nx ip, plan_install (fun _ l => l) (PlanConfig ["core"] [] false false false []) cmd_repo [] [] ∅ true = PIPlan nx ip /\
      ip_starting ip = ["core"]) as (nx & ip & -> & E) by (eexists _, _; split; vm_compute; reflexivity).
    unfold load_command, to_load, get_all_packages. rewrite E. cbn [app length sem_cap]. left. eexists. split; [|split].
    + pose proof (le_init 1 2 (session_ends (always "") [] ["core"])) as H. unfold linitial in H.
      eapply le_step in H; [|apply (l_acquire _ _ _ _ 0); [done|done|cbn; lia]]. cbn in H.
      eapply le_step in H; [|apply (l_send _ _ _ _ 0); [done|done|done|cbn; lia]]. cbn in H.
      eapply le_step in H; [|apply (l_receive _ _ _ _ 0 []); [done|cbn; lia|done]]. cbn in H.
      eapply le_step in H; [|apply l_return; done]. exact H.
    + done.
    + reflexivity.
  - vm_compute. by eexists.
Qed.

(** * C120: the end of load tells whether all packages could be loaded

    In full: the last message and the exit status say whether every package was loaded.
    The message does; the status does not (refuted below), it only tells whether R could
    be run for every package. *)

Theorem C120_message_partial : forall r dir threads all user plan keys additional e,
  load_command r dir threads all user plan keys additional e -> (1 <= threads)%Z ->
  (exists nx ip, plan = PIPlan nx ip) \/ (exists missing, plan = PIMissing missing) ->
  let pkgs := to_load all user plan keys additional in
  let ends p := an_end (r dir ("library('" +:+ p +:+ "')")) in
  (says_all_loaded e = true <-> forall p, p ∈ pkgs -> ends p = ExitZero) /\
  (load_status e = 0 <-> forall p, p ∈ pkgs -> ends p <> CannotRun).
Proof.
  intros r dir threads all user plan keys additional e H Ht Hplan pkgs ends.
  assert (exists cap, (exists s, lexec (length pkgs) cap (session_ends r dir pkgs) (Going s) /\ ls_main s = true /\
     e = LoadReports (full_report_of r dir pkgs (ls_got s))) \/
     (lexec (length pkgs) cap (session_ends r dir pkgs) Load.Fatal /\ e = LoadStops 1)) as (cap & K).
  { unfold load_command in H. fold pkgs in H.
    destruct Hplan as [(nx & ip & ->)|(missing & ->)];
      (destruct (sem_cap threads) as [cap|] eqn:Ec; [by exists cap|]);
      unfold sem_cap in Ec; by destruct (Z.ltb_spec (threads * 2) 0); [lia|]. }
  destruct K as [(s & He & Hm & ->)|[He ->]].
  - destruct (report_complete _ _ _ _ He Hm) as (_ & _ & K3). pose proof (linv_exec _ _ _ _ He) as I. cbn in I.
    pose proof (got_all _ _ _ _ He Hm) as Hg.
    assert (forall p, p ∈ pkgs -> ends p <> CannotRun) as Hok.
    { intros p Hp. apply elem_of_list_lookup in Hp as [i Hi].
      pose proof (li_ok _ _ _ _ I i) as K. unfold session_ends in K. rewrite Hi in K. apply K.
      apply elem_of_app. right. rewrite Hg. apply elem_of_seq. apply lookup_lt_Some in Hi. lia. }
    split; [|done]. unfold says_all_loaded. rewrite <- report_short in K3. cbn [shortened rep_failures] in K3. rewrite K3.
    rewrite Nat.eqb_eq. unfold failed_attempts. split.
    + intros E p Hp. pose proof (Hok p Hp) as Hc. apply elem_of_list_lookup in Hp as [i Hi].
      destruct (ends p) eqn:Ep; [done| |done]. exfalso.
      assert (In i (List.filter (fun i => match session_ends r dir pkgs i with ExitNonZero => true | _ => false end) (seq 0 (length pkgs)))) as K.
      { apply filter_In. split; [apply in_seq; apply lookup_lt_Some in Hi; lia|]. unfold session_ends. rewrite Hi.
        unfold ends in Ep. change (library_call p) with ("library('" +:+ p +:+ "')"). by rewrite Ep. }
      apply nil_length_inv in E. by rewrite E in K.
    + intros Ha. rewrite (proj2 (filter_nil _ _)); [done|]. intros i _. unfold session_ends.
      destruct (pkgs !! i) as [p|] eqn:Ei; [|done]. change (library_call p) with ("library('" +:+ p +:+ "')").
      pose proof (Ha p) as K. unfold ends in K. rewrite K; [done|]. by eapply elem_of_list_lookup_2.
  - assert (exists i, session_ends r dir pkgs i = CannotRun) as (i & Hi).
    { inversion He as [|o o' H1 H2 E]; subst. inversion H2; subst. by eexists. }
    unfold session_ends in Hi. destruct (pkgs !! i) as [p|] eqn:Ep; [|done]. apply elem_of_list_lookup_2 in Ep.
    change (library_call p) with ("library('" +:+ p +:+ "')") in Hi.
    split; (split; [done|]); intros K; pose proof (K p Ep) as K'; unfold ends in K'; congruence.
Qed.
Print Assumptions C120_message_partial.

(** A package that cannot be loaded does not change the exit status. *)
Theorem C120_status_refuted : forall r dir p nx ip keys additional,
  an_end (r dir ("library('" +:+ p +:+ "')")) = ExitNonZero ->
  exists e, load_command r dir 1 false [p] (PIPlan nx ip) keys additional e /\ says_all_loaded e = false /\ load_status e = 0.
Proof.
  intros r dir p nx ip keys additional E.
  assert (session_ends r dir [p] 0 = ExitNonZero) as Es by exact E.
  exists (LoadReports (full_report_of r dir [p] [0])). split; [|split; [|done]].
  - unfold load_command, to_load. cbn [length sem_cap]. left. eexists. split; [|split].
    + pose proof (le_init 1 2 (session_ends r dir [p])) as H. unfold linitial in H.
      eapply le_step in H; [|apply (l_acquire _ _ _ _ 0); [done|done|cbn; lia]]. cbn in H.
      eapply le_step in H; [|apply (l_send _ _ _ _ 0); [done|done|by rewrite Es|cbn; lia]]. cbn in H.
      eapply le_step in H; [|apply (l_receive _ _ _ _ 0 []); [done|cbn; lia|done]]. cbn in H.
      eapply le_step in H; [|apply l_return; done]. exact H.
    + done.
    + reflexivity.
  - unfold says_all_loaded.
    assert (fl_failures (full_report_of r dir [p] [0]) = 1) as ->; [|done].
    pose proof (report_short r dir [p] [0]) as K. apply (f_equal rep_failures) in K. cbn [shortened rep_failures] in K. rewrite K.
    unfold report_of. cbn [fold_left]. change ([p] !! 0) with (Some p). cbv iota beta. rewrite Es. done.
Qed.
Print Assumptions C120_status_refuted.

Example C120_example : exists e,
  load_command (fun _ x => {| an_out := ""; an_err := ""; an_end := if String.eqb x "library('b')" then ExitNonZero else ExitZero; an_message := "" |})
    [] 1 false ["b"] (PIMissing []) [] [] e /\ says_all_loaded e = false.
Proof.
  exists (LoadReports (full_report_of (fun _ x => {| an_out := ""; an_err := ""; an_end := if String.eqb x "library('b')" then ExitNonZero else ExitZero; an_message := "" |}) [] ["b"] [0])).
  split; [|reflexivity]. unfold load_command, to_load. cbn [length sem_cap]. left. eexists. split; [|split].
  - set (ends := session_ends _ _ _). pose proof (le_init 1 2 ends) as H. unfold linitial in H.
    eapply le_step in H; [|apply (l_acquire _ _ _ _ 0); [done|done|cbn; lia]]. cbn in H.
    eapply le_step in H; [|apply (l_send _ _ _ _ 0); [done|done|done|cbn; lia]]. cbn in H.
    eapply le_step in H; [|apply (l_receive _ _ _ _ 0 []); [done|cbn; lia|done]]. cbn in H.
    eapply le_step in H; [|apply l_return; done]. exact H.
  - done.
  - reflexivity.
Qed.
