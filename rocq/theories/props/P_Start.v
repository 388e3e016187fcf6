(** Starting a command: paths, variables and R (C85 to C89). *)
From stdpp Require Import strings list gmap.
From Coq Require Import Ascii ZArith NArith Lia.
From Verif.model Require Import GoStr Fs Env RepoDb Install Download Urls Yml Config Start.
From Verif.spec Require Import StrSpec LibSpec ExtractSpec ConfigSpec UrlSpec StartSpec.
From Verif.proofs Require Import GoStrLemmas FsProofs ExtractProofs CleanProofs ConfigProofs UrlProofs StartProofs.

Local Open Scope string_scope.

(** ** C85: relative paths are relative to the configuration file *)

(** Wherever pkgr is called, the file that is named is read and the paths in it
    lead to places seen from its directory.  Missing for the full statement: the
    paths below. *)
Theorem C85_relative_partial home cwd flag dir f s q :
  flag <> "" -> no_tilde flag -> stands_for cwd flag (dir ++ [f])%list -> stands_for dir s q ->
  exists name, config_name home flag = Some name /\ loaded_file cwd name = (dir ++ [f])%list /\ config_path cwd name s = q.
Proof.
  intros Hn Ht Hf Hs. exists (clean flag). split; [by apply config_name_plain|].
  destruct (command_dir_file _ _ _ _ Hf) as [H1 H2]. split; [done|].
  unfold config_path. rewrite H2. by apply resolve_stands.
Qed.

(** Without --config it is the file pkgr.yml in the working directory. *)
Theorem C85_default_file home cwd s q : stands_for cwd s q ->
  exists name, config_name home "" = Some name /\ loaded_file cwd name = (cwd ++ ["pkgr.yml"])%list /\
    config_path cwd name s = q /\ edited_file cwd name = (cwd ++ ["pkgr.yml"])%list.
Proof.
  intros Hs. exists "pkgr.yml". split; [done|].
  assert (stands_for cwd "pkgr.yml" (cwd ++ ["pkgr.yml"])%list) as Hf by (by apply plain_stands).
  destruct (command_dir_file _ _ _ _ Hf) as [H1 H2]. change (clean "pkgr.yml") with "pkgr.yml" in *.
  split; [done|]. unfold config_path, edited_file. rewrite H2. split; by apply resolve_stands.
Qed.

(** The commands add and remove change the file that was read, if its name is an
    absolute path or has no directory. *)
Theorem C85_edited_partial home cwd flag dir f :
  flag <> "" -> no_tilde flag -> stands_for cwd flag (dir ++ [f])%list ->
  (exists r, flag = "/" +:+ r) \/ plain_name flag ->
  exists name, config_name home flag = Some name /\ edited_file cwd name = (dir ++ [f])%list.
Proof.
  intros Hn Ht Hf Ha. exists (clean flag). split; [by apply config_name_plain|].
  destruct (command_dir_file _ _ _ _ Hf) as [H1 H2]. unfold edited_file. rewrite H2, resolve_clean.
  destruct Ha as [[r ->]|Hp].
  - rewrite <- H1. unfold loaded_file. rewrite resolve_clean. unfold resolve. by rewrite has_prefix_app.
  - pose proof (resolve_stands _ _ _ (plain_stands cwd flag Hp)) as E. pose proof (resolve_stands _ _ _ Hf) as E2.
    rewrite E in E2. apply app_inj_tail in E2 as [-> ->]. done.
Qed.

(** But with a relative path that has a directory, another file is meant: pkgr
    remove --config sub/pkgr.yml looks for sub/sub/pkgr.yml. *)
Theorem C85_edited_refuted home cwd sub f :
  sub <> [] -> (forall x, x ∈ (sub ++ [f])%list -> plain_name x) -> no_tilde (join "/" (sub ++ [f])%list) ->
  exists name, config_name home (join "/" (sub ++ [f])%list) = Some name /\
    loaded_file cwd name = (cwd ++ sub ++ [f])%list /\
    edited_file cwd name = (cwd ++ sub ++ sub ++ [f])%list /\ edited_file cwd name <> loaded_file cwd name.
Proof.
  intros Hs Hp Ht. set (flag := join "/" (sub ++ [f])%list) in *.
  assert ((sub ++ [f])%list <> []) as Hn by (by destruct sub).
  assert (stands_for cwd flag ((cwd ++ sub) ++ [f])%list) as Hf.
  { rewrite <- app_assoc. by apply plain_join_stands. }
  assert (flag <> "") as Hne.
  { unfold flag. destruct (sub ++ [f])%list as [|x k]; [done|]. destruct (Hp x) as [H _]; [by left|].
    destruct k; cbn [join]; by destruct x. }
  destruct (command_dir_file _ _ _ _ Hf) as [H1 H2].
  assert (edited_file cwd (clean flag) = (cwd ++ sub ++ sub ++ [f])%list) as He.
  { unfold edited_file. rewrite H2, resolve_clean. unfold flag. rewrite plain_resolve by done. by rewrite <- app_assoc. }
  exists (clean flag). split; [by apply config_name_plain|]. rewrite H1, He. split; [by rewrite <- app_assoc|]. split; [done|].
  intros E. apply (f_equal length) in E. rewrite !app_length in E. destruct sub; [done|]. cbn in E. lia.
Qed.

(** The library of renv is asked for in the directory of the caller. *)
Theorem C85_renv_refuted home cwd sub f :
  sub <> [] -> (forall x, x ∈ (sub ++ [f])%list -> plain_name x) -> no_tilde (join "/" (sub ++ [f])%list) ->
  exists name, config_name home (join "/" (sub ++ [f])%list) = Some name /\
    command_dir cwd name = (cwd ++ sub)%list /\ renv_dir cwd name <> (cwd ++ sub)%list.
Proof.
  intros Hs Hp Ht. set (flag := join "/" (sub ++ [f])%list) in *.
  assert ((sub ++ [f])%list <> []) as Hn by (by destruct sub).
  assert (stands_for cwd flag ((cwd ++ sub) ++ [f])%list) as Hf.
  { rewrite <- app_assoc. by apply plain_join_stands. }
  assert (flag <> "") as Hne.
  { unfold flag. destruct (sub ++ [f])%list as [|x k]; [done|]. destruct (Hp x) as [H _]; [by left|].
    destruct k; cbn [join]; by destruct x. }
  destruct (command_dir_file _ _ _ _ Hf) as [H1 H2].
  exists (clean flag). split; [by apply config_name_plain|]. split; [done|]. unfold renv_dir. intros E.
  apply (f_equal length) in E. rewrite !app_length in E. destruct sub; [done|]. cbn in E. lia.
Qed.

(** The path ~ is expanded after the name was cleaned, so that a file in a
    directory called ~ cannot be named, not even as ./~/pkgr.yml. *)
Theorem C85_tilde_refuted :
  config_name "/home/me" "./~/pkgr.yml" = Some "/home/me/pkgr.yml" /\
  stands_for ["work"] "./~/pkgr.yml" ["work"; "~"; "pkgr.yml"].
Proof.
  split; [done|]. exists ".", ["~"; "pkgr.yml"]. split.
  - apply (pieces_split "./~/pkgr.yml").
  - right. split; [done|]. apply np_skip; [by right|]. apply (np_down ["work"]); [done..|].
    apply (np_down ["work"; "~"]); [done..|]. constructor.
Qed.

Example C85_example :
  config_name "/home/me" "../proj/./sub/pkgr.yml" = Some "../proj/sub/pkgr.yml" /\
  loaded_file ["home"; "me"] "../proj/sub/pkgr.yml" = ["home"; "proj"; "sub"; "pkgr.yml"] /\
  config_path ["home"; "me"] "../proj/sub/pkgr.yml" "lib/../r-lib" = ["home"; "proj"; "sub"; "r-lib"] /\
  config_path ["home"; "me"] "../proj/sub/pkgr.yml" "/opt/lib" = ["opt"; "lib"] /\
  edited_file ["home"; "me"] "../proj/sub/pkgr.yml" = ["home"; "proj"; "proj"; "sub"; "pkgr.yml"] /\
  stands_for ["home"; "me"] "../proj" ["home"; "proj"].
Proof.
  repeat (split; [done|]). exists "..", ["proj"]. split.
  - apply (pieces_split "../proj").
  - right. split; [done|]. apply (np_up ["home"] "me"). apply (np_down ["home"]); [done..|]. constructor.
Qed.

(** ** C86: environment variables in the configuration *)

(** A dollar sign before a word, with or without braces around it, is replaced by
    the value of the variable, nothing else is changed. *)
Theorem C86_expansion env l : readable l -> os_expand env (all_written l) = all_meant env l.
Proof. apply expand_readable. Qed.

(** A variable that is not set stands for the empty text. *)
Theorem C86_unset vars n : vars !! n = None -> is_word n ->
  os_expand (getenv vars) ("$" +:+ n) = "" /\ os_expand (getenv vars) ("${" +:+ n +:+ "}") = "".
Proof.
  intros H Hw. assert (getenv vars n = "") as E by (unfold getenv; by rewrite H).
  pose proof (expand_readable (getenv vars) [Word n]) as H1. cbn [all_written all_meant written meant] in H1.
  rewrite !app_nil_str, E in H1.
  pose proof (expand_readable (getenv vars) [Braced n]) as H2. cbn [all_written all_meant written meant] in H2.
  rewrite !app_nil_str, E in H2. split; [apply H1|apply H2].
  - split; [done|]. split; [done|]. intros c r. done.
  - by split.
Qed.

(** A text without a dollar sign stays as it is. *)
Theorem C86_text env s : all_chars (fun c => c <> "$"%char) s -> os_expand env s = s.
Proof.
  intros H. pose proof (expand_readable env [Text s]) as E. cbn [all_written all_meant written meant] in E.
  rewrite !app_nil_str in E. apply E. by split.
Qed.

Example C86_example :
  let env := getenv {[ "R_EXE_4_3" := "/opt/R/bin/R"; "HOME" := "/home/me" ]} in
  os_expand env "RPath: ${R_EXE_4_3}, Library: $HOME/lib$NONE." = "RPath: /opt/R/bin/R, Library: /home/me/lib." /\
  os_expand env "pa$$word $1x" = "paword x".
Proof. by vm_compute. Qed.

(** ** C87: pkgr run --pkg sets the variables of an installation *)

(** For a package that is customized once or never. *)
Theorem C87_run_partial p cs :
  (forall e, once p (concat cs) e -> run_env p cs = default [] e /\ install_env p cs = default [] e) /\
  ((forall e, (p, e) ∉ concat cs) -> run_env p cs = [] /\ install_env p cs = []).
Proof.
  split; [|apply env_none]. intros e H. split; [by apply run_env_once|by apply install_env_once].
Qed.

(** A package that is listed twice is installed with the variables of the last
    entry and run with those of the first one. *)
Theorem C87_twice_refuted p e1 e2 : e1 <> e2 ->
  exists cs, run_env p cs = e1 /\ install_env p cs = e2 /\ run_env p cs <> install_env p cs.
Proof.
  intros H. exists [[(p, Some e1)]; [(p, Some e2)]].
  assert (run_env p [[(p, Some e1)]; [(p, Some e2)]] = e1) as E1.
  { cbn [run_env assoc]. by rewrite String.eqb_refl. }
  assert (install_env p [[(p, Some e1)]; [(p, Some e2)]] = e2) as E2.
  { unfold install_env, install_envs. cbn [concat app foldl fst snd]. by rewrite lookup_insert. }
  split; [done|]. split; [done|]. by rewrite E1, E2.
Qed.

(** Also when the first entry has no variables. *)
Theorem C87_first_empty_refuted p e : e <> [] ->
  exists cs, run_env p cs = [] /\ install_env p cs = e /\ run_env p cs <> install_env p cs.
Proof.
  intros H. exists [[(p, None)]; [(p, Some e)]].
  assert (run_env p [[(p, None)]; [(p, Some e)]] = []) as E1.
  { cbn [run_env assoc]. by rewrite String.eqb_refl. }
  assert (install_env p [[(p, None)]; [(p, Some e)]] = e) as E2.
  { unfold install_env, install_envs. cbn [concat app foldl fst snd]. by rewrite lookup_insert. }
  split; [done|]. split; [done|]. rewrite E1, E2. by destruct e.
Qed.

Example C87_example :
  let cs := [[("dplyr", Some [("CC", "gcc")]); ("rlang", None)]; [("data.table", Some [("PKG_CFLAGS", "-O2")])]] in
  run_env "data.table" cs = [("PKG_CFLAGS", "-O2")] /\ install_env "data.table" cs = [("PKG_CFLAGS", "-O2")] /\
  run_env "rlang" cs = [] /\ install_env "rlang" cs = [] /\ run_env "R6" cs = [].
Proof. by vm_compute. Qed.

(** ** C88: the arguments of R CMD INSTALL *)

Theorem C88_install_command library file : library <> "" ->
  r_install_args (default_args library) file =
  ["--vanilla"; "CMD"; "INSTALL"; "--build"; "--install-tests"; "--no-multiarch"; "--with-keep.source";
   "--library=" +:+ library; file].
Proof.
  intros H. unfold r_install_args, cli_args, default_args. cbn [ia_library ia_clean ia_preclean ia_debug ia_no_configure
    ia_example ia_fake ia_build ia_install_tests ia_no_multiarch ia_keep_source ia_byte_compile ia_no_test_load
    ia_no_clean_on_error flag]. by destruct (String.eqb_spec library "").
Qed.

(** Each setting that is on gives its argument, nothing else is passed. *)
Theorem C88_settings a x : x ∈ cli_args a <->
  (ia_clean a = true /\ x = "--clean") \/ (ia_preclean a = true /\ x = "--preclean") \/
  (ia_debug a = true /\ x = "--debug") \/ (ia_no_configure a = true /\ x = "--no-configure") \/
  (ia_example a = true /\ x = "--example") \/ (ia_fake a = true /\ x = "--fake") \/
  (ia_build a = true /\ x = "--build") \/ (ia_install_tests a = true /\ x = "--install-tests") \/
  (ia_no_multiarch a = true /\ x = "--no-multiarch") \/ (ia_keep_source a = true /\ x = "--with-keep.source") \/
  (ia_byte_compile a = true /\ x = "--byte-compile") \/ (ia_no_test_load a = true /\ x = "--no-test-load") \/
  (ia_no_clean_on_error a = true /\ x = "--no-clean-on-error") \/
  (ia_library a <> "" /\ x = "--library=" +:+ ia_library a).
Proof.
  unfold cli_args. rewrite !elem_of_app, !flag_in. repeat (apply or_iff_compat_l).
  destruct (String.eqb_spec (ia_library a) "") as [E|E]; [rewrite elem_of_nil|rewrite elem_of_list_singleton]; intuition.
Qed.

(** No argument is passed twice. *)
Theorem C88_no_repetition a : NoDup (cli_args a).
Proof.
  set (lib := "--library=" +:+ ia_library a).
  assert (cli_args a `sublist_of` ["--clean"; "--preclean"; "--debug"; "--no-configure"; "--example"; "--fake"; "--build";
    "--install-tests"; "--no-multiarch"; "--with-keep.source"; "--byte-compile"; "--no-test-load"; "--no-clean-on-error"; lib]) as H.
  { assert (forall b n l k, l `sublist_of` k -> (flag b n ++ l)%list `sublist_of` ("--" +:+ n) :: k) as Hstep.
    { intros [] n l k Hl; cbn; [by apply sublist_skip|by apply sublist_cons]. }
    unfold cli_args. do 13 (apply Hstep).
    destruct (String.eqb (ia_library a) ""); [apply sublist_nil_l|done]. }
  assert (forall l k : list string, l `sublist_of` k -> NoDup k -> NoDup l) as Hsub.
  { induction 1 as [|x l k Hl IH|x l k Hl IH]; [done| |].
    - intros [Hx Hk]%NoDup_cons. apply NoDup_cons. split; [|by apply IH]. intros Hi. apply Hx.
      apply elem_of_list_In. apply elem_of_list_In in Hi. revert Hi. clear -Hl.
      induction Hl as [|y l k Hl IH|y l k Hl IH]; [done| |].
      + intros [->|Hi]; [by left|right; by apply IH].
      + intros Hi. right. by apply IH.
    - intros [_ Hk]%NoDup_cons. by apply IH. }
  apply (Hsub _ _ H). repeat (apply NoDup_cons; split; [rewrite ?elem_of_cons, elem_of_nil; unfold lib; cbn; naive_solver|]).
  apply NoDup_nil_2.
Qed.

Example C88_example : r_install_args (default_args "/srv/lib") "/cache/R6_2.5.1.tar.gz" =
  ["--vanilla"; "CMD"; "INSTALL"; "--build"; "--install-tests"; "--no-multiarch"; "--with-keep.source"; "--library=/srv/lib";
   "/cache/R6_2.5.1.tar.gz"].
Proof. done. Qed.

(** ** C89: the R that is run *)

(** Without RPath it is the R of the PATH. *)
Theorem C89_default os dir : r_program dir (r_path os "") = None /\
  (os <> Windows -> r_path os "" = "R" /\ rscript_path (r_path os "") = "Rscript") /\
  r_path Windows "" = "R.exe" /\ rscript_path (r_path Windows "") = "Rscript.exe".
Proof. destruct os; done. Qed.

(** An absolute path leads to the same program from everywhere, a trailing slash
    does not matter. *)
Theorem C89_absolute_partial os dir l : os <> Windows -> l <> [] -> (forall x, x ∈ l -> plain_name x) ->
  r_program dir (r_path os ("/" +:+ join "/" l)) = Some l /\
  r_program dir (r_path os (("/" +:+ join "/" l) +:+ "/")) = Some l.
Proof.
  intros Ho Hn Hp. destruct (r_path_plain_abs os l Ho Hn Hp) as [-> ->]. unfold r_program.
  rewrite contains_slash_abs. rewrite (resolve_stands dir _ l); [done|]. by apply plain_abs_stands.
Qed.

(** Rscript is the program beside R. *)
Theorem C89_rscript_partial d :
  rscript_path (d +:+ "/R") = d +:+ "/Rscript" /\ rscript_path (d +:+ "/R.exe") = d +:+ "/Rscript.exe".
Proof.
  split; unfold rscript_path.
  - destruct (has_suffix ".exe" (d +:+ "/R")) eqn:E.
    + exfalso. unfold has_suffix in E. apply has_prefix_true in E as [r E].
      rewrite string_rev_app_rev in E. done.
    + by rewrite app_assoc_str.
  - replace (d +:+ "/R.exe") with ((d +:+ "/R") +:+ ".exe") by (by rewrite app_assoc_str).
    destruct (trim_suffix_self (d +:+ "/R") ".exe") as [-> ->]. by rewrite app_assoc_str.
Qed.

(** An R of another name, say R-devel, has no Rscript beside it for pkgr. *)
Theorem C89_name_refuted d n : n <> "R" ->
  (forall a, d +:+ "/" +:+ n <> a +:+ ".exe") ->
  rscript_path (d +:+ "/" +:+ n) = (d +:+ "/" +:+ n) +:+ "script" /\ rscript_path (d +:+ "/" +:+ n) <> d +:+ "/Rscript".
Proof.
  intros Hn Hs. unfold rscript_path. destruct (has_suffix ".exe" (d +:+ "/" +:+ n)) eqn:E.
  - exfalso. unfold has_suffix in E. apply has_prefix_true in E as [r E].
    apply (Hs (string_rev r "")). rewrite <- (string_rev_twice (d +:+ "/" +:+ n)), E. by rewrite string_rev_app_rev.
  - split; [done|]. rewrite app_assoc_str. intros H. apply app_inj_str in H. cbn in H. injection H as H.
    change "Rscript" with ("R" +:+ "script") in H. by apply app_inj_end in H.
Qed.

(** A relative path leads to different programs, from the directory of the
    configuration and from the directory in which packages are installed. *)
Theorem C89_relative_refuted os d1 d2 x y l : os <> Windows -> (forall z, z ∈ x :: y :: l -> plain_name z) -> d1 <> d2 ->
  r_program d1 (r_path os (join "/" (x :: y :: l))) = Some (d1 ++ x :: y :: l)%list /\
  r_program d1 (r_path os (join "/" (x :: y :: l))) <> r_program d2 (r_path os (join "/" (x :: y :: l))).
Proof.
  intros Ho Hp Hd. destruct (r_path_plain os (x :: y :: l) Ho) as [-> _]; [done..|]. unfold r_program.
  rewrite contains_slash_join. rewrite !plain_resolve by done. split; [done|]. intros [= H].
  by apply app_inv_tail in H.
Qed.

(** The R beside the configuration file, ./R, is looked for on the PATH. *)
Theorem C89_dot_refuted os dir f : os <> Windows -> plain_name f ->
  r_program dir (r_path os ("./" +:+ f)) = None /\ stands_for dir ("./" +:+ f) (dir ++ [f])%list.
Proof.
  intros Ho Hf. pose proof Hf as (H1 & H2 & H3 & H4). split.
  - unfold r_path. rewrite bool_decide_eq_false_2 by done. cbv zeta. cbn [andb].
    change (String.eqb ("./" +:+ f) "") with false. cbv iota.
    assert (split_slash ("./" +:+ f) = ["."; f]) as E.
    { change ("./" +:+ f) with (join "/" ["."; f]). rewrite split_slash_on. apply (split_join "/"); [done|].
      intros y. rewrite !elem_of_cons, elem_of_nil. intros [-> |[-> |[]]]; done. }
    rewrite trim_slash_plain; [|done|].
    + rewrite clean_dot_plain by done. unfold r_program. by rewrite contains_slash_plain.
    + intros k. rewrite E. intros Hk. change ["."; f] with (["."] ++ [f])%list in Hk.
      apply app_inj_tail in Hk as [_ Hk]. done.
  - exists ".", [f]. split.
    + split; [done|]. split; [done|]. intros y. rewrite !elem_of_cons, elem_of_nil. intros [-> |[-> |[]]] a b.
      * destruct a as [|c a]; [done|]. intros E. injection E as _ E. by destruct a.
      * intros E. pose proof (contains_slash_plain f Hf) as Hc. by apply (proj1 (contains_false _ _) Hc a b).
    + right. split; [done|]. apply np_skip; [by right|]. apply np_down; [done..|]. constructor.
Qed.

(** With a lock file instead of a library, the tilde of RPath is not expanded when
    R is asked for its version. *)
Theorem C89_tilde_refuted :
  version_program Linux "/home/me" ["work"] "~/R/bin/R" false = Some ["work"; "~"; "R"; "bin"; "R"] /\
  version_program Linux "/home/me" ["work"] "~/R/bin/R" true = Some ["home"; "me"; "R"; "bin"; "R"].
Proof. by vm_compute. Qed.

Example C89_example :
  r_path Linux "/opt/R/4.2.3/bin/R/" = "/opt/R/4.2.3/bin/R" /\ rscript_path "/opt/R/4.2.3/bin/R" = "/opt/R/4.2.3/bin/Rscript" /\
  r_program ["tmp"] "/opt/R/4.2.3/bin/R" = Some ["opt"; "R"; "4.2.3"; "bin"; "R"] /\
  r_path Windows "C:/R/bin/R" = "C:/R/bin/R.exe" /\ rscript_path "C:/R/bin/R.exe" = "C:/R/bin/Rscript.exe" /\
  rscript_path "/usr/bin/R-devel" = "/usr/bin/R-develscript".
Proof. by vm_compute. Qed.

Print Assumptions C85_relative_partial.
Print Assumptions C85_default_file.
Print Assumptions C85_edited_partial.
Print Assumptions C85_edited_refuted.
Print Assumptions C85_renv_refuted.
Print Assumptions C85_tilde_refuted.
Print Assumptions C86_expansion.
Print Assumptions C86_unset.
Print Assumptions C86_text.
Print Assumptions C87_run_partial.
Print Assumptions C87_twice_refuted.
Print Assumptions C87_first_empty_refuted.
Print Assumptions C88_install_command.
Print Assumptions C88_settings.
Print Assumptions C88_no_repetition.
Print Assumptions C89_default.
Print Assumptions C89_absolute_partial.
Print Assumptions C89_rscript_partial.
Print Assumptions C89_name_refuted.
Print Assumptions C89_relative_refuted.
Print Assumptions C89_dot_refuted.
Print Assumptions C89_tilde_refuted.
