(** C128 and C129: settings from the command line, the environment and the file; paths with
    a tilde. *)
From stdpp Require Import strings list gmap.
From Coq Require Import Ascii ZArith Lia.
From Verif.model Require Import GoStr Graph Fs Config Start Rollback Flags.
From Verif.spec Require Import StrSpec LibSpec ExtractSpec ConfigSpec StartSpec FlagSpec.
From Verif.proofs Require Import GoStrLemmas FsProofs RollbackProofs RunProofs RunLink ExampleWorlds RunProps2 ConfigProofs StartProofs FlagProofs.
From Verif.props Require Import P_Library.

Local Open Scope string_scope.

(** ** C128 *)
Theorem C128_settings : forall cpus a v f, let s := init_settings cpus a v f in
  exists rpath library,
    variable (va_rpath v) rpath /\ variable (va_library v) library /\
    first_given (fl_no_rollback a) None (fi_no_rollback f) false (se_no_rollback s) /\
    first_given (fl_no_secure a) None (fi_no_secure f) false (se_no_secure s) /\
    first_given (fl_strict a) None (fi_strict f) false (se_strict s) /\
    first_given (fl_library a) library (fi_library f) "" (se_library s) /\
    first_given None rpath (fi_rpath f) "R" (se_rpath s) /\
    first_given (fl_threads a) None (fi_threads f) cpus (se_threads s) /\
    (fl_update a = false -> first_given (fl_no_update a) None (fi_no_update f) false (se_no_update s)) /\
    (fl_update a = true -> se_no_update s = false).
Proof.
  intros cpus a v f s. exists (env_value (va_rpath v)), (env_value (va_library v)).
  split; [apply env_variable|]. split; [apply env_variable|]. unfold s, init_settings.
  destruct (fl_update a); cbn [unmarshal se_no_update se_no_rollback se_no_secure se_strict se_library se_rpath se_threads];
    do 6 (split; [apply setting_first|]); (split; [|done]); [done|]. intros _. apply setting_first.
Qed.
Print Assumptions C128_settings.

(** With --no-update on the command line packages of the library stay as they are, whatever
    the file says. *)
Theorem C128_no_update : forall cpus a v k lib i sc w f f' p,
  let c := run_conf lib (init_settings cpus a v k) in
  fl_no_update a = Some true -> fl_update a = false ->
  run_ok c i f -> world_ok c i sc w f ->
  ip_create_library (ri_plan i) = false -> r_name p -> is_Some (ri_preinstalled i !! p) -> p ∉ ri_additional i ->
  interrupted (Rollback.rc_library c) sc (required i) (ri_additional i) (run_changes (r_install c i w f)) f f' ->
  same_dir (Rollback.rc_library c) p f' p f.
Proof.
  intros cpus a v k lib i sc w f f' p c Hn Hu H1 H2 H3 H4 H5 H6 H7.
  apply (C38_no_update c i sc w f f' p H1 H2 H3); try done.
  unfold c, run_conf, init_settings. rewrite Hu. cbn. by rewrite Hn.
Qed.
Print Assumptions C128_no_update.

(** With --strict on the command line no library is created, whatever the file says. *)
Theorem C128_strict : forall cpus a v k lib i w f,
  let c := run_conf lib (init_settings cpus a v k) in
  fl_strict a = Some true -> run_ok c i f -> f lib <> Some Dir ->
  run_changes (r_install c i w f) = [] /\ rt_outcome (r_install c i w f) = Fatal.
Proof.
  intros cpus a v k lib i w f c Hs H1 H2. apply C39_strict; [done| |done].
  unfold c, run_conf, init_settings. destruct (fl_update a); cbn; by rewrite Hs.
Qed.
Print Assumptions C128_strict.

Definition ex_flags : flags := {| fl_no_update := Some true; fl_update := false; fl_no_rollback := None; fl_no_secure := None;
  fl_strict := Some false; fl_library := None; fl_threads := Some 3%Z |}.
Definition ex_keys : file_keys := {| fi_no_update := Some false; fi_no_rollback := Some true; fi_no_secure := None; fi_strict := Some true;
  fi_library := Some "lib"; fi_rpath := Some "/opt/R"; fi_threads := Some 5%Z |}.

Example C128_example :
  init_settings 8 ex_flags {| va_rpath := Some ""; va_library := Some "/env/lib" |} ex_keys =
  {| se_no_update := true; se_no_rollback := true; se_no_secure := false; se_strict := false; se_library := "/env/lib";
     se_rpath := "/opt/R"; se_threads := 3 |} /\
  let c := run_conf L (init_settings 8 ex_flags {| va_rpath := None; va_library := None |} ex_keys) in
  let i := ex_run ex_files ex_dirs [] in let f := fs_of ex_files in
  run_ok c i f /\ world_ok c i nowhere fails f /\ ip_create_library (ri_plan i) = false /\
  is_Some (ri_preinstalled i !! "core") /\
  run_final c i fails f (L ++ ["core"; "DESCRIPTION"])%list = Some (File "core 2.0").
Proof.
  split; [done|]. intros c i f. change c with (ex_conf true true). split; [apply ex_run_ok; vm_compute; reflexivity|].
  split; [apply install_core_ok; vm_compute; tauto|].
  split; [vm_compute; reflexivity|]. split; [eexists; vm_compute; reflexivity|]. vm_compute. reflexivity.
Qed.

(** ** C129 *)

(** One path. *)
Theorem C129_place : forall home H dir s q, (exists t, home = "/" +:+ t) -> stands_for [] home H -> user_place H dir s q ->
  exists x, expand_tilde home s = Some x /\ Start.resolve dir x = q.
Proof. exact expand_place. Qed.
Print Assumptions C129_place.

(** All paths of the configuration; those without a tilde, in particular the addresses of
    repositories, stay as they are. *)
Theorem C129_paths : forall home H dir p p', (exists t, home = "/" +:+ t) -> stands_for [] home H ->
  let meant s x := ((forall r, s <> "~" +:+ r) -> x = s) /\ (forall q, user_place H dir s q -> Start.resolve dir x = q) in
  expand_paths home p = Some p' ->
  meant (pk_library p) (pk_library p') /\ meant (pk_rpath p) (pk_rpath p') /\
  meant (pk_log_all p) (pk_log_all p') /\ meant (pk_log_install p) (pk_log_install p') /\ meant (pk_cache p) (pk_cache p') /\
  Forall2 meant (pk_tarballs p) (pk_tarballs p') /\ Forall2 meant (pk_descriptions p) (pk_descriptions p') /\
  Forall2 (Forall2 (fun kv ku => ku.1 = kv.1 /\ meant kv.2 ku.2)) (pk_repos p) (pk_repos p') /\
  pk_lib_paths p' = pk_lib_paths p.
Proof.
  intros home H dir p p' Hh HH meant E.
  assert (forall s x, expand_tilde home s = Some x -> meant s x) as K.
  { intros s x Hx. split.
    - intros Hs. rewrite expand_other in Hx by done. congruence.
    - intros q Hq. destruct (expand_place home H dir s q Hh HH Hq) as (y & Hy & Hr). congruence. }
  unfold expand_paths in E.
  destruct (expand_tilde home (pk_library p)) as [l|] eqn:E1; [|done].
  destruct (expand_tilde home (pk_rpath p)) as [r|] eqn:E2; [|done].
  destruct (expand_tildes home (pk_tarballs p)) as [t|] eqn:E3; [|done].
  destruct (expand_tildes home (pk_descriptions p)) as [d|] eqn:E4; [|done].
  destruct (expand_tildes_repos home (pk_repos p)) as [u|] eqn:E5; [|done].
  destruct (expand_tilde home (pk_log_all p)) as [a|] eqn:E6; [|done].
  destruct (expand_tilde home (pk_log_install p)) as [i|] eqn:E7; [|done].
  destruct (expand_tilde home (pk_cache p)) as [c|] eqn:E8; [|done].
  injection E as <-. cbn. do 5 (split; [by apply K|]).
  split; [apply expand_tildes_spec in E3; eapply Forall2_impl; [exact E3|exact K]|].
  split; [apply expand_tildes_spec in E4; eapply Forall2_impl; [exact E4|exact K]|]. split; [|done].
  apply expand_repos_spec in E5. eapply Forall2_impl; [exact E5|]. intros m m' Hm. eapply Forall2_impl; [exact Hm|].
  intros kv ku [G1 G2]. split; [done|by apply K].
Qed.
Print Assumptions C129_paths.

(** The command ends with an error exactly when a path names the home of somebody else. *)
Theorem C129_error : forall home p, expand_paths home p = None <->
  other_home (pk_library p) \/ other_home (pk_rpath p) \/ other_home (pk_log_all p) \/ other_home (pk_log_install p) \/
  other_home (pk_cache p) \/ (exists s, s ∈ pk_tarballs p /\ other_home s) \/ (exists s, s ∈ pk_descriptions p /\ other_home s) \/
  (exists m kv, m ∈ pk_repos p /\ kv ∈ m /\ other_home kv.2).
Proof.
  intros home p. rewrite <- !(expand_none home), <- !(expand_tildes_none home), <- (expand_repos_none home). unfold expand_paths.
  destruct (expand_tilde home (pk_library p)) as [l|]; [|by split; [left|]].
  destruct (expand_tilde home (pk_rpath p)) as [r|]; [|split; [by right; left|done]].
  destruct (expand_tildes home (pk_tarballs p)) as [t|]; [|split; [by do 5 right; left|done]].
  destruct (expand_tildes home (pk_descriptions p)) as [d|]; [|split; [by do 6 right; left|done]].
  destruct (expand_tildes_repos home (pk_repos p)) as [u|]; [|split; [by do 7 right|done]].
  destruct (expand_tilde home (pk_log_all p)) as [a|]; [|split; [by do 2 right; left|done]].
  destruct (expand_tilde home (pk_log_install p)) as [i|]; [|split; [by do 3 right; left|done]].
  destruct (expand_tilde home (pk_cache p)) as [c|]; [|split; [by do 4 right; left|done]].
  split; [done|]. intros G. repeat (destruct G as [G|G]; [done|]). done.
Qed.
Print Assumptions C129_error.

Definition ex_paths : path_keys := {| pk_library := "~/r/../lib"; pk_rpath := "R"; pk_tarballs := ["~/t.tar.gz"; "u.tar.gz"];
  pk_descriptions := []; pk_repos := [[("A", "https://a.org/~b")]; [("L", "~")]]; pk_log_all := ""; pk_log_install := "/l";
  pk_cache := "./~"; pk_lib_paths := ["~/x"] |}.

Example C129_example :
  expand_paths "/home/me" ex_paths = Some {| pk_library := "/home/me/lib"; pk_rpath := "R";
    pk_tarballs := ["/home/me/t.tar.gz"; "u.tar.gz"]; pk_descriptions := []; pk_repos := [[("A", "https://a.org/~b")]; [("L", "/home/me")]];
    pk_log_all := ""; pk_log_install := "/l"; pk_cache := "./~"; pk_lib_paths := ["~/x"] |} /\
  user_place ["home"; "me"] ["work"] "~/r/../lib" ["home"; "me"; "lib"] /\ other_home "~you/lib".
Proof.
  split; [vm_compute; reflexivity|]. split.
  - apply (up_below _ _ "r/../lib" ["r"; ".."; "lib"]).
    + apply (pieces_split "r/../lib").
    + apply np_down; [done|done|done|]. apply np_up. apply np_down; [done|done|done|]. apply np_nil.
  - by exists "y"%char, "ou/lib".
Qed.
