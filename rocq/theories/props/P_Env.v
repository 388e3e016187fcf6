(** C54 to C57, C75, C76: the environment given to R. *)
From stdpp Require Import strings list sets gmap.
From Coq Require Import Ascii.
From Verif.model Require Import GoStr Env.
From Verif.spec Require Import StrSpec EnvSpec.
From Verif.proofs Require Import GoStrLemmas EnvProofs.

Local Open Scope string_scope.

(** C54.  In full: for all library paths, R_LIBS_USER is the fresh directory and
    R_LIBS_SITE the paths joined by colons.  Missing: paths containing an equals
    sign (refuted below) or padded with blanks. *)
Theorem C54_library_paths_partial : forall sys rs tmpdir, unpadded tmpdir ->
  e_libs rs <> [] -> e_libs rs <> [""] ->
  without "=" (join ":" (e_libs rs)) -> unpadded (join ":" (e_libs rs)) ->
  env_value (configure_env sys rs tmpdir) "R_LIBS_USER" tmpdir /\
  env_value (configure_env sys rs tmpdir) "R_LIBS_SITE" (join ":" (e_libs rs)).
Proof. intros sys rs tmpdir H1 H2 H3 H4 H5. split; [by apply libs_user|by apply libs_site]. Qed.
Print Assumptions C54_library_paths_partial.

(** Without library paths the caller's R_LIBS_SITE is still not used. *)
Theorem C54_not_inherited : forall sys rs tmpdir w, plain_environment sys ->
  (forall p, p ∈ e_global rs -> var_name (n_name p) /\ n_name p <> "R_LIBS_SITE") ->
  (forall kv, kv ∈ e_package rs -> var_name kv.1 /\ kv.1 <> "R_LIBS_SITE") ->
  e_libs rs = [] -> ~ ("R_LIBS_SITE=" +:+ w) ∈ configure_env sys rs tmpdir.
Proof.
  intros sys rs tmpdir w H1 H2 H3 H4 H.
  destruct (libs_not_inherited sys rs tmpdir "R_LIBS_SITE" w) as (p & Hp & Hn & _); [by right|done|done|done|done|].
  unfold libs_part in Hp. rewrite H4 in Hp. apply elem_of_list_singleton in Hp. by subst p.
Qed.
Print Assumptions C54_not_inherited.

Definition ex_sys : list string :=
  ["HOME=/home/u"; "R_LIBS_SITE=/usr/site"; "R_LIBS_USER=/home/u/R"; "PATH=/usr/bin"; "GITHUB_PAT=s3cret"; "FOO=caller"; "BAR=b"].
Definition ex_settings : env_settings :=
  {| e_global := [{| n_name := "FOO"; n_value := "global" |}]; e_package := [("FOO", "custom")];
     e_rpath := "/opt/R/bin/R"; e_libs := ["/proj/lib"; "/opt/lib"] |}.

Example C54_example : configure_env ex_sys ex_settings "/tmp/xyz" =
  ["FOO=global"; "FOO=custom"; "HOME=/home/u"; "PATH=/opt/R/bin:/usr/bin"; "GITHUB_PAT=**HIDDEN**"; "BAR=b";
   "R_LIBS_USER=/tmp/xyz"; "R_LIBS_SITE=/proj/lib:/opt/lib"].
Proof. reflexivity. Qed.

(** A library path with an equals sign: R_LIBS_SITE is not set at all. *)
Theorem C54_equals_sign_refuted : exists sys rs tmpdir, unpadded tmpdir /\ e_libs rs <> [] /\ e_libs rs <> [""] /\
  unpadded (join ":" (e_libs rs)) /\ forall w, ~ ("R_LIBS_SITE=" +:+ w) ∈ configure_env sys rs tmpdir.
Proof.
  exists [], {| e_global := []; e_package := []; e_rpath := "R"; e_libs := ["/data/run=1/lib"] |}, "/tmp/xyz".
  split; [by apply unpadded_dec_ok|]. split; [done|]. split; [done|]. split; [by apply unpadded_dec_ok|].
  intros w H. cbn in H. apply elem_of_list_singleton in H. discriminate H.
Qed.
Print Assumptions C54_equals_sign_refuted.

(** C55.  In full: whatever the caller's environment is.  Missing: callers with a
    variable whose name is padded with blanks, refuted below. *)
Theorem C55_package_wins_partial : forall sys rs tmpdir k v, plain_environment sys ->
  (forall kv, kv ∈ e_package rs -> var_name kv.1) -> NoDup (map fst (e_package rs)) ->
  (k, v) ∈ e_package rs -> k <> "R_LIBS_USER" -> k <> "R_LIBS_SITE" -> unpadded v ->
  env_value (configure_env sys rs tmpdir) k v.
Proof. exact package_wins. Qed.
Print Assumptions C55_package_wins_partial.

Example C55_example : plain_environment ex_sys /\ ("FOO", "custom") ∈ e_package ex_settings /\
  env_value (configure_env ex_sys ex_settings "/tmp/xyz") "FOO" "custom".
Proof.
  split; [by apply plain_check|]. split; [by left|].
  apply package_wins; try done.
  - by apply plain_check.
  - intros kv H. apply elem_of_list_singleton in H as ->. split; [by apply unpadded_dec_ok|done].
  - apply NoDup_singleton.
  - by left.
  - by apply unpadded_dec_ok.
Qed.

Theorem C55_padded_name_refuted : exists sys rs tmpdir k v, (k, v) ∈ e_package rs /\ var_name k /\ unpadded v /\
  NoDup (map fst (e_package rs)) /\ k <> "R_LIBS_USER" /\ k <> "R_LIBS_SITE" /\
  ~ env_value (configure_env sys rs tmpdir) k v.
Proof.
  exists [" FOO=caller"], ex_settings, "/tmp/xyz", "FOO", "custom".
  split; [by left|]. split; [by split; [apply unpadded_dec_ok|]|]. split; [by apply unpadded_dec_ok|].
  split; [apply NoDup_singleton|]. split; [done|]. split; [done|].
  intros (a & b & H & Hb).
  change (configure_env [" FOO=caller"] ex_settings "/tmp/xyz") with
    ["FOO=global"; "FOO=custom"; "FOO=caller"; "R_LIBS_USER=/tmp/xyz"; "R_LIBS_SITE=/proj/lib:/opt/lib"] in H.
  destruct a as [|a0 [|a1 [|a2 [|a3 [|a4 a]]]]]; try discriminate H.
  - injection H as _ <-. apply (Hb "caller"). by left.
  - exfalso. injection H as _ _ _ _ _ H. by destruct a.
Qed.
Print Assumptions C55_padded_name_refuted.

(** C56.  In full: for all callers.  Missing: padded names, refuted below. *)
Theorem C56_secrets_partial : forall sys rs tmpdir name w, plain_environment sys -> var_name name ->
  sensitive name ->
  (forall p, p ∈ e_global rs -> var_name (n_name p) /\ n_name p <> name) ->
  (forall kv, kv ∈ e_package rs -> var_name kv.1 /\ kv.1 <> name) ->
  (name +:+ "=" +:+ w) ∈ configure_env sys rs tmpdir -> w = "**HIDDEN**".
Proof. intros sys rs tmpdir name w H1 H2 H3. apply sensitive_censored in H3. by apply secret_hidden. Qed.
Print Assumptions C56_secrets_partial.

Example C56_example : sensitive "github_pat" /\
  "GITHUB_PAT=**HIDDEN**" ∈ configure_env ex_sys ex_settings "/tmp/xyz".
Proof. split; [by right; left|]. change (configure_env ex_sys ex_settings "/tmp/xyz") with
  ["FOO=global"; "FOO=custom"; "HOME=/home/u"; "PATH=/opt/R/bin:/usr/bin"; "GITHUB_PAT=**HIDDEN**"; "BAR=b";
   "R_LIBS_USER=/tmp/xyz"; "R_LIBS_SITE=/proj/lib:/opt/lib"]. set_solver. Qed.

Theorem C56_padded_name_refuted : exists sys rs tmpdir,
  " GITHUB_PAT=s3cret" ∈ sys /\ e_global rs = [] /\ e_package rs = [] /\
  env_value (configure_env sys rs tmpdir) "GITHUB_PAT" "s3cret".
Proof.
  exists [" GITHUB_PAT=s3cret"], {| e_global := []; e_package := []; e_rpath := "R"; e_libs := ["/l"] |}, "/tmp/x".
  split; [by left|]. split; [done|]. split; [done|].
  exists [], ["R_LIBS_USER=/tmp/x"; "R_LIBS_SITE=/l"]. split; [reflexivity|].
  intros w H. apply elem_of_cons in H as [H|H]; [discriminate H|].
  apply elem_of_list_singleton in H. discriminate H.
Qed.
Print Assumptions C56_padded_name_refuted.

(** The name the AWS tools use for the secret is not in the list. *)
Example C56_aws : ~ sensitive "AWS_SECRET_ACCESS_KEY".
Proof. unfold sensitive. intros H. repeat destruct H as [H|H]; discriminate H. Qed.

(** C57.  In full: for all lists.  Missing: lists with repeated names. *)
Theorem C57_append_partial : forall l name value, unpadded name -> unpadded value -> ~ name ∈ map n_name l ->
  nvp_get (nvp_append l name value) name = Some value /\
  (forall other, other <> name -> nvp_get (nvp_append l name value) other = nvp_get l other) /\
  exists p, nvp_append l name value = (l ++ [p])%list.
Proof.
  intros l name value H1 H2 H3. split; [apply append_get; by try apply unpadded_trim|]. split.
  - intros other Ho. apply append_get_other. by rewrite unpadded_trim.
  - by eexists.
Qed.
Print Assumptions C57_append_partial.

Theorem C57_update_partial : forall l name value, NoDup (map n_name l) -> name ∈ map n_name l ->
  exists l', nvp_update l name value = Some l' /\ nvp_get l' name = Some value /\
    (forall other, other <> name -> nvp_get l' other = nvp_get l other) /\ map n_name l' = map n_name l.
Proof.
  intros l name value H1 H2. destruct (nvp_update l name value) as [l'|] eqn:E.
  - exists l'. split; [done|]. split; [by eapply update_get|]. split; [|by eapply update_names].
    intros other Ho. by eapply update_get_other.
  - by apply update_none in E.
Qed.
Print Assumptions C57_update_partial.

Theorem C57_remove_partial : forall l name, NoDup (map n_name l) ->
  nvp_get (nvp_remove l name) name = None /\
  nvp_remove l name = List.filter (fun p => negb (String.eqb name (n_name p))) l.
Proof. intros l name H. split; [by apply remove_get|by apply remove_filter]. Qed.
Print Assumptions C57_remove_partial.

Definition ex_pair (n v : string) : nvp := {| n_name := n; n_value := v |}.

Example C57_example :
  nvp_update [ex_pair "a" "1"; ex_pair "b" "2"] "a" "3" = Some [ex_pair "a" "3"; ex_pair "b" "2"] /\
  nvp_remove [ex_pair "a" "1"; ex_pair "b" "2"] "a" = [ex_pair "b" "2"].
Proof. done. Qed.

(** With repeated names, updating changes an entry that is not read, removing
    leaves the other one, and appending is not seen. *)
Theorem C57_repeated_names_refuted : exists l name value,
  (exists l', nvp_update l name value = Some l' /\ nvp_get l' name <> Some value) /\
  nvp_get (nvp_remove l name) name <> None /\ nvp_get (nvp_append l name value) name <> Some value.
Proof.
  exists [ex_pair "a" "1"; ex_pair "a" "2"], "a", "3". split; [|done].
  exists [ex_pair "a" "1"; ex_pair "a" "3"]. done.
Qed.
Print Assumptions C57_repeated_names_refuted.

(** C75: the caller's R_LIBS, which R puts in front of the other two, is passed on. *)
Theorem C75_caller_r_libs_refuted : exists sys rs tmpdir, plain_environment sys /\ e_global rs = [] /\ e_package rs = [] /\
  e_libs rs = ["/proj/lib"] /\ env_value (configure_env sys rs tmpdir) "R_LIBS" "/home/u/other".
Proof.
  exists ["R_LIBS=/home/u/other"], {| e_global := []; e_package := []; e_rpath := "R"; e_libs := ["/proj/lib"] |}, "/tmp/x".
  split; [by apply plain_check|]. split; [done|]. split; [done|]. split; [done|].
  exists [], ["R_LIBS_USER=/tmp/x"; "R_LIBS_SITE=/proj/lib"]. split; [reflexivity|].
  intros w H. apply elem_of_cons in H as [H|H]; [discriminate H|].
  apply elem_of_list_singleton in H. discriminate H.
Qed.
Print Assumptions C75_caller_r_libs_refuted.

(** R_LIBS reaches R only from the caller or the settings.  Missing: callers that
    have the variable, for which it is false. *)
Theorem C75_r_libs_partial : forall sys rs tmpdir w, plain_environment sys ->
  (forall v, ~ ("R_LIBS=" +:+ v) ∈ sys) ->
  (forall p, p ∈ e_global rs -> var_name (n_name p) /\ n_name p <> "R_LIBS") ->
  (forall kv, kv ∈ e_package rs -> var_name kv.1 /\ kv.1 <> "R_LIBS") ->
  ~ ("R_LIBS=" +:+ w) ∈ configure_env sys rs tmpdir.
Proof.
  intros sys rs tmpdir w H1 H2 H3 H4 H.
  destruct (only_system sys rs tmpdir "R_LIBS" w) as (v & Hv & _); try done; [|by apply (H2 v)].
  split; [by apply unpadded_dec_ok|done].
Qed.
Print Assumptions C75_r_libs_partial.

Example C75_example : forall v, ~ ("R_LIBS=" +:+ v) ∈ ex_sys.
Proof. intros v H. unfold ex_sys in H. set_unfold. naive_solver. Qed.

(** C76.  In full: for all other variables.  Missing: empty and padded values. *)
Theorem C76_passed_on_partial : forall sys rs tmpdir name v, plain_environment sys -> var_name name ->
  name <> "R_LIBS_USER" -> name <> "R_LIBS_SITE" -> name <> "PATH" -> ~ sensitive name ->
  (forall p, p ∈ e_global rs -> var_name (n_name p) /\ n_name p <> name) ->
  (forall kv, kv ∈ e_package rs -> var_name kv.1 /\ kv.1 <> name) ->
  caller_has sys name v -> (forall u, (name +:+ "=" +:+ u) ∈ sys -> u = v) -> v <> "" -> unpadded v ->
  env_value (configure_env sys rs tmpdir) name v.
Proof.
  intros sys rs tmpdir name v H1 H2 H3 H4 H5 H6. rewrite sensitive_censored in H6. by apply passed_through.
Qed.
Print Assumptions C76_passed_on_partial.

Example C76_example : caller_has ex_sys "BAR" "b" /\ "BAR=b" ∈ configure_env ex_sys ex_settings "/tmp/xyz".
Proof.
  split.
  - exists ["HOME=/home/u"; "R_LIBS_SITE=/usr/site"; "R_LIBS_USER=/home/u/R"; "PATH=/usr/bin"; "GITHUB_PAT=s3cret"; "FOO=caller"], [].
    split; [done|]. intros w H. repeat (apply elem_of_cons in H as [H|H]; [discriminate H|]). by apply elem_of_nil in H.
  - change (configure_env ex_sys ex_settings "/tmp/xyz") with
  ["FOO=global"; "FOO=custom"; "HOME=/home/u"; "PATH=/opt/R/bin:/usr/bin"; "GITHUB_PAT=**HIDDEN**"; "BAR=b";
   "R_LIBS_USER=/tmp/xyz"; "R_LIBS_SITE=/proj/lib:/opt/lib"]. set_solver.
Qed.

(** A variable set to the empty string is unset for R. *)
Theorem C76_empty_value_refuted : exists sys rs tmpdir name, plain_environment sys /\ e_global rs = [] /\ e_package rs = [] /\
  caller_has sys name "" /\ forall w, ~ (name +:+ "=" +:+ w) ∈ configure_env sys rs tmpdir.
Proof.
  exists ["MAKEFLAGS="], {| e_global := []; e_package := []; e_rpath := "R"; e_libs := ["/l"] |}, "/tmp/x", "MAKEFLAGS".
  split; [by apply plain_check|]. split; [done|]. split; [done|]. split.
  - exists [], []. split; [done|]. intros w H. by apply elem_of_nil in H.
  - intros w H. cbn in H. apply elem_of_cons in H as [H|H]; [discriminate H|].
    apply elem_of_list_singleton in H. discriminate H.
Qed.
Print Assumptions C76_empty_value_refuted.
