(** C132: what every process of R is given.  C133: how often R is asked for its version. *)
From stdpp Require Import strings list gmap.
From Coq Require Import Ascii ZArith Lia.
From Verif.model Require Import GoStr Fs Env RepoDb Install Download Urls Yml Config Start Calls.
From Verif.spec Require Import StrSpec EnvSpec CallsSpec.
From Verif.proofs Require Import GoStrLemmas EnvProofs StartProofs CallsProofs.

Local Open Scope string_scope.

Definition ex_own : own :=
  {| ow_env := ["HOME=/home/u"; "R_LIBS_SITE=/opt/site"; "R_LIBS_USER=/home/u/R"; "GITHUB_PAT=s3cret"]; ow_dir := ["proj"]; ow_os := Linux |}.

Definition ex_r_config : r_config :=
  {| cf_rpath := "/opt/R/bin/R"; cf_library := "lib"; cf_customs := [[("curl", Some [("CFLAGS", "-O0")])]; [("xml2", None)]] |}.

(** ** C132: arguments

    Start-up files and saved data are left aside by all processes but those that ask for
    the version, for the library of renv, and those of load. *)

Theorem C132_arguments o tmp c library u :
  vanilla (pr_args (process_of o tmp c library u)) <->
  ~ is_load u /\ u <> UVersion /\ u <> URenv.
Proof.
  split.
  - intros [r H]. destruct u as [| |p|x|p s t d|p s d|p s|p s d|x d]; try discriminate H; (split; [intros (y & e & [=])|done]).
  - intros (H1 & H2 & H3). destruct u as [| |p|x|p s t d|p s d|p s|p s d|x d]; try done; try (by eexists).
    destruct H1. by exists x, d.
Qed.

Example C132_arguments_example :
  pr_args (process_of ex_own "/tmp/a" ex_r_config "/proj/lib" (UCached "curl" "/c/curl.tgz"))
    = ["--vanilla"; "CMD"; "INSTALL"; "--install-tests"; "--no-multiarch"; "--with-keep.source"; "--library=/proj/lib"; "/c/curl.tgz"] /\
  pr_args (process_of ex_own "/tmp/a" ex_r_config "/proj/lib" (UBuilt "curl" "/tmp/b/curl.tgz" ["tmp"; "b"]))
    = ["--vanilla"; "CMD"; "INSTALL"; "--library=/proj/lib"; "/tmp/b/curl.tgz"] /\
  pr_program (process_of ex_own "/tmp/a" ex_r_config "/proj/lib" URenv) = "/opt/R/bin/Rscript".
Proof. vm_compute. done. Qed.

(** ** C132: directories

    A process that is not told where to run runs in the directory of the configuration
    file. *)

Theorem C132_directories o tmp c library u :
  pr_dir (process_of o tmp c library u) =
  match u with
  | UBuild _ _ _ d | UBuilt _ _ d | UTarball _ _ d | ULoad _ d => d
  | UVersion | URenv | URun _ | UExperiment _ | UCached _ _ => ow_dir o
  end.
Proof. by destruct u. Qed.

Example C132_directories_example : pr_dir (process_of ex_own "/tmp/a" ex_r_config "/proj/lib" URenv) = ["proj"].
Proof. done. Qed.

(** ** C132: load

    The sessions of load have the environment of the caller, as the help says. *)

Theorem C132_load o tmp c library x d :
  pr_env (process_of o tmp c library (ULoad x d)) = ow_env o /\ pr_dir (process_of o tmp c library (ULoad x d)) = d.
Proof. done. Qed.

Example C132_load_example :
  pr_env (process_of ex_own "/tmp/a" ex_r_config "/proj/lib" (ULoad "library('curl')" ["proj"]))
    = ["HOME=/home/u"; "R_LIBS_SITE=/opt/site"; "R_LIBS_USER=/home/u/R"; "GITHUB_PAT=s3cret"].
Proof. done. Qed.

(** ** C132: libraries

    All other processes have a new directory as R_LIBS_USER.  R_LIBS_SITE is the library
    for run, for building a package and for installing what was built, and is not defined
    otherwise. *)

Theorem C132_libraries o tmp c library u : ~ is_load u -> unpadded tmp ->
  env_value (pr_env (process_of o tmp c library u)) "R_LIBS_USER" tmp /\
  (forall l, site_library c library u = Some l -> l <> "" -> without "=" l -> unpadded l ->
     env_value (pr_env (process_of o tmp c library u)) "R_LIBS_SITE" l) /\
  (plain_environment (ow_env o) -> plain_customs c -> site_library c library u = None ->
     forall w, ~ ("R_LIBS_SITE=" +:+ w) ∈ pr_env (process_of o tmp c library u)).
Proof. apply call_libraries. Qed.

Example C132_libraries_example :
  pr_env (process_of ex_own "/tmp/a" ex_r_config "/proj/lib" (UBuild "curl" "/c/curl.tar.gz" "/tmp/b" ["tmp"; "b"]))
    = ["CFLAGS=-O0"; "HOME=/home/u"; "GITHUB_PAT=**HIDDEN**"; "R_LIBS_USER=/tmp/a"; "R_LIBS_SITE=/proj/lib"] /\
  pr_env (process_of ex_own "/tmp/a" ex_r_config "/proj/lib" (URun "xml2"))
    = ["HOME=/home/u"; "GITHUB_PAT=**HIDDEN**"; "R_LIBS_USER=/tmp/a"; "R_LIBS_SITE=lib"] /\
  pr_env (process_of ex_own "/tmp/a" ex_r_config "/proj/lib" URenv)
    = ["HOME=/home/u"; "GITHUB_PAT=**HIDDEN**"; "R_LIBS_USER=/tmp/a"].
Proof. vm_compute. done. Qed.

(** A tarball of the configuration and a binary of the cache are installed without
    R_LIBS_SITE, so that R looks in its own site library as well. *)
Theorem C132_site_refuted : exists o tmp c library p s d,
  (forall w, ~ ("R_LIBS_SITE=" +:+ w) ∈ pr_env (process_of o tmp c library (UTarball p s d))) /\
  (forall w, ~ ("R_LIBS_SITE=" +:+ w) ∈ pr_env (process_of o tmp c library (UCached p s))).
Proof.
  exists ex_own, "/tmp/a", ex_r_config, "/proj/lib", "curl", "/proj/curl.tar.gz", ["proj"].
  assert (plain_environment (ow_env ex_own)) as H1 by (by apply plain_check).
  assert (plain_customs ex_r_config) as H2.
  { intros p name (m & e & v & Hm & He & Hv). cbn [ex_r_config cf_customs] in Hm.
    apply elem_of_cons in Hm as [-> |Hm]; [|apply elem_of_list_singleton in Hm as ->].
    - apply elem_of_list_singleton in He as [= -> ->]. apply elem_of_list_singleton in Hv as [= -> ->].
      split; [|done]. split; [by apply unpadded_dec_ok|done].
    - apply elem_of_list_singleton in He as [=]. }
  assert (unpadded "/tmp/a") as H3 by (by apply unpadded_dec_ok).
  split; (apply call_libraries; [by intros (y & e & [=])|done|done|done|done]).
Qed.

(** ** C132: variables

    A variable of a process other than those of load is one of the caller, or one that the
    configuration gives to the very package that R is run for.  In particular R is asked
    for its version and for the library of renv without variables of packages. *)

Theorem C132_variables o tmp c library u name w : ~ is_load u -> plain_environment (ow_env o) -> plain_customs c -> var_name name ->
  name <> "R_LIBS_USER" -> name <> "R_LIBS_SITE" ->
  (name +:+ "=" +:+ w) ∈ pr_env (process_of o tmp c library u) ->
  (exists v, (name +:+ "=" +:+ v) ∈ ow_env o) \/ exists p, for_package u p /\ customized c p name.
Proof. apply call_variables. Qed.

Example C132_variables_example :
  "CFLAGS=-O0" ∈ pr_env (process_of ex_own "/tmp/a" ex_r_config "/proj/lib" (UTarball "curl" "/proj/curl.tar.gz" ["proj"])) /\
  "CFLAGS=-O0" ∈ pr_env (process_of ex_own "/tmp/a" ex_r_config "/proj/lib" (URun "curl")) /\
  "CFLAGS=-O0" ∉ pr_env (process_of ex_own "/tmp/a" ex_r_config "/proj/lib" (UTarball "xml2" "/proj/xml2.tar.gz" ["proj"])) /\
  "CFLAGS=-O0" ∉ pr_env (process_of ex_own "/tmp/a" ex_r_config "/proj/lib" UVersion).
Proof. by apply (bool_decide_unpack _); vm_compute. Qed.

(** ** C132: secrets *)

Theorem C132_secrets o tmp c library u name w : ~ is_load u -> plain_environment (ow_env o) -> plain_customs c -> var_name name ->
  sensitive name -> (forall p, for_package u p -> ~ customized c p name) ->
  (name +:+ "=" +:+ w) ∈ pr_env (process_of o tmp c library u) -> w = "**HIDDEN**".
Proof. apply call_secrets. Qed.

Example C132_secrets_example :
  "GITHUB_PAT=**HIDDEN**" ∈ pr_env (process_of ex_own "/tmp/a" ex_r_config "/proj/lib" (UTarball "curl" "/proj/curl.tar.gz" ["proj"])).
Proof. by apply (bool_decide_unpack _); vm_compute. Qed.

(** Loading a package runs its code with the secrets of the caller. *)
Theorem C132_secrets_load_refuted : exists o tmp c library x d, sensitive "GITHUB_PAT" /\
  env_value (pr_env (process_of o tmp c library (ULoad x d))) "GITHUB_PAT" "s3cret".
Proof.
  exists ex_own, "/tmp/a", ex_r_config, "/proj/lib", "library('curl')", ["proj"]. split; [right; by left|].
  exists ["HOME=/home/u"; "R_LIBS_SITE=/opt/site"; "R_LIBS_USER=/home/u/R"], []. split; [done|]. by intros w ?%elem_of_nil.
Qed.

(** ** C133: R is asked for its version once

    Once a version is known whose first two numbers are not both 0, R is not asked again
    with the same settings, whatever it would answer. *)

Theorem C133_once_partial answer rpath rs b later n : new_r_settings answer rpath = Known rs b ->
  (forall pa, rs_version rs <> (0, 0, pa)%Z) ->
  b = true /\ ask_again later n rs 1 = Some (rs, 1).
Proof.
  intros H Hv. split; [by apply (new_ran answer rpath rs)|]. apply ask_known. apply Hv.
Qed.

Definition r_423 : string := "R version 4.2.3 (2023-03-15) -- ""Shortstop Beagle""" +:+ newline +:+ "Platform: x86_64-pc-linux-gnu (64-bit)" +:+ newline.

Example C133_once_example : exists rs, new_r_settings (Some r_423) "R" = Known rs true /\
  rs_version rs = (4, 2, 3)%Z /\ ask_again (fun _ => None) 5 rs 1 = Some (rs, 1).
Proof. eexists. split; [vm_compute; reflexivity|]. done. Qed.

(** Exactly: with a version of R that is read as 0.0.x, R is run for every question. *)
Theorem C133_exact out rpath rs b n : new_r_settings (Some out) rpath = Known rs b ->
  ask_again (fun _ => Some out) n rs 1 =
    Some (rs, if bool_decide (rs_version rs = (0, 0, (rs_version rs).2)%Z) then S n else 1).
Proof.
  intros H. destruct (new_ran _ _ _ _ H) as [-> _]. destruct (decide (rs_version rs = (0, 0, (rs_version rs).2)%Z)) as [E|E].
  - rewrite bool_decide_eq_true_2 by done. rewrite (ask_unknown out n rs 1 (rs_version rs).2); [f_equal; f_equal; lia| |done].
    apply (ask_fixed out (unasked rpath) rs (rs_version rs).2); done.
  - rewrite bool_decide_eq_false_2 by done. by apply ask_known.
Qed.

Definition r_devel : string :=
  "R Under development (unstable) (2023-03-15 r83984) -- ""Unsuffered Consequences""" +:+ newline +:+ "Platform: x86_64-pc-linux-gnu (64-bit)" +:+ newline.

(** The development version of R is such a one. *)
Theorem C133_development_refuted : exists out rpath rs, new_r_settings (Some out) rpath = Known rs true /\
  rs_version rs = (0, 0, 0)%Z /\ rs_platform rs = "x86_64-pc-linux-gnu" /\
  forall n, ask_again (fun _ => Some out) n rs 1 = Some (rs, S n).
Proof.
  exists r_devel, "R". eexists. split; [vm_compute; reflexivity|]. split; [done|]. split; [done|].
  intros n. rewrite (C133_exact r_devel "R" _ true); [done|]. vm_compute. reflexivity.
Qed.

Print Assumptions C132_arguments.
Print Assumptions C132_load.
Print Assumptions C132_libraries.
Print Assumptions C132_site_refuted.
Print Assumptions C132_variables.
Print Assumptions C132_secrets.
Print Assumptions C132_secrets_load_refuted.
Print Assumptions C133_once_partial.
Print Assumptions C133_exact.
Print Assumptions C133_development_refuted.

Print Assumptions C132_directories.
