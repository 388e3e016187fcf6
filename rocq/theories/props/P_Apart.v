(** C90, C91: the PATH of R, and places in the cache. *)
From stdpp Require Import strings list.
From Coq Require Import Ascii ZArith.
From Verif.model Require Import GoStr Env Nexus RepoDb Fs Install Download Config Start.
From Verif.spec Require Import StrSpec LibSpec InstallSpec EnvSpec ConfigSpec ApartSpec.
From Verif.proofs Require Import GoStrLemmas FsProofs EnvProofs CacheProofs ConfigProofs UrlProofs StartProofs ApartProofs.

Local Open Scope string_scope.

(** C90.  In full: R is started with a PATH whose first directory is that of RPath.
    Missing: a PATH of the caller that begins with a longer name starting with the
    same text, and callers without a PATH; both refuted below. *)
Theorem C90_r_first_partial : forall sys rs tmpdir l prog v, plain_environment sys ->
  l <> [] -> (forall x, x ∈ (l ++ [prog])%list -> plain_name x) ->
  e_rpath rs = "/" +:+ join "/" (l ++ [prog])%list ->
  unpadded ("/" +:+ join "/" l) ->
  (forall p, p ∈ e_global rs -> var_name (n_name p) /\ n_name p <> "PATH") ->
  (forall kv, kv ∈ e_package rs -> var_name kv.1 /\ kv.1 <> "PATH") ->
  caller_has sys "PATH" v -> (forall u, ("PATH=" +:+ u) ∈ sys -> u = v) -> v <> "" -> unpadded v ->
  let d := "/" +:+ join "/" l in
  ((forall r, v <> d +:+ r) -> env_value (configure_env sys rs tmpdir) "PATH" (d +:+ ":" +:+ v)) /\
  ((v = d \/ exists r, v = d +:+ ":" +:+ r) -> env_value (configure_env sys rs tmpdir) "PATH" v).
Proof.
  intros sys rs tmpdir l prog v H1 Hn Hl Hr Hd H3 H4 H5 H6 H7 H8 d.
  pose proof (passed_value sys rs tmpdir "PATH" v H1 path_name) as H.
  specialize (H ltac:(done) ltac:(done) path_not_censored H3 H4 H5 H6 H7).
  change (String.eqb "PATH" "PATH") with true in H. cbv iota in H.
  assert (dir_name (e_rpath rs) = d) as Ed by (rewrite Hr; by apply dir_name_plain).
  unfold path_value in H. rewrite Ed in H. cbv zeta in H. subst d.
  change (String.eqb ("/" +:+ join "/" l) "") with false in H.
  assert (String.eqb ("/" +:+ join "/" l) "." = false) as Edot by (by apply String.eqb_neq).
  rewrite Edot in H. cbn [negb andb] in H.
  split.
  - intros Hno. destruct (has_prefix ("/" +:+ join "/" l) v) eqn:Ep.
    { apply has_prefix_true in Ep as [r ->]. by destruct (Hno r). }
    cbn [negb] in H. rewrite unpadded_trim in H; [done|].
    intros r. split; [done|]. intros E.
    assert (exists r', v = r' +:+ " ") as [r' ->]; [|by destruct (H8 r')].
    clear -E H7. rewrite <- app_assoc_str in E. revert E. generalize (("/" +:+ join "/" l) +:+ ":") as a.
    intros a. revert r. induction a as [|c a IH]; intros r E; cbn in E; [by exists r|].
    destruct r as [|e r]; cbn in E; [|injection E as -> E; by apply (IH r)].
    injection E as -> E. destruct a; [|done]. cbn in E. by subst v.
  - intros Hv. assert (has_prefix ("/" +:+ join "/" l) v = true) as Ep.
    { destruct Hv as [-> | [r ->]]; [|apply has_prefix_app]. rewrite <- (app_nil_str ("/" +:+ join "/" l)) at 2. apply has_prefix_app. }
    rewrite Ep in H. cbn [negb] in H. by rewrite unpadded_trim in H.
Qed.

Definition c90_settings : env_settings := {| e_global := []; e_package := []; e_rpath := "/opt/R/bin/R"; e_libs := [] |}.

Example C90_example :
  env_value (configure_env ["HOME=/home/u"; "PATH=/usr/bin:/bin"] c90_settings "/tmp/x") "PATH" "/opt/R/bin:/usr/bin:/bin" /\
  env_value (configure_env ["PATH=/opt/R/bin:/bin"] c90_settings "/tmp/x") "PATH" "/opt/R/bin:/bin".
Proof.
  split.
  - exists ["HOME=/home/u"], ["R_LIBS_USER=/tmp/x"]. split; [done|]. intros w H. apply elem_of_list_singleton in H. discriminate H.
  - exists [], ["R_LIBS_USER=/tmp/x"]. split; [done|]. intros w H. apply elem_of_list_singleton in H. discriminate H.
Qed.

(** A directory whose name only begins like that of RPath hides it: the PATH is
    left as it is and does not contain the directory of R at all. *)
Theorem C90_longer_name_refuted : exists sys rs tmpdir, plain_environment sys /\
  let v := "/opt/R/bin-old:/usr/bin" in
  e_rpath rs = "/opt/R/bin/R" /\ caller_has sys "PATH" v /\ unpadded v /\
  env_value (configure_env sys rs tmpdir) "PATH" v.
Proof.
  exists ["PATH=/opt/R/bin-old:/usr/bin"], c90_settings, "/tmp/x".
  split; [by apply plain_check|]. cbv zeta. split; [done|]. split.
  { exists [], []. split; [done|]. intros w H. by apply elem_of_nil in H. }
  split; [by apply unpadded_dec_ok|].
  exists [], ["R_LIBS_USER=/tmp/x"]. split; [done|]. intros w H. apply elem_of_list_singleton in H. discriminate H.
Qed.

(** Without a PATH in the caller's environment R gets none. *)
Theorem C90_no_path_refuted : exists sys rs tmpdir, e_rpath rs = "/opt/R/bin/R" /\
  forall w, ~ ("PATH=" +:+ w) ∈ configure_env sys rs tmpdir.
Proof.
  exists ["HOME=/home/u"], c90_settings, "/tmp/x". split; [done|]. intros w H.
  change (configure_env ["HOME=/home/u"] c90_settings "/tmp/x") with ["HOME=/home/u"; "R_LIBS_USER=/tmp/x"] in H.
  rewrite !elem_of_cons, elem_of_nil in H. destruct H as [H|[H|[]]]; discriminate H.
Qed.

(** C91.  The md5 function is a parameter: texts of 32 bytes without a slash.  Two
    downloads share a file only when all of package, version, kind, repository name
    and (but for collisions of 48 bits) repository address agree. *)
Theorem C91_downloads_apart : forall md5 os rhel cache rv1 rv2 w1 w2, sum_texts md5 -> os <> OtherOs ->
  sensible w1 -> sensible w2 ->
  download_path md5 os rhel cache rv1 w1 = download_path md5 os rhel cache rv2 w2 ->
  w_pkg w1 = w_pkg w2 /\ w_version w1 = w_version w2 /\ ru_name (w_repo w1) = ru_name (w_repo w2) /\
  same_sum md5 (ru_url (w_repo w1)) (ru_url (w_repo w2)) /\
  (means_binary os (w_type w1) <-> means_binary os (w_type w2)) /\
  (means_binary os (w_type w1) -> rv_major rv1 = rv_major rv2 /\ rv_minor rv1 = rv_minor rv2).
Proof. exact downloads_apart. Qed.

(** The same for packages that are built and put into the cache. *)
Theorem C91_builds_apart : forall s r1 r2 bp, sum_texts (s_md5 s) -> sensible_request r1 -> sensible_request r2 ->
  cache_path s r1 = Some bp -> cache_path s r2 = Some bp ->
  q_meta_pkg r1 = q_meta_pkg r2 /\ q_meta_version r1 = q_meta_version r2 /\
  ru_name (q_repo r1) = ru_name (q_repo r2) /\ same_sum (s_md5 s) (ru_url (q_repo r1)) (ru_url (q_repo r2)) /\
  rv_major (q_rversion r1) = rv_major (q_rversion r2) /\ rv_minor (q_rversion r1) = rv_minor (q_rversion r2) /\
  (s_os s = Linux -> q_platform r1 = q_platform r2).
Proof. exact builds_apart. Qed.

(** A made-up sum: the first 32 bytes of the text without slashes, filled up. *)
Fixpoint c91_take (n : nat) (s : string) : string :=
  match n, s with
  | 0, _ => ""
  | S n, "" => String "0" (c91_take n "")
  | S n, String c r => String (if Ascii.eqb c "/" then "s"%char else c) (c91_take n r)
  end.
Definition c91_sum (s : string) : string := c91_take 32 s.

Example C91_example : sum_texts c91_sum /\
  (forall u, sensible {| w_pkg := "Rcpp"; w_version := "1.0.5"; w_type := STSource; w_repo := RepoURL u "CRAN" "" |}) /\
  download_path c91_sum Linux false ["c"] {| rv_major := 4; rv_minor := 0; rv_patch := 2 |}
    {| w_pkg := "Rcpp"; w_version := "1.0.5"; w_type := STSource; w_repo := RepoURL "mirror.x/cran" "CRAN" "" |} =
    ["c"; "CRAN-mirror.xscra"; "src"; "Rcpp_1.0.5.tar.gz"] /\
  download_path c91_sum Linux false ["c"] {| rv_major := 4; rv_minor := 0; rv_patch := 2 |}
    {| w_pkg := "Rcpp"; w_version := "1.0.5"; w_type := STBinary; w_repo := RepoURL "m.y/cran" "CRAN" "" |} =
    ["c"; "CRAN-m.yscran0000"; "binary"; "4.0"; "Rcpp_1.0.5_R_x86_64-pc-linux-gnu.tar.gz"].
Proof.
  split; [|split; [|by vm_compute]].
  - intros s. unfold c91_sum. generalize 32 as n. intros n. revert s. induction n as [|n IH]; intros s; [done|].
    destruct s as [|c r].
    + destruct (IH "") as [E1 E2]. cbn [c91_take String.length]. split; [by f_equal|]. by split.
    + destruct (IH r) as [E1 E2]. cbn [c91_take String.length]. split; [by f_equal|]. split; [|done].
      destruct (Ascii.eqb_spec c "/"); [done|done].
  - intros u. split; [|by split; repeat split].
    cbn. unfold name_char, letter. vm_compute. repeat split; lia.
Qed.

Print Assumptions C90_r_first_partial.
Print Assumptions C90_longer_name_refuted.
Print Assumptions C90_no_path_refuted.
Print Assumptions C91_downloads_apart.
Print Assumptions C91_builds_apart.
