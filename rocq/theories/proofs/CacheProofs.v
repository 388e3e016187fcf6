(** Names of binaries in the cache. *)
From stdpp Require Import strings list.
From Coq Require Import Ascii ZArith Lia.
From Verif.model Require Import GoStr Nexus RepoDb Fs Install Download.
From Verif.spec Require Import StrSpec VersionSpec LibSpec InstallSpec.
From Verif.proofs Require Import GoStrLemmas FsProofs RepoProofs.

Local Open Scope string_scope.

Local Arguments Ascii.eqb : simpl never.
Local Arguments char_eqb : simpl never.

Lemma string_snoc s : s = "" \/ exists t c, s = t +:+ String c "".
Proof.
  induction s as [|c s IH]; [by left|right]. destruct IH as [->|(t & d & ->)]; [by exists "", c|by exists (String c t), d].
Qed.

Lemma snoc_inj a b c d : a +:+ String c "" = b +:+ String d "" -> a = b /\ c = d.
Proof.
  revert b. induction a as [|x a IH]; intros [|y b]; simpl; intros E; injection E.
  - by intros ->.
  - intros H _. by destruct b.
  - intros H _. by destruct a.
  - intros H ->. apply IH in H as [-> ->]. done.
Qed.

(** The pattern does not overlap itself, so that its first occurrence in
    [a ++ pattern] is at the end unless there is one within [a]. *)
Definition no_border (old : string) : Prop :=
  forall x r, x <> "" -> x +:+ old = old +:+ r -> exists y, x = old +:+ y.

Lemma border_tar_gz : no_border "tar.gz".
Proof.
  intros x r Hx E. repeat (destruct x as [|? x]; simpl in E; [discriminate E || done|injection E as -> E]);
    by exists x.
Qed.

Lemma border_dot_tar_gz : no_border ".tar.gz".
Proof.
  intros x r Hx E. repeat (destruct x as [|? x]; simpl in E; [discriminate E || done|injection E as -> E]);
    by exists x.
Qed.

Lemma replace1_last old new a : old <> "" -> no_border old -> contains old a = false ->
  replace1 old new (a +:+ old) = a +:+ new.
Proof.
  intros Ho Hb. rewrite contains_false. induction a as [|c a IH]; intros H.
  - cbn [append]. destruct old as [|c old]; [done|]. cbn [replace1].
    assert (cut_prefix (String c old) (String c old) = Some "") as ->; [|by rewrite app_nil_str].
    pose proof (cut_prefix_app (String c old) "") as E. by rewrite app_nil_str in E.
  - cbn [append replace1]. destruct (cut_prefix old (String c (a +:+ old))) as [r|] eqn:E.
    + apply cut_prefix_Some in E. destruct (Hb (String c a) r) as [y Hy]; [done|done|].
      exfalso. by apply (H "" y).
    + f_equal. apply IH. intros a' b ->. by apply (H (String c a') b).
Qed.

Lemma contains_dot s : contains "tar.gz" s = false -> contains "tar.gz" (s +:+ ".") = false.
Proof.
  rewrite !contains_false. intros H a b E.
  destruct (string_snoc b) as [->|(b' & c & ->)].
  - revert a E. induction s as [|d s IH]; intros a E.
    + destruct a as [|e a]; simpl in E; [discriminate E|]. injection E as _ E. by destruct a.
    + destruct a as [|e a]; simpl in E.
      * injection E as -> E. repeat (destruct s as [|? s]; simpl in E; [discriminate E|injection E as ? E]). by destruct s.
      * injection E as -> E. apply (IH) in E; [done|]. intros a' b' ->. by apply (H (String e a') b').
  - apply (H a b'). replace (a +:+ "tar.gz" +:+ b' +:+ String c "") with ((a +:+ "tar.gz" +:+ b') +:+ String c "") in E
      by (by rewrite !app_assoc_str).
    by apply snoc_inj in E as [E _].
Qed.

Lemma binary_ext_name os pkg version platform :
  contains "tar.gz" (pkg +:+ "_" +:+ version) = false ->
  binary_ext os (pkg +:+ "_" +:+ version +:+ ".tar.gz") platform = binary_name os pkg version platform.
Proof.
  intros H1.
  assert (contains ".tar.gz" (pkg +:+ "_" +:+ version) = false) as H2.
  { rewrite contains_false in *. intros a b E. apply (H1 (a +:+ ".") b). rewrite E. by rewrite !app_assoc_str. }
  assert (contains "tar.gz" (pkg +:+ "_" +:+ version +:+ ".") = false) as H3.
  { apply contains_dot in H1. by rewrite !app_assoc_str in H1. }
  destruct os; cbn [binary_ext binary_name]; [..|done]; f_equal.
  - replace (pkg +:+ "_" +:+ version +:+ ".tar.gz") with ((pkg +:+ "_" +:+ version +:+ ".") +:+ "tar.gz")
      by (by rewrite !app_assoc_str).
    rewrite replace1_last; [by rewrite !app_assoc_str|done|apply border_tar_gz|done].
  - replace (pkg +:+ "_" +:+ version +:+ ".tar.gz") with ((pkg +:+ "_" +:+ version) +:+ ".tar.gz")
      by (by rewrite !app_assoc_str).
    rewrite replace1_last; [by rewrite !app_assoc_str|done|apply border_dot_tar_gz|done].
  - replace (pkg +:+ "_" +:+ version +:+ ".tar.gz") with ((pkg +:+ "_" +:+ version +:+ ".") +:+ "tar.gz")
      by (by rewrite !app_assoc_str).
    rewrite replace1_last; [by rewrite !app_assoc_str|done|apply border_tar_gz|done].
Qed.

Lemma all_chars_app P a b : all_chars P (a +:+ b) <-> all_chars P a /\ all_chars P b.
Proof. induction a as [|c a IH]; cbn; [tauto|]. rewrite IH. tauto. Qed.

Lemma underscore_name a b : all_chars (fun c => c <> "/"%char) a -> all_chars (fun c => c <> "/"%char) b ->
  file_name (a +:+ "_" +:+ b).
Proof.
  intros Ha Hb. repeat split.
  - by destruct a.
  - destruct a as [|c [|d a]]; done.
  - destruct a as [|c [|d a]]; [done| |]; intros E; injection E; [done|]; intros; by destruct a.
  - apply all_chars_app. split; [done|]. by split.
Qed.

Lemma join_file lib s : file_name s -> join_path lib s = (lib ++ [s])%list.
Proof. intros (H1 & H2 & H3 & H4). by apply join_plain. Qed.

Lemma numeral_chars ds : Forall (fun d => d < 10) ds -> all_chars (fun c => c <> "/"%char) (numeral_text ds).
Proof.
  induction 1 as [|d l Hd _ IH]; [done|]. split; [|done].
  assert (d < 10) as H by done. do 10 (destruct d as [|d]; [by cbv|]). lia.
Qed.

Lemma rv_short_name rv : file_name (rv_short rv).
Proof.
  unfold rv_short.
  destruct (itoa_numeral (rv_major rv)) as (d0 & [N0 O0] & _ & ->).
  destruct (itoa_numeral (rv_minor rv)) as (d1 & [N1 O1] & _ & ->).
  destruct d0 as [|x d0]; [done|]. destruct d1 as [|y d1]; [done|].
  pose proof (Forall_inv O0) as Hx. cbn beta in Hx. split; [done|]. split; [cbn; by destruct d0|]. split.
  - cbn [numeral_text append]. intros E. injection E as E1 E2.
    do 10 (destruct x as [|x]; [by cbv in E1|]). lia.
  - apply all_chars_app. split; [by apply numeral_chars|]. split; [done|]. by apply numeral_chars.
Qed.

Lemma base_snoc (p : list string) x : base_name (p ++ [x])%list = x.
Proof. unfold base_name. by rewrite List.last_last. Qed.

Lemma binary_meant os t : means_binary os t -> effective_type os t = STBinary.
Proof. destruct os, t; cbn; intros H; try done; destruct H as [H|[H1 [H|H]]]; done. Qed.

Lemma source_meant os t : ~ means_binary os t -> effective_type os t = STSource.
Proof. unfold means_binary. destruct os, t; cbn; intros H; try done; exfalso; apply H; auto. Qed.

Lemma meant_iff os t : effective_type os t = STBinary <-> means_binary os t.
Proof.
  split; [|apply binary_meant]. unfold means_binary. destruct os, t; cbn; intros H; try done; auto.
Qed.

Lemma binary_name_file os pkg version platform n : plain pkg -> plain version -> plain platform ->
  binary_name os pkg version platform = Some n -> file_name n.
Proof.
  intros H1 H2 H3. unfold plain in *.
  destruct os; cbn [binary_name]; intros [= <-]; apply underscore_name; try done;
    rewrite ?all_chars_app; cbn [all_chars]; rewrite ?all_chars_app; cbn [all_chars append]; rewrite ?all_chars_app;
    repeat match goal with |- _ /\ _ => split end; done.
Qed.

Lemma stored_found s rhel w p lib pkgr rv platform n :
  ~ means_binary (s_os s) (w_type w) ->
  plain (w_pkg w) -> plain (w_version w) -> plain platform ->
  contains "tar.gz" (w_pkg w +:+ "_" +:+ w_version w) = false ->
  let d := download_path (s_md5 s) (s_os s) rhel (s_cache s) rv w in
  binary_ext (s_os s) (base_name d) platform = Some n ->
  cache_path s (request_of w p lib pkgr rv platform) = Some (store_path d rv (join_path (s_tmp s) n)).
Proof.
  intros Ht P1 P2 P3 C1. apply source_meant in Ht. unfold download_path. rewrite Ht. cbv zeta.
  assert (file_name (w_pkg w +:+ "_" +:+ w_version w +:+ ".tar.gz")) as F1.
  { apply underscore_name; [done|]. apply all_chars_app. split; [done|]. by repeat split. }
  rewrite (join_file _ _ F1), base_snoc, binary_ext_name by done. intros Hn.
  unfold cache_path, request_of. cbn [q_meta_pkg q_meta_version q_platform q_repo q_rversion]. rewrite Hn.
  pose proof (binary_name_file _ _ _ _ _ P1 P2 P3 Hn) as F2.
  unfold store_path. rewrite (join_file (s_tmp s) _ F2), base_snoc, removelast_last.
  assert (forall d, join_path d "src" = (d ++ ["src"])%list) as Es by (intros d; apply join_file; by repeat split).
  rewrite Es, removelast_last. done.
Qed.

(** A downloaded binary is found in the same way. *)
Lemma downloaded_found s (rhel : bool) w p lib pkgr rv platform :
  means_binary (s_os s) (w_type w) ->
  (s_os s = Darwin \/ s_os s = Windows \/
   s_os s = Linux /\ platform = if rhel then "x86_64-redhat-linux-gnu" else "x86_64-pc-linux-gnu") ->
  cache_path s (request_of w p lib pkgr rv platform) = Some (download_path (s_md5 s) (s_os s) rhel (s_cache s) rv w).
Proof.
  intros Ht Ho. apply binary_meant in Ht. unfold cache_path, download_path, request_of.
  cbn [q_meta_pkg q_meta_version q_platform q_repo q_rversion]. rewrite Ht.
  destruct Ho as [E|[E|[E ->]]]; rewrite E; cbn [binary_name cran_binary_name]; [done|done|].
  by destruct rhel.
Qed.
