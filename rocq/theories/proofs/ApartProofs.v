(** The PATH of R, and names in the cache. *)
From stdpp Require Import strings list.
From Coq Require Import Ascii ZArith NArith Lia.
From Verif.model Require Import GoStr Env Nexus RepoDb Fs Install Download Urls Config Start.
From Verif.spec Require Import StrSpec LibSpec VersionSpec InstallSpec EnvSpec ConfigSpec ApartSpec.
From Verif.proofs Require Import GoStrLemmas FsProofs RepoProofs EnvProofs ExtractProofs CacheProofs CleanProofs ConfigProofs UrlProofs StartProofs.

Local Open Scope string_scope.
Local Arguments Ascii.eqb : simpl never.
Local Arguments char_eqb : simpl never.

(** ** PATH *)

Lemma dir_name_plain l p : l <> [] -> (forall x, x ∈ (l ++ [p])%list -> plain_name x) ->
  dir_name ("/" +:+ join "/" (l ++ [p])%list) = "/" +:+ join "/" l.
Proof.
  intros Hn Hp. unfold dir_name.
  assert (forall k, k <> [] -> (forall x, x ∈ k -> plain_name x) -> split_slash (join "/" k) = k) as Hsp.
  { intros k Hk Hx. rewrite split_slash_on. apply (split_join "/" k Hk). intros y Hy. by apply Hx in Hy as (_ & _ & _ & Hy). }
  assert (split_slash ("/" +:+ join "/" (l ++ [p])%list) = "" :: (l ++ [p])%list) as ->.
  { cbn [append split_slash]. rewrite Ascii.eqb_refl. f_equal. apply Hsp; [by destruct l|done]. }
  assert (forall x, x ∈ l -> plain_name x) as Hl by (intros x Hx; apply Hp, elem_of_app; by left).
  cbn [rev]. rewrite rev_app_distr. cbn [rev app].
  destruct (rev l ++ [""])%list as [|y k] eqn:E; [by destruct (rev l)|]. rewrite <- E.
  rewrite rev_app_distr, rev_involutive. cbn [rev app].
  assert (join "/" ("" :: l) = "/" +:+ join "/" l) as -> by (by destruct l).
  rewrite <- (clean_plain_abs l Hn Hl) at 2. unfold clean.
  rewrite app_assoc_str, !has_prefix_app. cbv zeta iota. f_equal. f_equal.
  rewrite <- app_assoc_str, split_slash_snoc. cbn [append split_slash]. rewrite Ascii.eqb_refl, (Hsp l Hn Hl).
  cbn [clean_loop app]. change (String.eqb "" "" || String.eqb "" ".") with true. cbv iota.
  assert (forall out, clean_loop true out (l ++ [""])%list = clean_loop true out l) as ->; [|done].
  clear -Hl. induction l as [|x l IH]; intros out; [done|]. cbn [app clean_loop].
  assert (forall y, y ∈ l -> plain_name y) as H by (intros y Hy; apply Hl; by right).
  destruct (_ || _); [by apply IH|]. destruct (String.eqb x ".."); [|by apply IH]. destruct out as [|y out]; [by apply IH|].
  repeat match goal with |- context [if ?b then _ else _] => destruct b end; by apply IH.
Qed.

(** A variable of the caller that is passed on, changed or not. *)
Lemma passed_value sys rs tmpdir name v : plain_environment sys -> var_name name ->
  name <> "R_LIBS_USER" -> name <> "R_LIBS_SITE" -> ~ to_upper name ∈ censored ->
  (forall p, p ∈ e_global rs -> var_name (n_name p) /\ n_name p <> name) ->
  (forall kv, kv ∈ e_package rs -> var_name kv.1 /\ kv.1 <> name) ->
  caller_has sys name v -> (forall u, (name +:+ "=" +:+ u) ∈ sys -> u = v) -> v <> "" ->
  env_value (configure_env sys rs tmpdir) name
    (trim_blank (if String.eqb name "PATH" then path_value (e_rpath rs) v else v)).
Proof.
  intros Hp Hn N1 N2 Hc Hg Hk Hs Hone Hv.
  set (val := trim_blank (if String.eqb name "PATH" then path_value (e_rpath rs) v else v)).
  assert ((name +:+ "=" +:+ val) ∈ configure_env sys rs tmpdir) as Hin.
  { unfold configure_env. rewrite env_list_eq, map_app, elem_of_app. left.
    apply elem_of_list_fmap. exists {| n_name := name; n_value := val |}. split; [done|].
    pose proof (system_first (e_rpath rs) name v sys (add_package (add_globals [] (e_global rs)) (e_package rs))) as H.
    rewrite bool_decide_eq_false_2 in H by done. rewrite (unpadded_trim name) in H by (apply Hn).
    apply H; try done; [apply Hn|]. intros Hx. rewrite add_package_eq, map_app, elem_of_app in Hx.
    destruct Hx as [Hx|Hx].
    - destruct (globals_ext [] (e_global rs)) as (e' & E3 & E4). rewrite E3 in Hx.
      apply elem_of_list_fmap in Hx as (p & Ep & Hx). destruct (E4 p Hx) as (q & Hq & Eq).
      destruct (Hg q Hq) as [[Huq _] Hne]. rewrite (unpadded_trim _ Huq) in Eq. congruence.
    - rewrite map_map in Hx. apply elem_of_list_fmap in Hx as (kv & Ep & Hx). destruct (Hk kv Hx) as [[Huq _] Hne].
      simpl in Ep. rewrite (unpadded_trim _ Huq) in Ep. congruence. }
  destruct (last_split (fun s => has_prefix (name +:+ "=") s = true) _ (configure_env sys rs tmpdir))
    as (a & x & b & E & Hx & Hb).
  { exists (name +:+ "=" +:+ val). split; [done|]. rewrite <- app_assoc_str. apply has_prefix_app. }
  apply has_prefix_true in Hx as [w ->]. rewrite app_assoc_str in E.
  assert (w = val) as ->.
  { destruct (only_system sys rs tmpdir name w) as (u & Hin' & _ & ->); try done.
    { rewrite E. apply elem_of_app. right. by left. }
    rewrite bool_decide_eq_false_2 by done. by rewrite (Hone u Hin'). }
  exists a, b. split; [done|]. intros w Hw. apply (Hb _ Hw). rewrite <- app_assoc_str. apply has_prefix_app.
Qed.

Lemma path_name : var_name "PATH".
Proof. split; [by apply unpadded_dec_ok|done]. Qed.

Lemma path_not_censored : ~ to_upper "PATH" ∈ censored.
Proof. change (to_upper "PATH") with "PATH". unfold censored. rewrite !elem_of_cons, elem_of_nil. naive_solver. Qed.

(** ** The cache *)

Lemma sep_split c a b a' b' : all_chars (fun d => d <> c) a -> all_chars (fun d => d <> c) a' ->
  a +:+ String c b = a' +:+ String c b' -> a = a' /\ b = b'.
Proof.
  revert a'. induction a as [|x a IH]; intros [|y a'] Ha Ha' E; cbn in *.
  - by injection E.
  - injection E as <- _. by destruct Ha'.
  - injection E as -> _. by destruct Ha.
  - injection E as -> E. destruct Ha as [_ Ha], Ha' as [_ Ha']. destruct (IH a' Ha Ha' E) as [-> ->]. done.
Qed.

Lemma all_chars_impl (P Q : ascii -> Prop) s : (forall c, P c -> Q c) -> all_chars P s -> all_chars Q s.
Proof. intros H. induction s as [|c s IH]; [done|]. intros [Hc Hs]. split; [by apply H|by apply IH]. Qed.

Lemma name_char_plain c : name_char c -> c <> "/"%char /\ c <> "_"%char.
Proof.
  intros H. assert (nat_of_ascii "/" = 47) as E1 by done. assert (nat_of_ascii "_" = 95) as E2 by done.
  assert (nat_of_ascii "." = 46) as E3 by done.
  unfold name_char, letter in H. split; intros ->; destruct H as [H|[H|H]]; try done; lia.
Qed.

Lemma r_name_chars p : r_name p -> version_name p /\ p <> "".
Proof.
  destruct p as [|c p]; [done|]. intros [Hc Hp]. split; [|done]. split; [apply name_char_plain; by left|].
  revert Hp. apply all_chars_impl, name_char_plain.
Qed.

Lemma version_no_slash s : version_name s -> all_chars (fun c => c <> "/"%char) s.
Proof. apply all_chars_impl. by intros c []. Qed.
Lemma version_no_under s : version_name s -> all_chars (fun c => c <> "_"%char) s.
Proof. apply all_chars_impl. by intros c []. Qed.

Lemma substring_all n s : n <= String.length s -> exists a, s = String.substring 0 n s +:+ a /\ String.length (String.substring 0 n s) = n.
Proof.
  revert s. induction n as [|n IH]; intros s H; [exists s; by destruct s|].
  destruct s as [|c s]; [cbn in H; lia|]. cbn in H. destruct (IH s) as (a & E & El); [lia|].
  exists a. cbn [String.substring append String.length]. split; [by f_equal|]. by f_equal.
Qed.

Lemma same_length_app a b c d : String.length b = String.length d -> a +:+ b = c +:+ d -> a = c /\ b = d.
Proof.
  revert c. induction a as [|x a IH]; intros [|y c] Hl E; cbn in *.
  - done.
  - exfalso. apply (f_equal String.length) in E. cbn in E. rewrite append_length in E. lia.
  - exfalso. apply (f_equal String.length) in E. cbn in E. rewrite append_length in E. lia.
  - injection E as -> E. destruct (IH c Hl E) as [-> ->]. done.
Qed.

Lemma repo_dir_name md5 r : sum_texts md5 -> directory_name (ru_name r) -> file_name (repo_dir md5 r).
Proof.
  intros Hm Hn. unfold repo_dir. destruct (Hm (ru_url r)) as [Hl Hs].
  destruct (substring_all 12 (md5 (ru_url r))) as (a & E & El); [lia|].
  set (h := String.substring 0 12 (md5 (ru_url r))) in *. rewrite E in Hs. apply all_chars_app in Hs as [Hs _].
  assert (h <> "") as Hh by (intros Eh; by rewrite Eh in El).
  split; [by destruct (ru_name r)|]. split; [|split].
  - destruct (ru_name r) as [|c [|d n]]; done.
  - destruct (ru_name r) as [|c [|d n]]; [done| |]; intros E1; injection E1; [done|]; intros; by destruct n.
  - apply all_chars_app. split; [done|]. split; [done|done].
Qed.

Lemma repo_dir_inj md5 r1 r2 : sum_texts md5 -> repo_dir md5 r1 = repo_dir md5 r2 ->
  ru_name r1 = ru_name r2 /\ same_sum md5 (ru_url r1) (ru_url r2).
Proof.
  intros Hm. unfold repo_dir. destruct (Hm (ru_url r1)) as [L1 _], (Hm (ru_url r2)) as [L2 _].
  destruct (substring_all 12 (md5 (ru_url r1))) as (a & E1 & S1); [lia|].
  destruct (substring_all 12 (md5 (ru_url r2))) as (b & E2 & S2); [lia|].
  intros E. apply same_length_app in E as [En Eh]; [|cbn; by rewrite S1, S2].
  split; [done|]. cbn in Eh. injection Eh as Eh.
  exists (String.substring 0 12 (md5 (ru_url r1))), a, b. split; [done|]. split; [done|]. by rewrite Eh.
Qed.

Lemma digit_inj x y : x < 10 -> y < 10 -> ascii_of_nat (48 + x) = ascii_of_nat (48 + y) -> x = y.
Proof.
  intros Hx Hy E. apply (f_equal nat_of_ascii) in E. rewrite !nat_ascii_embedding in E by lia. lia.
Qed.

Lemma numeral_text_inj a b : Forall (fun d => d < 10) a -> Forall (fun d => d < 10) b -> numeral_text a = numeral_text b -> a = b.
Proof.
  intros Ha. revert b. induction Ha as [|x a Hx Ha IH]; intros b Hb E; destruct Hb as [|y b Hy Hb]; [done|done|done|].
  cbn [numeral_text] in E. injection E as E1 E2.
  f_equal; [|by apply IH]. by apply digit_inj.
Qed.

Lemma numeral_no_dot ds : Forall (fun d => d < 10) ds -> all_chars (fun c => c <> "."%char) (numeral_text ds).
Proof.
  induction 1 as [|d l Hd _ IH]; [done|]. split; [|done].
  assert (d < 10) as H by done. do 10 (destruct d as [|d]; [by cbv|]). lia.
Qed.

Lemma itoa_inj n m : itoa n = itoa m -> n = m.
Proof.
  destruct (itoa_numeral n) as (a & [_ Ha] & Va & ->), (itoa_numeral m) as (b & [_ Hb] & Vb & ->).
  intros E. apply numeral_text_inj in E; [|done..]. subst b. rewrite Va in Vb. lia.
Qed.

Lemma rv_short_inj v1 v2 : rv_short v1 = rv_short v2 -> rv_major v1 = rv_major v2 /\ rv_minor v1 = rv_minor v2.
Proof.
  unfold rv_short. intros E.
  assert (forall n, all_chars (fun c => c <> "."%char) (itoa n)) as Hd.
  { intros n. destruct (itoa_numeral n) as (a & [_ Ha] & _ & ->). by apply numeral_no_dot. }
  apply sep_split in E as [E1 E2]; [|done..]. split; by apply itoa_inj.
Qed.

Lemma package_file p1 v1 x1 p2 v2 x2 : version_name p1 -> version_name p2 ->
  p1 +:+ "_" +:+ v1 +:+ x1 = p2 +:+ "_" +:+ v2 +:+ x2 -> p1 = p2 /\ v1 +:+ x1 = v2 +:+ x2.
Proof. intros H1 H2 E. by apply sep_split in E; [|by apply version_no_under..]. Qed.

Lemma file_suffix p v x : version_name p -> version_name v -> all_chars (fun c => c <> "/"%char) x ->
  file_name (p +:+ "_" +:+ v +:+ x).
Proof.
  intros Hp Hv Hx. apply underscore_name; [by apply version_no_slash|].
  apply all_chars_app. split; [by apply version_no_slash|done].
Qed.

Lemma cran_binary_suffix os rhel : os <> OtherOs -> exists x, all_chars (fun c => c <> "/"%char) x /\
  forall p v, cran_binary_name os rhel p v = p +:+ "_" +:+ v +:+ x.
Proof.
  intros Ho. destruct os, rhel; try done; eexists; (split; [|intros p v; reflexivity]); by repeat split.
Qed.

Lemma download_path_eq md5 os rhel cache rv w : sum_texts md5 -> sensible w -> os <> OtherOs ->
  exists x, all_chars (fun c => c <> "/"%char) x /\
  download_path md5 os rhel cache rv w =
   (cache ++ [repo_dir md5 (w_repo w)] ++
    (if decide (effective_type os (w_type w) = STBinary) then ["binary"; rv_short rv] else ["src"]) ++
    [w_pkg w +:+ "_" +:+ w_version w +:+ x])%list /\
  (effective_type os (w_type w) <> STBinary -> x = ".tar.gz") /\
  (effective_type os (w_type w) = STBinary -> forall p v, cran_binary_name os rhel p v = p +:+ "_" +:+ v +:+ x).
Proof.
  intros Hm (Hp & Hv & Hr) Ho. pose proof (r_name_chars _ Hp) as [Hpc _]. unfold download_path. cbv zeta.
  rewrite (join_file cache) by (by apply repo_dir_name).
  assert (all_chars (fun c => c <> "/"%char) ".tar.gz") as Htar by (by repeat split).
  assert (file_name "src") as Fs by (by repeat split). assert (file_name "binary") as Fb by (by repeat split).
  destruct (cran_binary_suffix os rhel Ho) as (x & Hx & Ex).
  destruct (effective_type os (w_type w)) eqn:Et.
  - exists ".tar.gz". split; [done|]. destruct (decide (STDefault = STBinary)); [done|].
    rewrite (join_file _ "src" Fs), join_file by (by apply file_suffix).
    rewrite <- !app_assoc. done.
  - exists ".tar.gz". split; [done|]. destruct (decide (STSource = STBinary)); [done|].
    rewrite (join_file _ "src" Fs), join_file by (by apply file_suffix).
    rewrite <- !app_assoc. done.
  - exists x. split; [done|]. destruct (decide (STBinary = STBinary)); [|done].
    rewrite (join_file _ "binary" Fb), (join_file _ (rv_short rv)) by apply rv_short_name.
    rewrite Ex, join_file by (by apply file_suffix). rewrite <- !app_assoc. done.
Qed.

Lemma downloads_apart md5 os rhel cache rv1 rv2 w1 w2 : sum_texts md5 -> os <> OtherOs -> sensible w1 -> sensible w2 ->
  download_path md5 os rhel cache rv1 w1 = download_path md5 os rhel cache rv2 w2 ->
  w_pkg w1 = w_pkg w2 /\ w_version w1 = w_version w2 /\ ru_name (w_repo w1) = ru_name (w_repo w2) /\
  same_sum md5 (ru_url (w_repo w1)) (ru_url (w_repo w2)) /\
  (means_binary os (w_type w1) <-> means_binary os (w_type w2)) /\
  (means_binary os (w_type w1) -> rv_major rv1 = rv_major rv2 /\ rv_minor rv1 = rv_minor rv2).
Proof.
  intros Hm Ho H1 H2. rewrite <- !meant_iff.
  destruct (download_path_eq md5 os rhel cache rv1 w1 Hm H1 Ho) as (x1 & X1 & -> & S1 & B1).
  destruct (download_path_eq md5 os rhel cache rv2 w2 Hm H2 Ho) as (x2 & X2 & -> & S2 & B2).
  intros E. apply app_inv_head in E. cbn [app] in E. injection E as Er E.
  destruct (repo_dir_inj _ _ _ Hm Er) as [En Es].
  destruct H1 as (P1 & V1 & _), H2 as (P2 & V2 & _). apply r_name_chars in P1 as [P1 _], P2 as [P2 _].
  destruct (decide (effective_type os (w_type w1) = STBinary)) as [T1|T1],
    (decide (effective_type os (w_type w2) = STBinary)) as [T2|T2]; cbn [app] in E.
  - injection E as Ev Ef. apply package_file in Ef as [Ep Ex]; [|done..].
    assert (x1 = x2) as Hxx.
    { pose proof (B1 T1 "" "") as A. rewrite (B2 T2) in A. cbn in A. by injection A. }
    rewrite Hxx in Ex. apply app_inj_end in Ex. apply rv_short_inj in Ev. done.
  - discriminate E.
  - discriminate E.
  - injection E as Ef. apply package_file in Ef as [Ep Ex]; [|done..].
    rewrite S1, S2 in Ex by done. apply app_inj_end in Ex. done.
Qed.

Lemma cache_path_eq s r bp : sum_texts (s_md5 s) -> sensible_request r -> cache_path s r = Some bp ->
  exists n, binary_name (s_os s) (q_meta_pkg r) (q_meta_version r) (q_platform r) = Some n /\
  bp = (s_cache s ++ [repo_dir (s_md5 s) (q_repo r); "binary"; rv_short (q_rversion r); n])%list.
Proof.
  intros Hm (Hp & Hv & Hr & Hpl). apply r_name_chars in Hp as [Hp _]. unfold cache_path.
  destruct (binary_name _ _ _ _) as [n|] eqn:E; [|done]. intros E'. injection E' as <-. exists n. split; [done|].
  assert (file_name "binary") as Fb by (by repeat split).
  assert (file_name n) as Fn.
  { destruct (s_os s); cbn in E; try done; injection E as <-; apply file_suffix; try done; repeat split; try done.
    apply all_chars_app. split; [done|]. by repeat split. }
  rewrite (join_file (s_cache s)) by (by apply repo_dir_name). rewrite (join_file _ "binary" Fb).
  rewrite (join_file _ (rv_short _)) by apply rv_short_name. rewrite (join_file _ n Fn). by rewrite <- !app_assoc.
Qed.

Lemma builds_apart s r1 r2 bp : sum_texts (s_md5 s) -> sensible_request r1 -> sensible_request r2 ->
  cache_path s r1 = Some bp -> cache_path s r2 = Some bp ->
  q_meta_pkg r1 = q_meta_pkg r2 /\ q_meta_version r1 = q_meta_version r2 /\
  ru_name (q_repo r1) = ru_name (q_repo r2) /\ same_sum (s_md5 s) (ru_url (q_repo r1)) (ru_url (q_repo r2)) /\
  rv_major (q_rversion r1) = rv_major (q_rversion r2) /\ rv_minor (q_rversion r1) = rv_minor (q_rversion r2) /\
  (s_os s = Linux -> q_platform r1 = q_platform r2).
Proof.
  intros Hm H1 H2 C1 C2. apply cache_path_eq in C1 as (n1 & N1 & ->); [|done..].
  apply cache_path_eq in C2 as (n2 & N2 & E); [|done..]. apply app_inv_head in E. injection E as Er Ev <-.
  destruct (repo_dir_inj _ _ _ Hm Er) as [En Es]. apply rv_short_inj in Ev as [Ea Eb].
  destruct H1 as (P1 & V1 & _), H2 as (P2 & V2 & _). apply r_name_chars in P1 as [P1 _], P2 as [P2 _].
  destruct (s_os s); cbn [binary_name] in N1, N2; try done; injection N1 as <-; injection N2 as N2;
    apply package_file in N2 as [Ep Ex]; try done.
  - apply app_inj_end in Ex. done.
  - apply sep_split in Ex as [Ex Eq]; [|by apply version_no_under..]. injection Eq as Eq. apply app_inj_end in Eq. done.
  - apply app_inj_end in Ex. done.
Qed.
