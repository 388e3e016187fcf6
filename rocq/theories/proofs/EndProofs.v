(** Whole runs of `pkgr install` with the downloads. *)
From stdpp Require Import strings list gmap.
From Coq Require Import Ascii ZArith Lia.
From Verif.model Require Import GoStr Nexus RepoDb Graph Fs Rollback Sched Install Download Tarballs Together Urls Fetching.
From Verif.spec Require Import StrSpec SchedSpec LibSpec InstallSpec TarballSpec TogetherSpec ApartSpec FetchingSpec EndSpec.
From Verif.proofs Require Import GoStrLemmas FsProofs ExtractProofs CacheProofs TarballProofs DownloadProofs ApartProofs TogetherProofs WholeProofs FetchingProofs.

Local Open Scope string_scope.
Local Arguments Ascii.eqb : simpl never.
Local Arguments char_eqb : simpl never.

(** ** Texts *)

Lemma split_slash_app a b : all_chars (fun c => c <> "/"%char) a -> split_slash (a +:+ String "/" b) = a :: split_slash b.
Proof.
  induction a as [|c a IH]; intros H.
  - cbn [append split_slash]. by destruct (Ascii.eqb_spec "/" "/").
  - destruct H as [Hc H]. change (String c a +:+ String "/" b) with (String c (a +:+ String "/" b)). cbn [split_slash].
    destruct (Ascii.eqb_spec c "/"); [done|]. by rewrite IH.
Qed.

Lemma split_slash_names l : l <> [] -> (forall y, y ∈ l -> file_name y) -> split_slash (join "/" l) = l.
Proof.
  induction l as [|y l IH]; intros Hn Hl; [done|]. assert (file_name y) as (_ & _ & _ & Hy) by (apply Hl; by left).
  destruct l as [|z l]; [by apply split_no_slash|]. rewrite join_cons. change ("/" +:+ join "/" (z :: l)) with (String "/" (join "/" (z :: l))).
  rewrite split_slash_app by done. f_equal. apply IH; [done|]. intros y' H. apply Hl. by right.
Qed.

Lemma add_names l : (forall y, y ∈ l -> file_name y) -> forall p, add_components p l = (p ++ l)%list.
Proof.
  induction l as [|y l IH]; intros Hl p; [by rewrite app_nil_r|]. assert (file_name y) as (H1 & H2 & H3 & _) by (apply Hl; by left).
  cbn [add_components]. destruct (String.eqb_spec y ""), (String.eqb_spec y "."), (String.eqb_spec y ".."); try done. cbn [orb].
  rewrite IH by (intros; apply Hl; by right). by rewrite <- app_assoc.
Qed.

Lemma resolve_text d l : l <> [] -> (forall y, y ∈ l -> file_name y) -> Install.resolve d (path_text l) = l.
Proof.
  intros Hn Hl. unfold Install.resolve, path_text. rewrite has_prefix_app. unfold join_path.
  change ("/" +:+ join "/" l) with ("" +:+ String "/" (join "/" l)). rewrite split_slash_app by done.
  rewrite split_slash_names by done. cbn [add_components]. cbn [String.eqb orb]. by apply add_names.
Qed.

(** A text without underscores that is found in p_y is found in p or after the underscore. *)
Lemma found_where p y a t b : all_chars (fun c => c <> "_"%char) p -> all_chars (fun c => c <> "_"%char) t ->
  p +:+ String "_" y = a +:+ t +:+ b -> (exists r, p = a +:+ t +:+ r) \/ (exists a', a = p +:+ String "_" a') \/ t = "".
Proof.
  revert a. induction p as [|c p IH]; intros a Hp Ht E.
  - destruct a as [|d a].
    + destruct t as [|d t]; [by right; right|]. cbn in E. injection E as <- _. by destruct Ht.
    + cbn in E. injection E as <- _. right. left. by exists a.
  - destruct a as [|d a].
    + destruct (decide (t = "")) as [|Hne]; [by right; right|]. left. clear IH. cbn [append] in E |- *.
      assert (forall p t b y, all_chars (fun c => c <> "_"%char) t -> p +:+ String "_" y = t +:+ b -> exists r, p = t +:+ r) as K.
      { clear. intros p. induction p as [|c p IH]; intros t b y Ht E.
        - destruct t as [|d t]; [by exists ""|]. cbn in E. injection E as <- _. by destruct Ht.
        - destruct t as [|d t]; [by exists (String c p)|]. destruct Ht as [_ Ht]. cbn in E. injection E as <- E.
          destruct (IH _ _ _ Ht E) as [r ->]. by exists r. }
      by eapply K.
    + destruct Hp as [_ Hp]. cbn in E. injection E as <- E. destruct (IH a Hp Ht E) as [[r ->]|[[a' ->]| ->]].
      * left. by exists r.
      * right. left. by exists a'.
      * by right; right.
Qed.

Lemma lacks_dot p : lacks "tar.gz" p -> lacks ".tar.gz" p.
Proof. intros H a b ->. apply (H (a +:+ ".") b). by rewrite app_assoc_str. Qed.

Lemma replaced_after p y old new : version_name p -> all_chars (fun c => c <> "_"%char) old -> old <> "" -> lacks old p ->
  exists y', replace1 old new (p +:+ "_" +:+ y) = p +:+ "_" +:+ y'.
Proof.
  intros Hp Ho Hne Hl. destruct (replace1_cases old new (p +:+ "_" +:+ y)) as [->|(a & b & E & ->)]; [by exists y|].
  change (p +:+ "_" +:+ y) with (p +:+ String "_" y) in E.
  destruct (found_where p y a old b (version_no_under _ Hp) Ho E) as [[r Er]|[[a' ->]|]]; [by destruct (Hl a r)| |done].
  exists (a' +:+ new +:+ b). by rewrite app_assoc_str.
Qed.

Lemma binary_ext_after os p y platform n : version_name p -> lacks "tar.gz" p ->
  binary_ext os (p +:+ "_" +:+ y) platform = Some n -> exists y', n = p +:+ "_" +:+ y'.
Proof.
  intros Hp Hl. destruct os; cbn [binary_ext]; intros [= <-]; apply replaced_after; try done; try by apply lacks_dot.
  all: by repeat split.
Qed.

Lemma binary_name_after os p v platform n : binary_name os p v platform = Some n -> exists y, n = p +:+ "_" +:+ y.
Proof. destruct os; cbn [binary_name]; intros [= <-]; by eexists. Qed.

(** ** What is downloaded can be installed *)

Section linked.

Context (e : setting) (x : fetch_env) (ws : list wanted) (j : job) (name : list string -> string) (ds : list (list string)).
Context (f fd : fsys).
Hypothesis Hok : fetch_ok x ws.
Hypothesis Har : arranged e x j name ds.
Hypothesis Hcov : covers ws j.
Hypothesis Hf : fetched x ws f (e_downloads e) fd.
Hypothesis Hall : all_fetched ws (e_downloads e).

Let Hs : sum_texts (x_md5 x) := fk_sums _ _ Hok.
Let Ho : x_os x <> OtherOs := fk_os _ _ Hok.

Lemma planned_wanted p : in_plan j p -> exists w, w ∈ ws /\ w_pkg w = p.
Proof. intros H. apply Hcov in H. apply elem_of_list_fmap in H as (w & -> & H). by exists w. Qed.

Lemma linked_download w : w ∈ ws -> exists d, e_downloads e !! w_pkg w = Some d /\ d_path d = Some (place x w) /\ d_wanted d = meant x w /\
  fd (place x w) <> None.
Proof.
  intros Hw. destruct Hf as (ls & s & Hfe & Hr & Hm & Hfs). destruct Hfe as [repos f0 ls s R1 R2 R3].
  destruct (fetch_results x ws f Hok repos f0 R1 R2 ls s R3 Hr) as [K _]. specialize (K w Hw).
  destruct (Hall w Hw) as (d & E & Hp). rewrite <- Hm in E. rewrite E in K. rewrite <- Hm. rewrite Hfs in K.
  exists d. split; [done|]. destruct K as [K1 [(K2 & _ & K3 & K4)|[(K2 & _ & _ & c & _ & K4)|(K2 & _)]]]; [| |done].
  - split; [done|]. split; [done|]. by rewrite K4.
  - split; [done|]. split; [done|]. by rewrite K4.
Qed.

Lemma place_names w : w ∈ ws -> place x w <> [] /\ forall y, y ∈ place x w -> file_name y.
Proof.
  intros Hw. pose proof (fk_sensible _ _ Hok w Hw) as Hse. destruct (place_eq x w Hs Ho Hse) as (dir & n & E & Hn & Hd & _).
  split; [by apply (place_dir x w Hs Ho Hse)|]. rewrite E. intros y. rewrite elem_of_app, elem_of_cons, elem_of_app, elem_of_list_singleton.
  intros [H|[-> |[H| ->]]].
  - by apply (ar_components _ _ _ _ _ Har).
  - apply repo_dir_name; [done|]. by apply Hse.
  - destruct Hd as [-> | ->].
    + apply elem_of_list_singleton in H as ->. by repeat split.
    + apply elem_of_cons in H as [-> | H]; [by repeat split|]. apply elem_of_list_singleton in H as ->. apply rv_short_name.
  - done.
Qed.

Lemma linked_path w : w ∈ ws -> d_path (download_of e (w_pkg w)) = Some (place x w) /\ d_wanted (download_of e (w_pkg w)) = meant x w.
Proof.
  intros Hw. destruct (linked_download w Hw) as (d & E1 & E2 & E3 & _). unfold download_of. by rewrite E1.
Qed.

Lemma linked_source w : w ∈ ws -> source_for e (w_pkg w) = place x w.
Proof.
  intros Hw. destruct (linked_path w Hw) as [E1 E2]. unfold source_for, request_for. cbn [q_path]. rewrite E1.
  apply resolve_text; by apply place_names.
Qed.

Lemma linked_cached w bp : w ∈ ws -> cache_path (surroundings_for e (w_pkg w)) (request_for e (w_pkg w)) = Some bp ->
  in_dir (x_cache x) bp /\ exists d y, bp = (d ++ [w_pkg w +:+ "_" +:+ y])%list.
Proof.
  intros Hw H. destruct (linked_path w Hw) as [E1 E2]. pose proof (fk_sensible _ _ Hok w Hw) as Hse.
  apply cache_path_eq in H as (n & En & ->).
  - cbn [surroundings_for s_cache s_md5 s_os] in *. rewrite (ar_cache _ _ _ _ _ Har).
    split; [by eexists|].
    cbn [request_for q_meta_pkg q_meta_version] in En. rewrite E2 in En. cbn [meant w_pkg] in En. apply binary_name_after in En as (y & ->).
    eexists (_ ++ [_; _; _])%list, y. rewrite <- app_assoc. cbn [app]. reflexivity.
  - cbn. by rewrite (ar_md5 _ _ _ _ _ Har).
  - unfold request_for. split; [|split; [|split]]; cbn [q_meta_pkg q_meta_version q_repo q_platform]; rewrite ?E2; try by apply Hse.
    exact (ar_platform _ _ _ _ _ Har).
Qed.

Lemma linked_ball w b : w ∈ ws -> in_plan j (w_pkg w) -> ball_for e (w_pkg w) = Some b -> exists d y, b = (d ++ [w_pkg w +:+ "_" +:+ y])%list.
Proof.
  intros Hw Hp H. unfold ball_for in H. rewrite linked_source in H by done. pose proof (fk_sensible _ _ Hok w Hw) as Hse.
  destruct (place_eq x w Hs Ho Hse) as (dir & n & E & Hn & _ & y & En).
  assert (base_name (place x w) = n) as Eb. { rewrite E, app_comm_cons, app_assoc. apply base_snoc. }
  rewrite Eb in H. destruct (binary_ext _ n _) as [n'|] eqn:Ex; [|done]. injection H as <-.
  pose proof (binary_ext_file _ _ _ _ Hn (ar_platform _ _ _ _ _ Har) Ex) as Fn.
  rewrite En in Ex. apply binary_ext_after in Ex as (y' & Ey).
  - rewrite join_file by done. rewrite Ey. by eexists _, _.
  - apply r_name_chars, Hse.
  - by apply (ar_names _ _ _ _ _ Har).
Qed.

Lemma linked_setting : setting_ok e j name ds.
Proof.
  split.
  - intros p Hp. destruct (planned_wanted p Hp) as (w & Hw & <-). by apply (fk_sensible _ _ Hok w Hw).
  - intros p k c Hp Hc. destruct (planned_wanted p Hp) as (w & Hw & <-).
    pose proof (fk_sensible _ _ Hok w Hw) as Hse. assert (r_name (w_pkg w)) as Hr by apply Hse.
    destruct k; cbn [call_for] in Hc.
    + destruct (cache_path _ _) as [bp|] eqn:E; [|done]. injection Hc as <-. cbn [rc_source].
      destruct (linked_cached w bp Hw E) as (_ & d & y & ->). by apply (ar_named _ _ _ _ _ Har).
    + injection Hc as <-. cbn [rc_source]. rewrite linked_source by done.
      destruct (place_eq x w Hs Ho Hse) as (dir & n & E & _ & _ & y & ->). rewrite E, app_comm_cons, app_assoc. by apply (ar_named _ _ _ _ _ Har).
    + destruct (ball_for e (w_pkg w)) as [b|] eqn:E; [|done]. injection Hc as <-. cbn [rc_source].
      destruct (linked_ball w b Hw Hp E) as (d & y & ->). by apply (ar_named _ _ _ _ _ Har).
  - intros p Hp. destruct (planned_wanted p Hp) as (w & Hw & <-). rewrite linked_source by done.
    destruct (place_eq x w Hs Ho (fk_sensible _ _ Hok w Hw)) as (dir & n & E & Hn & _). rewrite E, app_comm_cons, app_assoc. by rewrite base_snoc.
  - exact (ar_platform _ _ _ _ _ Har).
  - exact (ar_apart _ _ _ _ _ Har).
  - exact (ar_tmp _ _ _ _ _ Har).
  - exact (ar_tmps _ _ _ _ _ Har).
  - intros p Hp. destruct (planned_wanted p Hp) as (w & Hw & <-). unfold binary_dir. destruct (linked_path w Hw) as [-> _].
    rewrite join_file by by repeat split.
    destruct (ar_cache_dir _ _ _ _ _ Har) as (d & Hd & z & Ez). exists d. split; [done|].
    destruct (place_eq x w Hs Ho (fk_sensible _ _ Hok w Hw)) as (dir & n & E & _ & Hdir & _). rewrite E, Ez.
    destruct Hdir as [-> | ->]; cbn [app]; rewrite <- !app_assoc.
    + exists (z ++ [repo_dir (x_md5 x) (w_repo w); "binary"])%list. rewrite app_assoc.
      change ([repo_dir (x_md5 x) (w_repo w); "src"; n]) with ([repo_dir (x_md5 x) (w_repo w)] ++ ["src"] ++ [n])%list.
      rewrite !app_assoc, !removelast_last. rewrite <- !app_assoc. done.
    + exists (z ++ [repo_dir (x_md5 x) (w_repo w); "binary"; "binary"])%list. rewrite app_assoc.
      change ([repo_dir (x_md5 x) (w_repo w); "binary"; rv_short (x_rv x); n]) with ([repo_dir (x_md5 x) (w_repo w); "binary"] ++ [rv_short (x_rv x)] ++ [n])%list.
      rewrite !app_assoc, !removelast_last. rewrite <- !app_assoc. done.
Qed.

Lemma cache_elsewhere p q : in_plan j p -> in_dir (x_cache x) q -> ~ in_dir (e_library e) q /\ ~ in_dir (e_tmp e p) q.
Proof.
  intros Hp [z ->]. split.
  - intros H. apply in_dir_cases in H. destruct (ar_cache_dir _ _ _ _ _ Har) as (d & Hd & Hdc).
    destruct (ar_apart _ _ _ _ _ Har d Hd) as [A1 A2]. destruct H as [H|H].
    + destruct Hdc as [z2 E]. rewrite E in H. apply in_dir_cases in H as [H|H]; done.
    + apply A2. by eapply in_dir_trans.
  - intros H. apply in_dir_cases in H. destruct (ar_cache_tmp _ _ _ _ _ Har p Hp) as [A1 A2]. by destruct H.
Qed.

Lemma linked_files : files_ok e j fd.
Proof.
  split.
  - intros p Hp. destruct (planned_wanted p Hp) as (w & Hw & <-). rewrite linked_source by done. by destruct (linked_download w Hw) as (d & _ & _ & _ & K).
  - intros p p' Hp Hp'. destruct (planned_wanted p Hp) as (w & Hw & <-). rewrite linked_source by done.
    apply cache_elsewhere; [done|]. by apply (place_dir x w Hs Ho (fk_sensible _ _ Hok w Hw)).
  - intros p p' bp Hp Hp' E. destruct (planned_wanted p Hp) as (w & Hw & <-).
    apply cache_elsewhere; [done|]. by apply (linked_cached w bp Hw E).
Qed.

End linked.

Lemma fetched_only e x ws j name ds i f fd m : fetch_ok x ws -> arranged e x j name ds ->
  fetched x ws f m fd -> tree_ok f -> f (e_library e) = Some Dir -> only_in (leftovers e i ds) f fd.
Proof.
  intros Hok Har (ls & s & Hfe & Hr & _ & <-) T Hlib. destruct Hfe as [repos f0 ls s R1 R2 R3].
  pose proof (fetch_frame x ws f Hok repos f0 R1 R2 ls s R3) as Fr.
  split; [|intros _; by eapply (fetch_tree x ws f Hok)].
  intros q Hq. destruct (decide (f_fs s q = f q)) as [|Hne]; [done|]. exfalso. apply Hq.
  destruct (ar_cache_dir _ _ _ _ _ Har) as (d & Hd & Hdc).
  destruct (Fr q Hne) as [K|(K & K2 & K3)].
  - left. exists d. split; [done|]. by eapply in_dir_trans.
  - destruct Hdc as [z E]. rewrite E in K. apply in_dir_cases in K as [K|K].
    + right. right. exists d. split; [done|]. split; [done|]. intros Hl. pose proof (ancestors_there f q (e_library e) T Hlib Hl). congruence.
    + left. by exists d.
Qed.

(** All that is needed of the downloads for a whole run. *)
Lemma linked_whole c i e x ws j l name ds f fd : run_ok c i f -> e_library e = Rollback.rc_library c ->
  j_starting j = ip_starting (ri_plan i) -> j_depdb j = ip_depdb (ri_plan i) ->
  (forall p, p ∈ ri_keys i <-> is_Some (ip_depdb (ri_plan i) !! p)) ->
  fetch_ok x ws -> covers ws j -> arranged e x j name ds ->
  l.*1 ≡ₚ ri_additional i -> installable (fun _ => name) (e_library e) l ->
  (forall p a, (p, a) ∈ l -> in_some ds (removelast (ad_path a))) ->
  tarballs_there e j l (run_ops (prepare_ops c i) f) -> run_ops (prepare_ops c i) f (Rollback.rc_library c) = Some Dir ->
  fetched x ws (run_ops (prepare_ops c i) f) (e_downloads e) fd -> all_fetched ws (e_downloads e) ->
  whole_ok c i e j l name ds /\ only_in (leftovers e i ds) (run_ops (prepare_ops c i) f) fd /\ files_ok e j fd /\ tarballs_there e j l fd.
Proof.
  intros Hrun Hlib Hst Hdb Hk Hok Hcov Har Hl Hin Hun Ht Hd Hf Hall.
  split; [split; try done; by eapply linked_setting|].
  split; [eapply fetched_only; try done; [by apply (staged_tree c i f Hrun)|by rewrite Hlib]|].
  split; [by eapply linked_files|].
  intros p a Hpa. destruct (Ht p a Hpa) as [T1 T2]. split; [|done].
  destruct Hf as (ls & s & [repos f0 ls' s' R1 R2 R3] & _ & _ & <-).
  destruct (run_ops (prepare_ops c i) f (ad_path a)) as [n|] eqn:E; [|done].
  by rewrite (fetch_keeps x ws _ Hok repos f0 R1 R2 _ _ R3 _ _ E).
Qed.
