(** The command load. *)
From stdpp Require Import strings list gmap.
From Coq Require Import Ascii ZArith NArith Lia.
From Verif.model Require Import GoStr Env Fs Yml Config Start Desc Nexus Graph Plan Load LoadCmd.
From Verif.spec Require Import StrSpec YmlSpec ConfigSpec LoadSpec LoadCmdSpec.
From Verif.proofs Require Import GoStrLemmas YmlProofs ConfigProofs StartProofs ControlProofs CleanProofs UrlProofs LoadProofs ExtractProofs RepoProofs.

Local Open Scope string_scope.
Local Arguments Ascii.eqb : simpl never.
Local Arguments char_eqb : simpl never.

(** ** The directory *)

Lemma split_slash_parts a b : split_slash (a +:+ "/" +:+ b) = (split_slash a ++ split_slash b)%list.
Proof.
  induction a as [|c a IH]; cbn [append split_slash]; [by rewrite Ascii.eqb_refl|].
  change (a +:+ String "/" b) with (a +:+ "/" +:+ b). rewrite IH. destruct (Ascii.eqb c "/"); [done|].
  destruct (split_slash a) as [|h k] eqn:E; [by apply split_slash_nonnil in E|]. done.
Qed.

Lemma split_slash_plain f : plain_name f -> split_slash f = [f].
Proof.
  intros (_ & _ & _ & H). rewrite split_slash_on. apply (split_join "/" [f]); [done|].
  intros y ->%elem_of_list_singleton. done.
Qed.

Lemma join_split_slash s : join "/" (split_slash s) = s.
Proof. rewrite split_slash_on. apply (join_split "/" s). Qed.

Lemma add_plain p f : plain_name f -> add_components p [f] = (p ++ [f])%list.
Proof.
  intros (H1 & H2 & H3 & _). cbn [add_components].
  destruct (String.eqb_spec f ""); [done|]. destruct (String.eqb_spec f "."); [done|]. by destruct (String.eqb_spec f "..").
Qed.

Lemma resolve_dir d flag f : ends_in flag f -> Start.resolve d flag = (Start.resolve d (dir_name flag) ++ [f])%list.
Proof.
  intros [Hf [->|[a ->]]].
  - unfold dir_name. rewrite split_slash_plain by done. cbn [rev app].
    change (Start.resolve d ".") with d. unfold Start.resolve.
    assert (has_prefix "/" f = false) as ->.
    { destruct Hf as (H1 & _ & _ & H). destruct f as [|c f]; [done|]. cbn [all_bytes] in H. apply andb_true_iff in H as [H _].
      apply negb_true_iff in H. unfold has_prefix. cbn. unfold char_eqb. by rewrite H. }
    unfold join_path. rewrite split_slash_plain by done. by apply add_plain.
  - assert (dir_name (a +:+ "/" +:+ f) = clean (a +:+ "/")) as ->.
    { unfold dir_name. rewrite split_slash_parts, (split_slash_plain f) by done. rewrite rev_app_distr. cbn [rev app].
      destruct (rev (split_slash a)) as [|y k] eqn:E.
      - exfalso. apply (split_slash_nonnil a). rewrite <- (rev_involutive (split_slash a)), E. done.
      - rewrite <- E, rev_involutive, join_split_slash. done. }
    rewrite resolve_clean. unfold Start.resolve.
    assert (has_prefix "/" (a +:+ "/" +:+ f) = has_prefix "/" (a +:+ "/")) as -> by (destruct a as [|c a]; unfold has_prefix; cbn; [done|by destruct (char_eqb _ _)]).
    assert (forall p, join_path p (a +:+ "/" +:+ f) = (join_path p (a +:+ "/") ++ [f])%list) as K; [|by destruct (has_prefix _ _)].
    intros p. unfold join_path. rewrite split_slash_parts, split_slash_snoc, (split_slash_plain f) by done.
    rewrite !add_app. rewrite (add_plain _ f) by done. done.
Qed.

Lemma resolve_rooted d e r : Start.resolve d ("/" +:+ r) = Start.resolve e ("/" +:+ r).
Proof. unfold Start.resolve. by rewrite has_prefix_app. Qed.

(** ** Output of R *)

Lemma strip_row ds s : digits ds -> strip_index ("[" +:+ ds +:+ "]" +:+ s) = s.
Proof.
  intros (Hn & _ & Hd). cbn [append strip_index]. change (char_eqb "[" "[") with true. cbv iota.
  assert (forall seen, seen = true \/ ds <> "" -> after_digits seen (ds +:+ "]" +:+ s) = Some s) as K.
  2:{ change (ds +:+ String "]" s) with (ds +:+ "]" +:+ s). by rewrite K by (by right). }
  clear Hn. induction ds as [|c ds IH]; intros seen H.
  - destruct H as [->|H]; [done|done].
  - cbn [all_bytes] in Hd. apply andb_true_iff in Hd as [Hc Hd]. cbn [append after_digits].
    unfold digit_value. rewrite Hc. apply IH; [done|by left].
Qed.

Lemma drop_quotes_app a b : drop_quotes (a +:+ b) = drop_quotes a +:+ drop_quotes b.
Proof. induction a as [|c a IH]; [done|]. cbn [append drop_quotes]. destruct (char_eqb _ _); [done|]. by rewrite IH. Qed.

Lemma drop_quotes_plain s : plain_text s -> drop_quotes s = s.
Proof.
  intros [H _]. induction s as [|c s IH]; [done|]. cbn [all_bytes] in H. apply andb_true_iff in H as [Hc H].
  apply andb_true_iff in Hc as [Hc _]. cbn [drop_quotes]. rewrite IH by done.
  destruct (char_eqb c """") eqn:E; [|done]. apply char_eqb_eq in E as ->. done.
Qed.

Lemma drop_quotes_quoted s : plain_text s -> drop_quotes (quote +:+ s +:+ quote) = s.
Proof.
  intros H. rewrite !drop_quotes_app, (drop_quotes_plain s) by done. change (drop_quotes quote) with "".
  cbn [append]. clear H. induction s as [|c s IH]; [done|]. cbn. by rewrite IH.
Qed.

Lemma last_byte a b c d : a +:+ String c "" = b +:+ String d "" -> c = d.
Proof.
  revert b. induction a as [|x a IH]; intros [|y b] H; cbn in H.
  - congruence.
  - injection H as _ H. by destruct b.
  - injection H as _ H. by destruct a.
  - injection H as _ H. by eapply IH.
Qed.

Lemma clean_row ds s : digits ds -> clean_line (row ds s) = quote +:+ s +:+ quote.
Proof.
  intros Hd. unfold clean_line, row. change ("] " +:+ quote +:+ s +:+ quote) with ("]" +:+ " " +:+ quote +:+ s +:+ quote).
  rewrite strip_row by done. unfold trim_space. rewrite (trim_pre is_space " ") by done.
  unfold trim. change (quote +:+ s +:+ quote) with (String """" (s +:+ quote)). cbn [trim_left].
  change (is_space """") with false. cbv iota. apply trim_right_bare. intros r c E.
  change (String """" (s +:+ quote)) with (String """" s +:+ String """" "") in E. by apply last_byte in E as <-.
Qed.

Lemma keep_quoted b s : keep_line b (quote +:+ s) = true.
Proof. by destruct b. Qed.

Lemma row_unix ds s : digits ds -> plain_text s -> unix_line (row ds s).
Proof.
  intros (_ & Hl & Hd) [Hs Hn].
  assert (forall a b, is_line a -> is_line b -> is_line (a +:+ b)) as K.
  { intros a b Ha Hb. unfold is_line in *. induction a as [|c a IH]; [done|]. cbn [append all_bytes] in *.
    apply andb_true_iff in Ha as [-> Ha]. by apply IH. }
  assert (forall a b, String.length (a +:+ b) = String.length a + String.length b) as L.
  { intros a b. induction a as [|c a IH]; [done|]. cbn. by rewrite IH. }
  split; [|split].
  - unfold row. apply K; [done|]. apply K.
    { unfold is_line. clear -Hd. induction ds as [|c ds IH]; [done|]. cbn [all_bytes] in *.
      apply andb_true_iff in Hd as [Hc Hd]. rewrite (IH Hd), andb_true_r.
      destruct (Ascii.eqb_spec c lf) as [->|]; done. }
    apply K; [done|]. apply K; [done|]. apply K; [|done].
    unfold is_line. clear -Hs. induction s as [|c s IH]; [done|]. cbn [all_bytes] in *.
    apply andb_true_iff in Hs as [Hc Hs]. rewrite (IH Hs), andb_true_r.
    apply andb_true_iff in Hc as [_ Hc]. destruct (Ascii.eqb_spec c lf) as [->|]; done.
  - unfold row. rewrite !L. cbn [String.length quote]. lia.
  - intros r E. unfold row in E. rewrite <- !app_assoc_str in E. by apply last_byte in E.
Qed.

Lemma scan_rows b rows : Forall (fun x => digits x.1 /\ plain_text x.2) rows ->
  map drop_quotes (scan_r_output b (text (map (fun x => row x.1 x.2) rows))) = map snd rows /\
  length (scan_r_output b (text (map (fun x => row x.1 x.2) rows))) = length rows.
Proof.
  intros H. unfold scan_r_output. rewrite scan_text.
  - induction H as [|[ds s] rows [Hd Hs] _ [IH1 IH2]]; [done|]. cbn [map List.filter]. rewrite clean_row by done.
    rewrite keep_quoted. cbn [map length]. rewrite IH1, IH2, drop_quotes_quoted by done. done.
  - intros l Hl. apply elem_of_list_fmap in Hl as ([ds s] & -> & Hx).
    rewrite Forall_forall in H. destruct (H _ Hx). by apply row_unix.
Qed.

Lemma clean_bare l : bare_line l -> clean_line l = l /\ keep_line false l = true.
Proof.
  intros (_ & (c & r & E & Hw & _ & Hb) & (r' & c' & E' & Hw' & _)).
  split.
  - rewrite E. rewrite clean_first.
    + rewrite <- E. apply trim_right_bare. intros x d Ex. rewrite E' in Ex. apply last_byte in Ex as <-.
      by rewrite <- white_is_space.
    + destruct (char_eqb c "[") eqn:K; [|done]. apply char_eqb_eq in K. done.
    + by rewrite <- white_is_space.
  - rewrite E. done.
Qed.

Lemma scan_bare lines : Forall bare_line lines -> scan_r_output false (text lines) = lines.
Proof.
  intros H. unfold scan_r_output. rewrite scan_text.
  - induction H as [|l lines Hl _ IH]; [done|]. cbn [map List.filter]. destruct (clean_bare l Hl) as [-> ->]. by rewrite IH.
  - intros l Hl. rewrite Forall_forall in H. by apply H.
Qed.

(** ** The report *)

Definition short (x : full_result) : load_result := {| lr_pkg := fr_pkg x; lr_success := fr_success x |}.

Lemma attempt_short r dir p : short <$> attempt_full r dir p = attempt_load p (an_end (r dir (library_call p))).
Proof. unfold attempt_full, run_r_cmd. by destruct (an_end (r dir (library_call p))). Qed.

Definition shortened (rep : full_report) : load_report :=
  {| rep_results := short <$> fl_results rep; rep_failures := fl_failures rep |}.

Lemma report_short r dir pkgs got : shortened (full_report_of r dir pkgs got) = report_of pkgs (session_ends r dir pkgs) got.
Proof.
  unfold full_report_of, report_of.
  assert (init_report = shortened {| fl_libs := session_lib_paths r dir; fl_results := ∅; fl_failures := 0 |}) as ->.
  { unfold shortened, init_report. cbn. by rewrite fmap_empty. }
  generalize {| fl_libs := session_lib_paths r dir; fl_results := ∅; fl_failures := 0 |}.
  induction got as [|i got IH]; intros rep; [done|]. cbn [fold_left]. rewrite IH. f_equal.
  unfold session_ends. destruct (pkgs !! i) as [p|]; [|done].
  pose proof (attempt_short r dir p) as E. destruct (attempt_full r dir p) as [x|]; cbn [fmap option_fmap option_map] in E; rewrite <- E; [|done].
  unfold shortened, add_full, add_result. cbn. by rewrite fmap_insert.
Qed.

Lemma report_full r dir pkgs got p x : fl_results (full_report_of r dir pkgs got) !! p = Some x -> attempt_full r dir p = Some x.
Proof.
  unfold full_report_of.
  assert (forall rep, (forall p x, fl_results rep !! p = Some x -> attempt_full r dir p = Some x) ->
    forall p x, fl_results (fold_left (fun rep i => match pkgs !! i with
      | Some p => match attempt_full r dir p with Some x => add_full rep x | None => rep end
      | None => rep end) got rep) !! p = Some x -> attempt_full r dir p = Some x) as K.
  { induction got as [|i got IH]; intros rep Hrep; [done|]. cbn [fold_left]. apply IH.
    destruct (pkgs !! i) as [q|]; [|done]. destruct (attempt_full r dir q) as [y|] eqn:E; [|done].
    intros p' x'. cbn [add_full fl_results].
    assert (fr_pkg y = q) as Ey.
    { pose proof (attempt_short r dir q) as S. rewrite E in S. cbn in S.
      destruct (an_end _); cbn in S; inversion S; done. }
    rewrite Ey. destruct (decide (q = p')) as [->|Hne].
    - rewrite lookup_insert. intros [= <-]. done.
    - rewrite lookup_insert_ne by done. apply Hrep. }
  apply K. cbn. intros p' x'. by rewrite lookup_empty.
Qed.

Lemma report_libs r dir pkgs got : fl_libs (full_report_of r dir pkgs got) = session_lib_paths r dir.
Proof.
  unfold full_report_of.
  assert (forall rep, fl_libs (fold_left (fun rep i => match pkgs !! i with
      | Some p => match attempt_full r dir p with Some x => add_full rep x | None => rep end
      | None => rep end) got rep) = fl_libs rep) as K; [|by rewrite K].
  induction got as [|i got IH]; intros rep; [done|]. cbn [fold_left]. rewrite IH.
  destruct (pkgs !! i); [|done]. by destruct (attempt_full _ _ _).
Qed.
