(** Stamping a DESCRIPTION file. *)
From stdpp Require Import strings list sets gmap.
From Coq Require Import Ascii Lia.
From Verif.model Require Import GoStr Stamp.
From Verif.spec Require Import StrSpec StampSpec.
From Verif.proofs Require Import GoStrLemmas.

Local Open Scope string_scope.

Lemma prefix_has p s : String.prefix p s = has_prefix p s.
Proof.
  revert s. induction p as [|c p IH]; intros s; [by destruct s|].
  destruct s as [|d s]; [done|]. unfold has_prefix. simpl. unfold char_eqb.
  destruct (ascii_dec c d) as [->|H].
  - rewrite Ascii.eqb_refl. apply IH.
  - destruct (Ascii.eqb_spec c d); [done|]. done.
Qed.

Lemma contains_mentions sub s : contains sub s = true <-> mentions sub s.
Proof. apply contains_true. Qed.

Lemma stamp_line_spec l : stamp_line l = true <-> mentions_own l.
Proof.
  unfold stamp_line, mentions_own. rewrite !orb_true_iff, !contains_mentions. tauto.
Qed.

Lemma prefix_mentions p s : String.prefix p s = true -> mentions p s.
Proof. rewrite prefix_has, has_prefix_true. intros [r ->]. by exists "", r. Qed.

Lemma own_stamp l : own_field l = true -> stamp_line l = true.
Proof.
  unfold own_field. rewrite !orb_true_iff, stamp_line_spec. unfold mentions_own.
  intros [[H|H]|H].
  - left. by apply prefix_mentions.
  - right; left. by apply prefix_mentions.
  - right; right. apply prefix_mentions in H as (a & b & ->). by exists a, (":" +:+ b).
Qed.

Lemma trim_right_split f s : exists b, s = trim_right f s +:+ b /\ all_bytes f b = true.
Proof.
  induction s as [|c s (b & IH & Hb)]; [by exists ""|]. simpl.
  destruct (trim_right f s) as [|d r] eqn:E.
  - simpl in IH. subst b. destruct (f c) eqn:Ec.
    + exists (String c s). simpl. by rewrite Ec.
    + by exists s.
  - exists b. split; [|done]. simpl. by rewrite IH at 1.
Qed.

Lemma trim_repository r : trim_space ("Repository:" +:+ r) = trim_right is_space ("Repository:" +:+ r).
Proof. done. Qed.

Lemma same_line_trim r t :
  trim_space ("Repository:" +:+ r) = trim_space ("Repository:" +:+ t) ->
  same_line ("Repository:" +:+ r) ("Repository:" +:+ t).
Proof.
  rewrite !trim_repository. intros H.
  destruct (trim_right_split is_space ("Repository:" +:+ r)) as (b & H1 & H2).
  destruct (trim_right_split is_space ("Repository:" +:+ t)) as (d & H3 & H4).
  exists (trim_right is_space ("Repository:" +:+ r)), b, d.
  split; [done|]. split; [by rewrite H|].
  by rewrite !(all_bytes_ext white is_space) by apply white_is_space.
Qed.

(** Every line of the body is a kept line or one of the two written for a
    Repository field. *)
Lemma loop_in repo lines x : x ∈ stamp_loop repo lines ->
  (x ∈ lines /\ stamp_line x = false /\ wrong_repository repo x = false) \/
  exists l, l ∈ lines /\ stamp_line l = false /\ wrong_repository repo l = true /\
    (x = "OriginalRepository: " +:+ original_repository l \/ x = "Repository: " +:+ repo).
Proof.
  induction lines as [|l lines IH]; simpl; [by rewrite elem_of_nil|].
  destruct (stamp_line l) eqn:E1.
  - intros [H|(k & H)]%IH; [left|right; exists k]; set_solver.
  - destruct (wrong_repository repo l) eqn:E2.
    + rewrite !elem_of_cons. intros [->|[->|H]].
      * right. exists l. set_solver.
      * right. exists l. set_solver.
      * destruct (IH H) as [H'|(k & H')]; [left|right; exists k]; set_solver.
    + rewrite elem_of_cons. intros [->|H].
      * left. set_solver.
      * destruct (IH H) as [H'|(k & H')]; [left|right; exists k]; set_solver.
Qed.

Lemma no_p_prefix p x : all_bytes (fun c => negb (char_eqb "P" c)) p = true ->
  forall sub, contains (String "P" sub) (p +:+ x) = true -> contains (String "P" sub) x = true.
Proof.
  intros Hp sub. rewrite !contains_true. intros (a & b & H). revert a H.
  induction p as [|c p IH]; intros a H; [by exists a, b|].
  simpl in Hp. apply andb_true_iff in Hp as [Hc Hp]. apply negb_true_iff in Hc.
  destruct a as [|d a].
  - simpl in H. injection H as Hc' _. subst c. discriminate Hc.
  - simpl in H. injection H as _ H. eauto.
Qed.

Lemma stamp_line_prefix p x : all_bytes (fun c => negb (char_eqb "P" c)) p = true ->
  stamp_line (p +:+ x) = true -> stamp_line x = true.
Proof.
  intros Hp. unfold stamp_line. rewrite !orb_true_iff.
  intros [[H|H]|H]; apply (no_p_prefix p x Hp) in H; tauto.
Qed.

Lemma contains_mid sub a x b : contains sub x = true -> contains sub (a +:+ x +:+ b) = true.
Proof.
  rewrite !contains_true. intros (c & d & ->). exists (a +:+ c), (d +:+ b).
  by rewrite !app_assoc_str.
Qed.

Lemma split_on_sub f s x : x ∈ split_on f s -> exists a b, s = a +:+ x +:+ b.
Proof.
  revert x. induction s as [|c s IH]; simpl; intros x.
  - rewrite elem_of_list_singleton. intros ->. by exists "", "".
  - destruct (f c).
    + rewrite elem_of_cons. intros [->|H]; [by exists "", (String c s)|].
      destruct (IH x H) as (a & b & ->). by exists (String c a), b.
    + destruct (split_on f s) as [|p ps] eqn:E; [by apply split_on_nonnil in E|].
      rewrite elem_of_cons. intros [->|H].
      * assert (exists b, s = p +:+ b) as [b ->].
        { clear -E. revert p ps E. induction s as [|d s IH]; simpl; intros p ps E.
          - injection E as <- <-. by exists "".
          - destruct (f d); [injection E as <- <-; by exists (String d s)|].
            destruct (split_on f s) as [|q qs] eqn:E'; [by apply split_on_nonnil in E'|].
            injection E as <- <-. destruct (IH q qs eq_refl) as [b ->]. by exists b. }
        by exists "", b.
      * destruct (IH x) as (a & b & ->); [by apply elem_of_cons; right|]. by exists (String c a), b.
Qed.

Lemma trim_left_sub f s : exists a, s = a +:+ trim_left f s.
Proof.
  induction s as [|c s [a IH]]; [by exists ""|]. simpl. destruct (f c); [|by exists ""].
  exists (String c a). simpl. by rewrite <- IH.
Qed.

Lemma trim_sub f s : exists a b, s = a +:+ trim f s +:+ b.
Proof.
  destruct (trim_left_sub f s) as [a Ha]. destruct (trim_right_split f (trim_left f s)) as (b & Hb & _).
  exists a, b. unfold trim. by rewrite <- Hb.
Qed.

Lemma original_sub l : exists a b, l = a +:+ original_repository l +:+ b.
Proof.
  unfold original_repository. destruct (split_char ":" l) as [|y [|x r]] eqn:E.
  - by exists "", l.
  - by exists "", l.
  - destruct (split_on_sub (char_eqb ":") l x) as (a & b & H).
    { unfold split_char in E. rewrite E. set_solver. }
    destruct (trim_sub is_blank x) as (c & d & H'). exists (a +:+ c), (d +:+ b).
    unfold trim_blank. rewrite H at 1. rewrite H' at 1. by rewrite !app_assoc_str.
Qed.

Lemma stamp_line_sub a x b : stamp_line x = true -> stamp_line (a +:+ x +:+ b) = true.
Proof.
  unfold stamp_line. rewrite !orb_true_iff. intros [[H|H]|H]; eapply contains_mid in H; eauto.
Qed.

Lemma original_clean l : stamp_line l = false ->
  stamp_line ("OriginalRepository: " +:+ original_repository l) = false.
Proof.
  intros H. apply not_true_iff_false. intros Hc. apply stamp_line_prefix in Hc; [|done].
  destruct (original_sub l) as (a & b & E).
  apply not_true_iff_false in H. apply H. rewrite E. by apply stamp_line_sub.
Qed.

Lemma own_repository x : own_field ("Repository: " +:+ x) = false.
Proof. done. Qed.

Lemma own_original x : own_field ("OriginalRepository: " +:+ x) = false.
Proof. done. Qed.

(** C58 *)
Lemma loop_no_own repo lines x : x ∈ stamp_loop repo lines -> own_field x = false.
Proof.
  intros [(_ & H & _)|(l & _ & _ & _ & [->| ->])]%loop_in; [|done|done].
  apply not_true_iff_false. intros Ho%own_stamp. congruence.
Qed.

Lemma loop_foreign repo lines :
  (forall l, l ∈ lines -> mentions_own l -> own_field l = true) ->
  List.filter foreign (stamp_loop repo lines) = List.filter foreign lines.
Proof.
  induction lines as [|l lines IH]; [done|]. intros H. simpl.
  assert (List.filter foreign (stamp_loop repo lines) = List.filter foreign lines) as IH'.
  { apply IH. intros l' H'. apply H. by apply elem_of_cons; right. }
  destruct (stamp_line l) eqn:E1.
  - apply stamp_line_spec in E1. apply H in E1; [|by apply elem_of_cons; left].
    unfold foreign at 2. rewrite E1. done.
  - destruct (wrong_repository repo l) eqn:E2.
    + unfold wrong_repository in E2. apply andb_true_iff in E2 as [E2 _].
      unfold foreign at 2. unfold repository_field. rewrite prefix_has, E2.
      destruct (own_field l); done.
    + simpl. by rewrite IH'.
Qed.

Lemma loop_repository repo lines x : x ∈ stamp_loop repo lines -> repository_field x = true ->
  same_line x ("Repository: " +:+ repo).
Proof.
  intros [(_ & _ & H)|(l & _ & _ & _ & [->| ->])]%loop_in Hr.
  - unfold wrong_repository in H. unfold repository_field in Hr. rewrite prefix_has in Hr. rewrite Hr in H.
    simpl in H. apply negb_false_iff, String.eqb_eq in H.
    apply has_prefix_true in Hr as [r ->]. by apply (same_line_trim r (" " +:+ repo)).
  - done.
  - exists ("Repository: " +:+ repo), "", "". rewrite !app_nil_str. done.
Qed.

Lemma loop_count repo lines :
  (forall l, l ∈ lines -> mentions_own l -> own_field l = true) ->
  length (List.filter repository_field (stamp_loop repo lines)) = length (List.filter repository_field lines).
Proof.
  induction lines as [|l lines IH]; [done|]. intros H. simpl.
  assert (length (List.filter repository_field (stamp_loop repo lines)) =
          length (List.filter repository_field lines)) as IH'.
  { apply IH. intros l' H'. apply H. by apply elem_of_cons; right. }
  destruct (stamp_line l) eqn:E1.
  - apply stamp_line_spec in E1. apply H in E1; [|by apply elem_of_cons; left].
    assert (repository_field l = false) as ->; [|done].
    destruct (repository_field l) eqn:E; [|done]. exfalso. clear -E1 E.
    unfold own_field, repository_field in *. rewrite !prefix_has in *.
    apply has_prefix_true in E as [r ->]. done.
  - destruct (wrong_repository repo l) eqn:E2.
    + unfold wrong_repository in E2. apply andb_true_iff in E2 as [E2 _].
      unfold repository_field at 2. rewrite prefix_has, E2. simpl. by rewrite IH'.
    + simpl. destruct (repository_field l); simpl; by rewrite IH'.
Qed.

(** Existing OriginalRepository lines stay. *)
Lemma loop_original repo lines :
  (forall l, l ∈ lines -> mentions_own l -> own_field l = true) ->
  sublist (List.filter original_field lines) (List.filter original_field (stamp_loop repo lines)).
Proof.
  induction lines as [|l lines IH]; [done|]. intros H. simpl.
  assert (sublist (List.filter original_field lines) (List.filter original_field (stamp_loop repo lines))) as IH'.
  { apply IH. intros l' H'. apply H. by apply elem_of_cons; right. }
  destruct (stamp_line l) eqn:E1.
  - apply stamp_line_spec in E1. apply H in E1; [|by apply elem_of_cons; left].
    assert (original_field l = false) as ->; [|done].
    destruct (original_field l) eqn:E; [|done]. exfalso. clear -E1 E.
    unfold own_field, original_field in *. rewrite !prefix_has in *.
    apply has_prefix_true in E as [r ->]. done.
  - destruct (wrong_repository repo l) eqn:E2.
    + unfold wrong_repository in E2. apply andb_true_iff in E2 as [E2 _].
      assert (original_field l = false) as ->.
      { apply has_prefix_true in E2 as [r ->]. done. }
      simpl. by constructor.
    + simpl. destruct (original_field l); [by constructor|done].
Qed.

Lemma stamp_body lines version ty url repo :
  stamp lines version ty url repo =
  (stamp_loop repo lines ++ ["PkgrVersion: " +:+ version; "PkgrInstallType: " +:+ ty; "PkgrRepositoryURL: " +:+ url])%list.
Proof. done. Qed.

(** C59 *)
Lemma loop_app repo a b : stamp_loop repo (a ++ b)%list = (stamp_loop repo a ++ stamp_loop repo b)%list.
Proof.
  induction a as [|l a IH]; [done|]. simpl. rewrite IH.
  destruct (stamp_line l), (wrong_repository repo l); done.
Qed.

Lemma loop_fixed repo lines :
  (forall x, x ∈ lines -> stamp_line x = false /\ wrong_repository repo x = false) -> stamp_loop repo lines = lines.
Proof.
  induction lines as [|l lines IH]; [done|]. intros H. simpl.
  destruct (H l) as [-> ->]; [by apply elem_of_cons; left|]. f_equal. apply IH.
  intros x Hx. apply H. by apply elem_of_cons; right.
Qed.

Lemma right_repository repo : wrong_repository repo ("Repository: " +:+ repo) = false.
Proof.
  unfold wrong_repository. rewrite String.eqb_refl. by rewrite andb_false_r.
Qed.

Lemma stamp_twice lines version ty url repo :
  ~ mentions_own repo ->
  stamp (stamp lines version ty url repo) version ty url repo = stamp lines version ty url repo.
Proof.
  intros Hr. unfold stamp at 1. rewrite stamp_body, loop_app. f_equal.
  rewrite (loop_fixed repo (stamp_loop repo lines)).
  - cbn [stamp_loop].
    rewrite (own_stamp ("PkgrVersion: " +:+ version)) by done.
    rewrite (own_stamp ("PkgrInstallType: " +:+ ty)) by done.
    rewrite (own_stamp ("PkgrRepositoryURL: " +:+ url)) by done.
    by rewrite app_nil_r.
  - intros x [H|(l & _ & Hl & _ & [->| ->])]%loop_in.
    + tauto.
    + split; [by apply original_clean|done].
    + split; [|apply right_repository]. apply not_true_iff_false. intros Hc.
      apply stamp_line_prefix in Hc; [|done]. by apply stamp_line_spec in Hc.
Qed.

(** C60 *)
Lemma original_exact v : all_bytes (fun c => negb (char_eqb ":" c)) v = true ->
  original_repository ("Repository:" +:+ v) = trim_blank v.
Proof.
  intros H. unfold original_repository. simpl. unfold split_char.
  by rewrite split_on_none.
Qed.

Lemma loop_replaced repo a b l :
  ~ mentions_own l -> repository_field l = true -> ~ same_line l ("Repository: " +:+ repo) ->
  stamp_loop repo (a ++ l :: b)%list =
  (stamp_loop repo a ++ ("OriginalRepository: " +:+ original_repository l) :: ("Repository: " +:+ repo) :: stamp_loop repo b)%list.
Proof.
  intros H1 H2 H3. rewrite loop_app. f_equal. simpl.
  assert (stamp_line l = false) as ->.
  { apply not_true_iff_false. by rewrite stamp_line_spec. }
  assert (wrong_repository repo l = true) as ->; [|done].
  unfold wrong_repository. unfold repository_field in H2. rewrite prefix_has in H2. rewrite H2. simpl.
  apply negb_true_iff, not_true_iff_false. rewrite String.eqb_eq. intros E. apply H3.
  apply has_prefix_true in H2 as [r ->]. by apply (same_line_trim r (" " +:+ repo)).
Qed.

Lemma tidy_trimmed n : tidy n -> trimmed is_blank n.
Proof.
  intros H. split.
  - destruct n as [|c n]; [done|]. simpl. destruct (is_blank c) eqn:E; [|done].
    apply char_eqb_eq in E as ->. by destruct (H n) as [[] _].
  - assert (forall r, n <> r +:+ " ") as H' by (intros r; apply H). clear H.
    induction n as [|c n IH]; [done|]. simpl.
    rewrite IH; [|intros r E; apply (H' (String c r)); simpl; by rewrite E].
    destruct n; [|done]. destruct (is_blank c) eqn:E; [|done].
    apply char_eqb_eq in E as ->. by destruct (H' "").
Qed.

Lemma original_kept a n b : n <> "" -> tidy n ->
  all_bytes (fun c => negb (char_eqb ":" c)) n = true ->
  all_bytes (char_eqb " ") a = true -> all_bytes (char_eqb " ") b = true ->
  original_repository ("Repository:" +:+ a +:+ n +:+ b) = n.
Proof.
  intros H0 H1 H2 H3 H4.
  assert (forall x, all_bytes (char_eqb " ") x = true -> all_bytes (fun c => negb (char_eqb ":" c)) x = true) as Hx.
  { intros x. apply all_bytes_impl. intros c E. apply char_eqb_eq in E as <-. done. }
  assert (forall x, all_bytes (char_eqb " ") x = true -> all_bytes is_blank x = true) as Hy.
  { intros x. apply all_bytes_impl. intros c E. apply char_eqb_eq in E as <-. done. }
  rewrite original_exact.
  - apply trim_app; [by apply Hy|by apply Hy|by apply tidy_trimmed|done].
  - rewrite !all_bytes_app, H2. by rewrite !Hx.
Qed.
