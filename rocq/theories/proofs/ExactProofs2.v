(** Lemmas for props/P_Exact2.v. *)
From stdpp Require Import strings list gmap.
From Coq Require Import Ascii ZArith Lia.
From Verif.model Require Import GoStr Env Stamp Nexus Graph Plan.
From Verif.spec Require Import StrSpec EnvSpec StampSpec ExactSpec ControlSpec RepoSpec.
From Verif.proofs Require Import GoStrLemmas EnvProofs StampProofs UrlProofs ControlProofs ApartProofs SettingsProofs.

Local Open Scope string_scope.
Local Arguments Ascii.eqb : simpl never.
Local Arguments char_eqb : simpl never.

Lemma trim_blank_idle e : trim is_blank e = e -> unpadded e.
Proof.
  intros H r. split; intros ->.
  - assert (trim is_blank (" " +:+ r) = trim is_blank r) as E by (by apply (trim_pre is_blank " ")).
    pose proof (trim_length is_blank r) as L. rewrite <- E, H in L. cbn in L. lia.
  - assert (trim is_blank (r +:+ " ") = trim is_blank r) as E by (by apply trim_post).
    pose proof (trim_length is_blank r) as L. rewrite <- E, H in L. rewrite append_length in L. cbn in L. lia.
Qed.

Lemma all_blank s : all_bytes (Ascii.eqb " ") s = all_bytes is_blank s.
Proof. apply all_bytes_ext. intros c. unfold is_blank, char_eqb. apply Ascii.eqb_sym. Qed.

Lemma trim_blank_cut x : blanks_cut x (trim_blank x).
Proof.
  unfold trim_blank. destruct (trim_parts is_blank x) as (a & b & E & Ha & Hb). split.
  - apply trim_blank_idle. rewrite E at 2. by rewrite (trim_pre _ _ _ Ha), (trim_post _ _ _ Hb).
  - exists a, b. by rewrite !all_blank.
Qed.

Lemma blanks_cut_trim x n : blanks_cut x n -> trim_blank x = n.
Proof.
  intros (Hu & a & b & -> & Ha & Hb). rewrite all_blank in Ha, Hb. unfold trim_blank.
  rewrite (trim_pre is_blank a _ Ha), (trim_post is_blank _ b Hb). by apply unpadded_trim.
Qed.

(** * Name-value lists *)
Lemma update_exact l name value l' : nvp_update l name value = Some l' <->
  exists a p b, l = (a ++ p :: b)%list /\ n_name p = name /\ ~ name ∈ map n_name b /\
    l' = (a ++ {| n_name := name; n_value := value |} :: b)%list.
Proof.
  split.
  - revert l'. induction l as [|p l IH]; intros l' H; cbn in H; [done|].
    destruct (nvp_update l name value) as [r|] eqn:E.
    + injection H as <-. destruct (IH r eq_refl) as (a & q & b & -> & Hq & Hb & ->). by exists (p :: a), q, b.
    + destruct (String.eqb_spec name (n_name p)) as [Hp|Hp]; [|done]. injection H as <-.
      exists [], p, l. rewrite <- Hp. split; [done|]. split; [done|]. split; [by apply update_none in E|done].
  - intros (a & p & b & -> & Hp & Hb & ->). induction a as [|q a IH]; cbn.
    + rewrite (proj2 (update_none b name value) Hb), Hp, String.eqb_refl. done.
    + by rewrite IH.
Qed.

Lemma remove_exact a p b name : n_name p = name -> ~ name ∈ map n_name a ->
  nvp_remove (a ++ p :: b)%list name = (a ++ b)%list.
Proof.
  intros Hp Ha. induction a as [|q a IH]; cbn; [by rewrite Hp, String.eqb_refl|].
  cbn in Ha. apply not_elem_of_cons in Ha as [Hq Ha]. apply String.eqb_neq in Hq. rewrite Hq. by rewrite IH.
Qed.

Lemma remove_absent l name : ~ name ∈ map n_name l -> nvp_remove l name = l.
Proof.
  intros H. induction l as [|q l IH]; cbn; [done|].
  cbn in H. apply not_elem_of_cons in H as [Hq H]. apply String.eqb_neq in Hq. rewrite Hq. by rewrite IH.
Qed.

(** * Stamping *)
Lemma same_line_trims x y : same_line x y -> trim_space x = trim_space y.
Proof.
  intros (s & b & d & -> & -> & Hb & Hd). rewrite all_white in Hb, Hd. unfold trim_space.
  by rewrite (trim_post _ _ _ Hb), (trim_post _ _ _ Hd).
Qed.

Lemma wrong_spec repo l : wrong_repository repo l = true <->
  repository_field l = true /\ ~ same_line l ("Repository: " +:+ repo).
Proof.
  unfold wrong_repository, repository_field. rewrite prefix_has, andb_true_iff, negb_true_iff, String.eqb_neq.
  split; intros [H1 H2]; (split; [done|]).
  - intros H. by apply H2, same_line_trims.
  - intros E. apply H2. apply has_prefix_true in H1 as [r ->]. by apply (same_line_trim r (" " +:+ repo)).
Qed.

Lemma original_parts r : exists x rest, r = x +:+ rest /\ without ":" x /\ (rest = "" \/ exists r', rest = ":" +:+ r') /\
  original_repository ("Repository:" +:+ r) = trim_blank x.
Proof.
  assert (E : forall l, original_repository ("Repository:" +:+ r) = match split_char ":" r with x :: _ => trim_blank x | [] => l end).
  { intros l. unfold original_repository. change ("Repository:" +:+ r) with ("Repository" +:+ String ":" r). unfold split_char at 1.
    rewrite (split_on_app _ "Repository" ":"%char r) by done. change (split_on (char_eqb ":") r) with (split_char ":" r).
    pose proof (split_on_nonnil (char_eqb ":") r) as Hn. unfold split_char. by destruct (split_on (char_eqb ":") r). }
  rewrite (E ""). destruct (first_byte_dec (char_eqb ":"%char) r) as [Hn|(w & c & r' & -> & Hc & Hw)].
  - exists r, "". rewrite app_nil_str. split; [done|]. split; [done|]. split; [by left|].
    unfold split_char. by rewrite (split_on_none _ _ Hn).
  - apply char_eqb_eq in Hc as <-. exists w, (String ":" r'). split; [done|]. split; [done|]. split; [right; by exists r'|].
    unfold split_char. by rewrite (split_on_app _ _ _ _ Hw).
Qed.

Lemma loop_exact repo lines : exists outs, Forall2 (stamped_as repo) lines outs /\ stamp_loop repo lines = concat outs.
Proof.
  induction lines as [|l lines (outs & H1 & H2)]; [by exists []|]. cbn [stamp_loop].
  destruct (stamp_line l) eqn:E1.
  - exists ([] :: outs). split; [|done]. constructor; [|done]. apply st_dropped. by apply stamp_line_spec.
  - assert (Hm : ~ mentions_own l) by (rewrite <- stamp_line_spec; congruence).
    destruct (wrong_repository repo l) eqn:E2.
    + apply wrong_spec in E2 as [E2 E3]. assert (E2' := E2). unfold repository_field in E2. rewrite prefix_has in E2.
      apply has_prefix_true in E2 as [r ->]. destruct (original_parts r) as (x & rest & -> & Hx & Hr & ->).
      eexists (_ :: outs). cbn [concat]. rewrite H2. split.
      * constructor; [|done]. eapply (st_moved repo _ x rest); [done|done|done|done|done|apply trim_blank_cut].
      * done.
    + exists ([l] :: outs). rewrite H2. split; [|done]. constructor; [|done]. apply st_kept; [done|].
      destruct (repository_field l) eqn:E3; [|by left]. right.
      destruct (String.eqb_spec (trim_space l) (trim_space ("Repository: " +:+ repo))) as [E|E].
      * unfold repository_field in E3. rewrite prefix_has in E3. apply has_prefix_true in E3 as [r ->].
        by apply (same_line_trim r (" " +:+ repo)).
      * assert (wrong_repository repo l = true); [|congruence]. apply wrong_spec. split; [done|].
        intros H. by apply E, same_line_trims.
Qed.

(** Only one thing can become of a line. *)
Lemma stamped_unique repo l o1 o2 : stamped_as repo l o1 -> stamped_as repo l o2 -> o1 = o2.
Proof.
  assert (G : forall l x rest n, l = "Repository:" +:+ x +:+ rest -> without ":" x ->
    (rest = "" \/ exists r, rest = ":" +:+ r) -> blanks_cut x n -> n = original_repository l).
  { intros l' x rest n -> Hx Hr Hn. apply blanks_cut_trim in Hn as <-. unfold original_repository.
    change ("Repository:" +:+ x +:+ rest) with ("Repository" +:+ String ":" (x +:+ rest)). unfold split_char.
    rewrite (split_on_app _ "Repository" ":"%char) by done. destruct Hr as [-> | [r ->]].
    - by rewrite app_nil_str, (split_on_none (char_eqb ":") x Hx).
    - change (":" +:+ r) with (String ":" r). by rewrite (split_on_app (char_eqb ":") x ":"%char r Hx eq_refl). }
  intros H1 H2. inversion H1 as [l1 A1|l1 x1 r1 n1 A1 A2 A3 A4 A5 A6|l1 A1 A2]; subst l1 o1;
  inversion H2 as [l2 B1|l2 x2 r2 n2 B1 B2 B3 B4 B5 B6|l2 B1 B2]; subst l2 o2; try done.
  - by rewrite (G l x1 r1 n1), (G l x2 r2 n2).
  - exfalso. destruct B2 as [B2|B2]; [|done]. subst l. unfold repository_field in B2. by rewrite prefix_has, has_prefix_app in B2.
  - exfalso. destruct A2 as [A2|A2]; [|done]. subst l. unfold repository_field in A2. by rewrite prefix_has, has_prefix_app in A2.
Qed.

(** * Customizations *)
Lemma apply_customs_last cs l cfg nx cfg' nx' p :
  apply_customs cs l (cfg, nx) = Some (cfg', nx') -> is_customization_set "Suggests" cs p = true ->
  (forall v, last_such (fun kv => kv.1 = p) l (p, v) -> pd_suggests (config_for cfg' p) = cu_suggests v) /\
  (p ∉ l.*1 -> pd_suggests (config_for cfg' p) = pd_suggests (config_for cfg p)).
Proof.
  intros E Hs. revert cfg nx E. induction l as [|[q w] l IH]; intros cfg nx E; cbn [apply_customs] in E.
  - injection E as <- <-. split; [|done]. intros v (l1 & l2 & H & _). by destruct l1.
  - destruct (apply_custom cs (q, w) (cfg, nx)) as [[cfg1 nx1]|] eqn:E1; [|done].
    destruct (IH cfg1 nx1 E) as [A1 A2]. pose proof (apply_custom_cfg _ _ _ _ _ _ _ p E1) as C. split.
    + intros v Hv. apply last_such_cons in Hv as [Hv|(Hv & Hq & Hn)]; [by apply A1|]. injection Hv as <- <-.
      rewrite A2.
      * rewrite C. by rewrite decide_True by done.
      * intros Hp. apply elem_of_list_fmap in Hp as (kv & Hk & Hp). by apply (Hn kv).
    + intros Hp. cbn [fmap list_fmap fst] in Hp. apply not_elem_of_cons in Hp as [Hp1 Hp2]. rewrite A2, C by done.
      rewrite decide_False; [done|]. by intros [? _].
Qed.
