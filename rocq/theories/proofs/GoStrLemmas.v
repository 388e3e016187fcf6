(** Lemmas about the string functions of [model/GoStr.v]. *)
From stdpp Require Import strings list.
From Coq Require Import Ascii ZArith Lia.
From Verif.model Require Import GoStr.
From Verif.spec Require Export StrSpec.

Local Open Scope string_scope.

Global Arguments String.append : simpl nomatch.

Lemma char_eqb_eq a b : char_eqb a b = true <-> a = b.
Proof. apply Ascii.eqb_eq. Qed.
Lemma char_eqb_refl a : char_eqb a a = true.
Proof. apply Ascii.eqb_refl. Qed.
Lemma char_eqb_neq a b : char_eqb a b = false <-> a <> b.
Proof. apply Ascii.eqb_neq. Qed.

Lemma app_nil_str s : s +:+ "" = s.
Proof. induction s as [|c s IH]; simpl; [done|]. by rewrite IH. Qed.

Lemma app_assoc_str a b c : (a +:+ b) +:+ c = a +:+ (b +:+ c).
Proof. induction a as [|x a IH]; simpl; [done|]. by rewrite IH. Qed.

Lemma app_inj_str a b c : a +:+ b = a +:+ c -> b = c.
Proof. induction a as [|x a IH]; simpl; [done|]. intros [= H]; auto. Qed.

Lemma all_bytes_app f a b : all_bytes f (a +:+ b) = all_bytes f a && all_bytes f b.
Proof. induction a as [|c a IH]; simpl; [done|]. by rewrite IH, andb_assoc. Qed.

Lemma all_bytes_impl (f g : ascii -> bool) s :
  (forall c, f c = true -> g c = true) -> all_bytes f s = true -> all_bytes g s = true.
Proof.
  intros Hfg. induction s as [|c s IH]; simpl; [done|].
  rewrite !andb_true_iff. intros [H1 H2]; auto.
Qed.

Lemma cut_prefix_app p s : cut_prefix p (p +:+ s) = Some s.
Proof. induction p as [|c p IH]; simpl; [done|]. by rewrite char_eqb_refl. Qed.

Lemma cut_prefix_Some p s r : cut_prefix p s = Some r <-> s = p +:+ r.
Proof.
  split; [|intros ->; apply cut_prefix_app].
  revert s; induction p as [|c p IH]; simpl; intros s; [by intros [= ->]|].
  destruct s as [|d s]; [done|]. destruct (char_eqb c d) eqn:E; [|done].
  apply char_eqb_eq in E as ->. intros H. by rewrite (IH _ H).
Qed.

Lemma has_prefix_true p s : has_prefix p s = true <-> exists r, s = p +:+ r.
Proof.
  unfold has_prefix. destruct (cut_prefix p s) eqn:E.
  - apply cut_prefix_Some in E. split; eauto.
  - split; [done|]. intros [r Hr]. apply cut_prefix_Some in Hr. congruence.
Qed.

Lemma has_prefix_app p s : has_prefix p (p +:+ s) = true.
Proof. apply has_prefix_true; eauto. Qed.

Lemma index_of_app sub a b :
  index_of sub b <> None -> index_of sub (a +:+ b) <> None.
Proof.
  intros H. induction a as [|c a IH]; simpl; [done|].
  destruct (has_prefix sub (String c (a +:+ b))); [done|].
  destruct (index_of sub (a +:+ b)); done.
Qed.

Lemma contains_true sub s : contains sub s = true <-> exists a b, s = a +:+ sub +:+ b.
Proof.
  unfold contains. split.
  - revert sub. induction s as [|c s IH]; intros sub; simpl.
    + destruct (has_prefix sub "") eqn:E; [|done]. intros _.
      apply has_prefix_true in E as [r Hr]. exists "", r. done.
    + destruct (has_prefix sub (String c s)) eqn:E.
      * intros _. apply has_prefix_true in E as [r Hr]. exists "", r. done.
      * destruct (index_of sub s) eqn:E2; [|done]. intros _.
        destruct (IH sub) as (a & b & ->); [by rewrite E2|]. exists (String c a), b. done.
  - intros (a & b & ->). destruct (index_of sub (a +:+ sub +:+ b)) eqn:E; [done|].
    exfalso. revert E. apply index_of_app.
    destruct (sub +:+ b) eqn:E; simpl; rewrite <- ?E.
    + destruct sub; [|done]. done.
    + by rewrite has_prefix_app.
Qed.

Lemma contains_false sub s : contains sub s = false <-> forall a b, s <> a +:+ sub +:+ b.
Proof.
  rewrite <- not_true_iff_false, contains_true. split; [|by intros H (a & b & E); eapply H].
  intros H a b E. apply H; eauto.
Qed.

(** A one-byte pattern is absent exactly when no byte equals it. *)
Lemma contains_char_false c s :
  contains (String c "") s = false <-> all_bytes (fun d => negb (char_eqb c d)) s = true.
Proof.
  rewrite contains_false. split.
  - intros H. induction s as [|d s IH]; simpl; [done|]. apply andb_true_iff; split.
    + apply negb_true_iff, char_eqb_neq. intros ->. by apply (H "" s).
    + apply IH. intros a b E. apply (H (String d a) b). by rewrite E.
  - intros H a b ->. rewrite all_bytes_app in H. simpl in H.
    rewrite char_eqb_refl in H. simpl in H. rewrite andb_false_r in H. done.
Qed.

Lemma replace1_not_contained old new s : contains old s = false -> replace1 old new s = s.
Proof.
  rewrite contains_false. induction s as [|c s IH]; intros H; simpl.
  - destruct (cut_prefix old "") eqn:E; [|done]. apply cut_prefix_Some in E.
    destruct (H "" s E).
  - destruct (cut_prefix old (String c s)) eqn:E.
    + apply cut_prefix_Some in E. destruct (H "" s0 E).
    + f_equal. apply IH. intros a b ->. by apply (H (String c a) b).
Qed.

(** If the first byte of the pattern does not occur in [a], the first
    occurrence in [a ++ pattern ++ b] is right after [a]. *)
Lemma replace1_app c old new a b :
  all_bytes (fun d => negb (char_eqb c d)) a = true ->
  replace1 (String c old) new (a +:+ String c old +:+ b) = a +:+ new +:+ b.
Proof.
  induction a as [|d a IH]; simpl; intros H.
  - rewrite char_eqb_refl, cut_prefix_app. done.
  - apply andb_true_iff in H as [H1 H2]. apply negb_true_iff in H1. rewrite H1. f_equal. auto.
Qed.

Lemma trim_left_all f s : all_bytes f s = true -> trim_left f s = "".
Proof.
  induction s as [|c s IH]; simpl; [done|]. intros [H1 H2]%andb_true_iff. rewrite H1. auto.
Qed.

Lemma trim_left_app f a s : all_bytes f a = true -> trim_left f (a +:+ s) = trim_left f s.
Proof.
  induction a as [|c a IH]; simpl; [done|]. intros [H1 H2]%andb_true_iff. rewrite H1. auto.
Qed.

Lemma trim_right_all f s : all_bytes f s = true -> trim_right f s = "".
Proof.
  induction s as [|c s IH]; simpl; [done|]. intros [H1 H2]%andb_true_iff.
  by rewrite (IH H2), H1.
Qed.

Lemma trim_right_app f s a : all_bytes f a = true -> trim_right f (s +:+ a) = trim_right f s.
Proof.
  intros H. induction s as [|c s IH]; simpl; [by apply trim_right_all|]. by rewrite IH.
Qed.

(** A string with no [f]-byte at either end. *)
Definition trimmed (f : ascii -> bool) (s : string) : Prop :=
  trim_left f s = s /\ trim_right f s = s.

Lemma trim_trimmed f s : trimmed f s -> trim f s = s.
Proof. intros [H1 H2]. unfold trim. by rewrite H1. Qed.

Lemma trim_app f a s b :
  all_bytes f a = true -> all_bytes f b = true -> trimmed f s -> s <> "" ->
  trim f (a +:+ s +:+ b) = s.
Proof.
  intros Ha Hb [H1 H2] Hs. unfold trim. rewrite (trim_left_app _ _ _ Ha).
  destruct s as [|c s]; [done|]. simpl in *.
  destruct (f c) eqn:E.
  - exfalso. clear -H1.
    assert (forall t, String.length (trim_left f t) <= String.length t) as L.
    { induction t as [|d t IH]; simpl; [lia|]. destruct (f d); simpl; lia. }
    pose proof (L s) as L'. rewrite H1 in L'. simpl in L'. lia.
  - change (String c (s +:+ b)) with (String c s +:+ b). rewrite (trim_right_app _ _ _ Hb).
    simpl. by rewrite E.
Qed.

Lemma trimmed_forall f s : all_bytes (fun c => negb (f c)) s = true -> trimmed f s.
Proof.
  intros H. split.
  - destruct s as [|c s]; [done|]. simpl in *. apply andb_true_iff in H as [H1 _].
    apply negb_true_iff in H1. by rewrite H1.
  - induction s as [|c s IH]; [done|]. simpl in *. apply andb_true_iff in H as [H1 H2].
    apply negb_true_iff in H1. rewrite (IH H2). destruct s; [by rewrite H1|done].
Qed.

(** Splitting. *)
Lemma split_on_none f s : all_bytes (fun c => negb (f c)) s = true -> split_on f s = [s].
Proof.
  induction s as [|c s IH]; simpl; [done|]. intros [H1 H2]%andb_true_iff.
  apply negb_true_iff in H1. by rewrite H1, (IH H2).
Qed.

Lemma split_on_app f w c s :
  all_bytes (fun c => negb (f c)) w = true -> f c = true ->
  split_on f (w +:+ String c s) = w :: split_on f s.
Proof.
  intros Hw Hc. induction w as [|d w IH]; simpl.
  - by rewrite Hc.
  - simpl in Hw. apply andb_true_iff in Hw as [H1 H2]. apply negb_true_iff in H1.
    by rewrite H1, (IH H2).
Qed.

Lemma split_on_nonnil f s : split_on f s <> [].
Proof.
  destruct s as [|c s]; simpl; [done|]. destruct (f c); [done|]. by destruct (split_on f s).
Qed.

Lemma split_on_n_one f s : split_on_n f 1 s = [s].
Proof. by destruct s. Qed.

Lemma split_on_n_none f n s :
  all_bytes (fun c => negb (f c)) s = true -> split_on_n f (S n) s = [s].
Proof.
  intros H. destruct n as [|n]; [apply split_on_n_one|].
  induction s as [|c s IH]; [done|]. simpl in H. apply andb_true_iff in H as [H1 H2].
  apply negb_true_iff in H1. specialize (IH H2).
  change (split_on_n f (S (S n)) (String c s)) with
    (if f c then "" :: split_on_n f (S n) s
     else match split_on_n f (S (S n)) s with
          | [] => [String c ""] | p :: ps => String c p :: ps end).
  by rewrite H1, IH.
Qed.

Lemma split_on_n_app f n w c s :
  all_bytes (fun c => negb (f c)) w = true -> f c = true ->
  split_on_n f (S (S n)) (w +:+ String c s) = w :: split_on_n f (S n) s.
Proof.
  intros Hw Hc. induction w as [|d w IH].
  - change (split_on_n f (S (S n)) ("" +:+ String c s)) with
      (if f c then "" :: split_on_n f (S n) s
       else match split_on_n f (S (S n)) s with
            | [] => [String c ""] | p :: ps => String c p :: ps end).
    by rewrite Hc.
  - simpl in Hw. apply andb_true_iff in Hw as [H1 H2]. apply negb_true_iff in H1.
    change (split_on_n f (S (S n)) (String d w +:+ String c s)) with
      (if f d then "" :: split_on_n f (S n) (w +:+ String c s)
       else match split_on_n f (S (S n)) (w +:+ String c s) with
            | [] => [String d ""] | p :: ps => String d p :: ps end).
    by rewrite H1, (IH H2).
Qed.

(** Every string either has no [f]-byte or splits at the first one. *)
Lemma first_byte_dec (f : ascii -> bool) s :
  all_bytes (fun c => negb (f c)) s = true \/
  exists w c r, s = w +:+ String c r /\ f c = true /\ all_bytes (fun c => negb (f c)) w = true.
Proof.
  induction s as [|d s IH]; [by left|]. destruct (f d) eqn:E.
  - right. exists "", d, s. done.
  - destruct IH as [IH|(w & c & r & -> & H1 & H2)].
    + left. simpl. by rewrite E, IH.
    + right. exists (String d w), c, r. simpl. by rewrite E, H2.
Qed.

Lemma white_is_space c : white c = is_space c.
Proof. destruct c as [[] [] [] [] [] [] [] []]; reflexivity. Qed.

Lemma all_bytes_ext (f g : ascii -> bool) s : (forall c, f c = g c) -> all_bytes f s = all_bytes g s.
Proof. intros H. induction s as [|c s IH]; simpl; [done|]. by rewrite H, IH. Qed.

Lemma one_of_false set c :
  one_of set c = false <-> all_bytes (fun d => negb (char_eqb d c)) set = true.
Proof.
  induction set as [|d r IH]; simpl; [done|].
  rewrite orb_false_iff, andb_true_iff, negb_true_iff, IH. unfold char_eqb. tauto.
Qed.
