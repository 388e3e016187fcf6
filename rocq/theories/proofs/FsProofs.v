(** Lemmas on paths, trees and single changes. *)
From stdpp Require Import strings list gmap.
From Coq Require Import Ascii ZArith Lia.
From Verif.model Require Import GoStr Desc Pacman Graph Fs Rollback.
From Verif.spec Require Import LibSpec.

Local Open Scope string_scope.

Lemma strip_spec p q s : strip p q = Some s <-> q = (p ++ s)%list.
Proof.
  revert q. induction p as [|x p IH]; intros q; cbn [strip app].
  - split; congruence.
  - destruct q as [|y q]; [done|]. destruct (String.eqb_spec x y) as [->|Hn].
    + rewrite IH. split; [by intros ->|congruence].
    + split; [done|congruence].
Qed.

Lemma below_spec p q : below p q = true <-> in_dir p q.
Proof.
  unfold below, in_dir. destruct (strip p q) as [s|] eqn:E.
  - apply strip_spec in E. split; [by exists s|done].
  - split; [done|]. intros [s H]. apply strip_spec in H. congruence.
Qed.

Lemma below_refl p : below p p = true.
Proof. apply below_spec. exists []. by rewrite app_nil_r. Qed.

Section slots.
  Context (lib : list string).

  Lemma app_cons_inj (x y : string) (s t : list string) :
    (lib ++ x :: s)%list = (lib ++ y :: t)%list -> x = y /\ s = t.
  Proof. intros H. apply app_inv_head in H. by injection H. Qed.

  Lemma slot_eq (x : string) s : ((lib ++ [x]) ++ s)%list = (lib ++ x :: s)%list.
  Proof. by rewrite <- app_assoc. Qed.

  Lemma below_slot x y s : below (lib ++ [x]) (lib ++ y :: s) = String.eqb x y.
  Proof.
    destruct (String.eqb_spec x y) as [->|Hn].
    - apply below_spec. exists s. by rewrite slot_eq.
    - apply not_true_iff_false. rewrite below_spec. intros [t H]. rewrite slot_eq in H.
      apply app_cons_inj in H as [H _]. done.
  Qed.

  Lemma below_out x q : (forall s, q <> (lib ++ x :: s)%list) -> below (lib ++ [x]) q = false.
  Proof.
    intros H. apply not_true_iff_false. rewrite below_spec. intros [t E]. rewrite slot_eq in E. by apply (H t).
  Qed.

  Lemma below_lib q : below lib q = true <-> exists s, q = (lib ++ s)%list.
  Proof. apply below_spec. Qed.

  Lemma not_below_self x : below (lib ++ [x]) lib = false.
  Proof.
    apply below_out. intros s H. apply (f_equal length) in H. rewrite app_length in H. cbn in H. lia.
  Qed.

  Lemma lib_neq (x : string) s : lib <> (lib ++ x :: s)%list.
  Proof. intros H. apply (f_equal length) in H. rewrite app_length in H. cbn in H. lia. Qed.

  (** Either a path is in some directory of the library or it is in none. *)
  Lemma slot_case q : (exists x s, q = (lib ++ x :: s)%list) \/ (forall x s, q <> (lib ++ x :: s)%list).
  Proof.
    destruct (strip lib q) as [[|x s]|] eqn:E.
    - right. apply strip_spec in E. subst q. rewrite app_nil_r. intros x s. apply lib_neq.
    - left. apply strip_spec in E. by exists x, s.
    - right. intros x s H. apply strip_spec in H. congruence.
  Qed.

  Lemma remove_slot x f y s :
    remove_all (lib ++ [x]) f (lib ++ y :: s)%list = if decide (x = y) then None else f (lib ++ y :: s)%list.
  Proof.
    unfold remove_all. rewrite below_slot. destruct (String.eqb_spec x y), (decide (x = y)); done.
  Qed.

  Lemma remove_out x f q : (forall s, q <> (lib ++ x :: s)%list) -> remove_all (lib ++ [x]) f q = f q.
  Proof. intros H. unfold remove_all. by rewrite below_out. Qed.

  Lemma remove_lib x f : remove_all (lib ++ [x]) f lib = f lib.
  Proof. apply remove_out. intros s. apply lib_neq. Qed.

  Lemma move_slot x y f z s :
    move (lib ++ [x]) (lib ++ [y]) f (lib ++ z :: s)%list =
    if decide (z = y) then f (lib ++ x :: s)%list
    else if decide (z = x) then None else f (lib ++ z :: s)%list.
  Proof.
    unfold move. destruct (decide (z = y)) as [->|Hy].
    - rewrite (proj2 (strip_spec (lib ++ [y]) (lib ++ y :: s) s)) by (by rewrite slot_eq).
      by rewrite slot_eq.
    - destruct (strip (lib ++ [y]) (lib ++ z :: s)) as [t|] eqn:E.
      { apply strip_spec in E. rewrite slot_eq in E. apply app_cons_inj in E as [? _]. done. }
      rewrite below_slot. destruct (String.eqb_spec x z), (decide (z = x)); congruence.
  Qed.

  Lemma move_out x y f q : (forall s, q <> (lib ++ x :: s)%list) -> (forall s, q <> (lib ++ y :: s)%list) ->
    move (lib ++ [x]) (lib ++ [y]) f q = f q.
  Proof.
    intros Hx Hy. unfold move. destruct (strip (lib ++ [y]) q) as [t|] eqn:E.
    { apply strip_spec in E. rewrite slot_eq in E. by apply (Hy t) in E. }
    by rewrite below_out.
  Qed.

  Lemma removelast_slot (x : string) : removelast (lib ++ [x]) = lib.
  Proof. by rewrite removelast_last. Qed.

  (** Renaming succeeds for a directory when nothing has the new name. *)
  Lemma rename_slot x y f : x <> y -> f lib = Some Dir -> f (lib ++ [x])%list = Some Dir ->
    f (lib ++ [y])%list = None ->
    rename (lib ++ [x]) (lib ++ [y]) f = Some (move (lib ++ [x]) (lib ++ [y]) f).
  Proof.
    intros Hn Hl Hx Hy. unfold rename. rewrite Hx, removelast_slot.
    unfold fs_dir_exists at 1. rewrite Hl. cbn [negb]. unfold fs_dir_exists. rewrite Hy.
    unfold fs_exists. rewrite Hy. cbn [is_dir orb andb].
    rewrite below_slot. destruct (String.eqb_spec x y); done.
  Qed.

  (** It fails when the source is missing or the target is a directory. *)
  Lemma rename_missing a b f : f a = None -> rename a b f = None.
  Proof. unfold rename. by intros ->. Qed.

  Lemma rename_exists a b f : f b = Some Dir -> rename a b f = None.
  Proof.
    intros H. unfold rename. destruct (f a); [|done]. destruct (negb _); [done|].
    unfold fs_dir_exists. by rewrite H.
  Qed.

  (** Whatever it does, it does it in the two directories. *)
  Lemma rename_out x y f q : (forall s, q <> (lib ++ x :: s)%list) -> (forall s, q <> (lib ++ y :: s)%list) ->
    default f (rename (lib ++ [x]) (lib ++ [y]) f) q = f q.
  Proof.
    intros Hx Hy. unfold rename. destruct (f _) as [n|]; [|done].
    destruct (negb _); [done|]. destruct (fs_dir_exists _ _); [done|].
    destruct (is_dir n && _); [done|]. cbn. by apply move_out.
  Qed.

  (** In a tree, nothing is below what does not exist. *)
  Lemma tree_none f x : tree_ok f -> f (lib ++ [x])%list = None -> no_dir lib x f.
  Proof.
    intros T H s. rewrite <- slot_eq. induction s as [|y s IH] using rev_ind.
    - by rewrite app_nil_r.
    - rewrite app_assoc. specialize (T ((lib ++ [x]) ++ s)%list y). rewrite IH in T.
      destruct (f (((lib ++ [x]) ++ s) ++ [y])%list); [|reflexivity].
      discriminate T. discriminate.
  Qed.
End slots.

(** ** Names *)

Lemma letter_not c : letter c -> c <> "/"%char /\ c <> "_"%char /\ c <> "."%char.
Proof.
  unfold letter. intros H. repeat split; intros ->; cbv in H; lia.
Qed.

Lemma name_char_not c : name_char c -> c <> "/"%char.
Proof.
  intros [H|[H| ->]]; [by apply letter_not|intros ->; cbv in H; lia|done].
Qed.

Lemma split_no_slash s : all_chars (fun c => c <> "/"%char) s -> split_slash s = [s].
Proof.
  induction s as [|c s IH]; cbn [split_slash all_chars]; [done|]. intros [Hc Hs].
  rewrite IH by done. destruct (Ascii.eqb_spec c "/"); done.
Qed.

Lemma all_chars_impl (P Q : ascii -> Prop) s : (forall c, P c -> Q c) -> all_chars P s -> all_chars Q s.
Proof. intros H. induction s as [|c s IH]; cbn; [done|]. intros [? ?]. auto. Qed.

Lemma r_name_split p : r_name p -> all_chars (fun c => c <> "/"%char) p.
Proof.
  destruct p as [|c p]; [done|]. cbn [r_name all_chars]. intros [H1 H2]. split; [by apply letter_not|].
  eapply all_chars_impl; [apply name_char_not|done].
Qed.

Lemma join_plain lib s : all_chars (fun c => c <> "/"%char) s -> s <> "" -> s <> "." -> s <> ".." ->
  join_path lib s = (lib ++ [s])%list.
Proof.
  intros H H1 H2 H3. unfold join_path. rewrite split_no_slash by done. cbn [add_components].
  destruct (String.eqb_spec s ""), (String.eqb_spec s "."), (String.eqb_spec s ".."); done.
Qed.

Lemma join_name lib p : r_name p -> join_path lib p = (lib ++ [p])%list.
Proof.
  intros H. apply join_plain; [by apply r_name_split|..];
    intros ->; cbn in H; try done; destruct H as [H _]; apply letter_not in H; naive_solver.
Qed.

Lemma join_backup lib p : r_name p -> join_path lib ("__OLD__" +:+ p) = (lib ++ [backup_of p])%list.
Proof.
  intros H. apply join_plain; [|done..]. apply r_name_split in H. cbn.
  repeat (split; [discriminate|]). done.
Qed.

Lemma backup_inj p q : backup_of p = backup_of q -> p = q.
Proof. unfold backup_of. intros H. by repeat injection H as H. Qed.

Lemma name_not_backup p q : r_name p -> p <> backup_of q.
Proof. intros H ->. cbn in H. destruct H as [H _]. apply letter_not in H. naive_solver. Qed.
