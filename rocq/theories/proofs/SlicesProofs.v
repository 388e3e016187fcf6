(** Proofs about the lists of packages in memory. *)
From stdpp Require Import strings list relations.
From Coq Require Import Ascii.
From Verif.model Require Import Slices.
From Verif.spec Require Import SlicesSpec.

Section slices.
Context (grow : nat -> nat).

Lemma array_is m s a : m !! sl_array s = Some a -> array_of m s = a.
Proof. intros E. unfold array_of. by rewrite E. Qed.

Lemma lies_array m s : lies m s -> m !! sl_array s = Some (array_of m s) /\ sl_len s <= length (array_of m s).
Proof. intros (a & E & H). unfold array_of. rewrite E. done. Qed.

Lemma lies_index m s : lies m s -> sl_array s < length m.
Proof. intros (a & E & _). by eapply lookup_lt_Some. Qed.

(** What a call leaves. *)
Record left_by (m : memory) (s : slice) (xs : list string) (m' : memory) (s' : slice) : Prop := {
  lb_lies : lies m' s';
  lb_read : read m' s' = (read m s ++ xs)%list;
  lb_more : length m <= length m';
  lb_len : sl_len s' = sl_len s + length xs;
  lb_others : forall i, i < length m -> i <> sl_array s -> m' !! i = m !! i;
  lb_cap : length (array_of m' s) = length (array_of m s);
  lb_start : read m' s = read m s;
  lb_where : (sl_array s' = sl_array s /\ sl_len s + length xs <= length (array_of m s)) \/
             (length m <= sl_array s' /\ length (array_of m s) < sl_len s + length xs)
}.

Lemma append1_left m s x : lies m s -> left_by m s [x] (append1 grow m s x).1 (append1 grow m s x).2.
Proof.
  intros Hl. destruct (lies_array m s Hl) as [E H]. pose proof (lies_index m s Hl) as Hi.
  unfold append1. cbv zeta. destruct (sl_len s <? length (array_of m s)) eqn:Q.
  - apply Nat.ltb_lt in Q. cbn [fst snd].
    assert (array_of (<[sl_array s:=<[sl_len s:=x]> (array_of m s)]> m) s = <[sl_len s:=x]> (array_of m s)) as Ea.
    { apply array_is. by rewrite list_lookup_insert. }
    split.
    + exists (<[sl_len s:=x]> (array_of m s)). cbn [sl_array sl_len]. rewrite insert_length. split; [by rewrite list_lookup_insert|lia].
    + unfold read. rewrite (array_is _ _ (<[sl_len s:=x]> (array_of m s))) by (cbn [sl_array]; by rewrite list_lookup_insert).
      cbn [sl_len].
      rewrite (take_S_r _ _ x) by (by rewrite list_lookup_insert). by rewrite take_insert by lia.
    + by rewrite insert_length.
    + cbn. lia.
    + intros i _ Hn. by rewrite list_lookup_insert_ne by done.
    + by rewrite Ea, insert_length.
    + unfold read. rewrite Ea. by rewrite take_insert by lia.
    + left. cbn [sl_array length]. split; [done|lia].
  - apply Nat.ltb_ge in Q. cbn [fst snd].
    assert (forall i y, i < length m -> (m ++ [y]) !! i = m !! i) as Hk by (intros; by rewrite lookup_app_l).
    assert (forall y, array_of (m ++ [y]) s = array_of m s) as Ha by (intros; unfold array_of; by rewrite Hk).
    split.
    + eexists. cbn [sl_array sl_len]. rewrite list_lookup_middle by done. split; [done|].
      rewrite !app_length, take_length. cbn [length]. lia.
    + unfold read. erewrite array_is by (cbn [sl_array]; by rewrite list_lookup_middle). cbn [sl_len].
      rewrite app_assoc, take_app_alt; [done|]. rewrite app_length, take_length. cbn [length]. lia.
    + rewrite app_length. lia.
    + cbn. lia.
    + intros i Hlt _. by apply Hk.
    + by rewrite Ha.
    + unfold read. by rewrite Ha.
    + right. cbn [sl_array length]. split; lia.
Qed.

Lemma append_all_left xs : forall m s, lies m s -> left_by m s xs (append_all grow m s xs).1 (append_all grow m s xs).2.
Proof.
  induction xs as [|x xs IH]; intros m s Hl.
  - cbn [append_all fst snd]. destruct (lies_array m s Hl) as [E H]. cbn [length].
    split; [done|by rewrite app_nil_r|done|cbn [length]; lia|done|done|done|left; cbn [length]; split; [done|lia]].
  - cbn [append_all]. pose proof (append1_left m s x Hl) as L1.
    destruct (append1 grow m s x) as [m1 s1]. cbn [fst snd] in L1.
    pose proof (IH m1 s1 (lb_lies _ _ _ _ _ L1)) as L2.
    destruct (append_all grow m1 s1 xs) as [m2 s2]. cbn [fst snd] in *.
    destruct L1 as [a1 a2 a3 a4 a5 a6 a7 a8]. destruct L2 as [b1 b2 b3 b4 b5 b6 b7 b8].
    pose proof (lies_index m s Hl) as Hi.
    destruct (lies_array m s Hl) as [E H]. destruct (lies_array m1 s1 a1) as [E1 H1].
    cbn [length] in a4, a8. change (length (x :: xs)) with (S (length xs)) in *.
    assert (sl_array s1 = sl_array s \/ array_of m2 s = array_of m1 s) as Hs.
    { destruct (decide (sl_array s = sl_array s1)) as [|Hne]; [by left|right].
      unfold array_of. by rewrite b5 by (done || lia). }
    split; cbn [length].
    + done.
    + rewrite b2, a2. by rewrite <- (app_assoc _ [x] xs).
    + lia.
    + lia.
    + intros i Hlt Hn. rewrite b5.
      * by apply a5.
      * lia.
      * destruct a8 as [[-> _]|[Hge _]]; [done|lia].
    + destruct Hs as [Hs|Hs].
      * rewrite <- a6. unfold array_of in b6 |- *. by rewrite <- Hs.
      * by rewrite Hs.
    + destruct Hs as [Hs|Hs].
      * rewrite <- a7. unfold read, array_of in b7 |- *. rewrite <- Hs.
        apply (f_equal (take (sl_len s))) in b7. rewrite !take_take in b7.
        rewrite a4 in b7. by rewrite !Nat.min_l in b7 by lia.
      * rewrite <- a7. unfold read. by rewrite Hs.
    + destruct a8 as [[Q1 Q2]|[Q1 Q2]].
      * assert (array_of m1 s1 = array_of m1 s) as Eq by (unfold array_of; by rewrite Q1).
        rewrite Eq, a6, a4, Q1 in b8. destruct b8 as [[? ?]|[? ?]]; [left|right]; split; (done || lia).
      * right. split; [|lia]. destruct b8 as [[-> _]|[? _]]; lia.
Qed.

Section plan.
Context (start : slice) (keys additional : list string) (m0 : memory).

(** A list that was returned. *)
Definition returned_ok (m : memory) (r : slice) : Prop :=
  lies m r /\ sl_len r = sl_len start + length keys + length additional /\
  (exists k a, k ≡ₚ keys /\ a ≡ₚ additional /\ read m r = (read m0 start ++ k ++ a)%list) /\
  (sl_array r = sl_array start -> sl_len start + length keys + length additional <= length (array_of m0 start)).

Definition all_ok (x : lists) : Prop :=
  lies (ls_memory x) start /\ read (ls_memory x) start = read m0 start /\
  length (array_of (ls_memory x) start) = length (array_of m0 start) /\
  length m0 <= length (ls_memory x) /\
  (forall i, i < length m0 -> i <> sl_array start -> ls_memory x !! i = m0 !! i) /\
  forall r, r ∈ ls_returned x -> returned_ok (ls_memory x) r.

Lemma step_ok x y : lists_step grow start keys additional x y -> all_ok x -> all_ok y.
Proof.
  intros Hs (L & R & C & M & O & Q). destruct Hs as [m rs k a m' r Hk Ha E|m rs b]; cbn [ls_memory ls_returned] in *.
  - pose proof (append_all_left (k ++ a)%list m start L) as B. unfold all_packages_in in E. rewrite E in B. cbn [fst snd] in B.
    destruct B as [b1 b2 b3 b4 b5 b6 b7 b8].
    assert (length (k ++ a)%list = length keys + length additional) as Hlen.
    { rewrite app_length. by rewrite Hk, Ha. }
    pose proof (lies_index m start L) as Hi.
    destruct (lies_array m start L) as [E1 H1].
    assert (lies m' start) as L'.
    { unfold lies. destruct (lookup_lt_is_Some_2 m' (sl_array start)) as [z Ez]; [lia|]. exists z. split; [done|].
      rewrite (array_is m' start z Ez) in b6. lia. }
    unfold all_ok. cbn [ls_memory ls_returned].
    split; [done|]. split; [congruence|]. split; [congruence|]. split; [lia|].
    split; [intros i Hlt Hn; rewrite b5 by (done || lia); by apply O|].
    intros r' Hr'. apply elem_of_cons in Hr' as [-> | Hr'].
    + split; [done|]. split; [lia|]. split.
      * exists k, a. split; [done|]. split; [done|]. by rewrite b2, R.
      * intros Heq. destruct b8 as [[_ ?]|[? _]]; [rewrite <- C; lia|lia].
    + destruct (Q r' Hr') as (q1 & q2 & (k' & a' & q3 & q4 & q5) & q6).
      pose proof (lies_index m r' q1) as Hi'.
      destruct (decide (sl_array r' = sl_array start)) as [Heq|Hne].
      * specialize (q6 Heq). destruct b8 as [[Hw ?]|[_ ?]]; [|lia].
        assert (r' = r) as ->. { destruct r', r. cbn in *. f_equal; [congruence|lia]. }
        split; [done|]. split; [lia|]. split; [|done].
        exists k, a. split; [done|]. split; [done|]. by rewrite b2, R.
      * assert (array_of m' r' = array_of m r') as Er by (unfold array_of; by rewrite b5).
        split; [|split; [done|split]].
        -- destruct q1 as (z & z1 & z2). exists z. by rewrite b5.
        -- exists k', a'. split; [done|]. split; [done|]. rewrite <- q5. unfold read. by rewrite Er.
        -- done.
  - assert (forall s, lies m s -> lies (m ++ [b])%list s /\ array_of (m ++ [b])%list s = array_of m s) as K.
    { intros s Hl. pose proof (lies_index m s Hl). destruct Hl as (z & z1 & z2). unfold lies, array_of.
      rewrite lookup_app_l by done. split; [by exists z|done]. }
    destruct (K start L) as [L' E']. unfold all_ok. cbn [ls_memory ls_returned]. split; [done|].
    split; [unfold read in *; by rewrite E'|]. split; [by rewrite E'|].
    split; [rewrite app_length; lia|].
    split; [intros i Hlt Hn; rewrite lookup_app_l by lia; by apply O|].
    intros r Hr. destruct (Q r Hr) as (q1 & q2 & (k' & a' & q3 & q4 & q5) & q6).
    destruct (K r q1) as [Lr Er]. split; [done|]. split; [done|]. split; [|done].
    exists k', a'. split; [done|]. split; [done|]. rewrite <- q5. unfold read. by rewrite Er.
Qed.

Lemma all_happen x : lies m0 start -> lists_happen grow start keys additional m0 x -> all_ok x.
Proof.
  intros L H.
  assert (forall y z, rtc (lists_step grow start keys additional) y z -> all_ok y -> all_ok z) as G.
  { intros y z Hr. induction Hr as [|u v w Huv _ IH]; [done|]. intros Hy. apply IH. by eapply step_ok. }
  apply (G _ _ H). split; [done|]. do 4 (split; [done|]). intros r Hr. by apply elem_of_nil in Hr.
Qed.

End plan.
End slices.
