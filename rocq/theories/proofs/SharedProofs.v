(** A map shared by goroutines. *)
From stdpp Require Import strings list gmap relations.
From Coq Require Import Lia.
From Verif.model Require Import GoStr Shared.
From Verif.spec Require Import SharedSpec.

Section shared.
Context {V : Type}.
Implicit Types (s : shared V) (t : goroutine V) (ts : list (goroutine V)).

Definition hw t : nat := match t with Between _ => 0 | Locked o _ | Using o _ | Used o _ => if is_write o then 1 else 0 end.
Definition hr t : nat := match t with Between _ => 0 | Locked o _ | Using o _ | Used o _ => if is_write o then 0 else 1 end.
Definition sum (f : goroutine V -> nat) ts : nat := sum_list_with f ts.

Lemma sum_insert f ts i t t' : ts !! i = Some t -> (sum f (<[i := t']> ts) + f t = sum f ts + f t')%nat.
Proof.
  unfold sum. revert i. induction ts as [|x l IH]; intros [|i] H; cbn [list_lookup lookup] in H; try done.
  - injection H as ->. cbn. lia.
  - specialize (IH i H). change (<[S i := t']> (x :: l)) with (x :: <[i := t']> l). cbn [sum_list_with]. lia.
Qed.

Lemma sum_one f ts i t : ts !! i = Some t -> (f t <= sum f ts)%nat.
Proof.
  unfold sum. revert i. induction ts as [|x l IH]; intros [|i] H; cbn [list_lookup lookup] in H; try done.
  - injection H as ->. cbn. lia.
  - specialize (IH i H). cbn [sum_list_with]. lia.
Qed.

Lemma sum_two f ts i j t t' : i <> j -> ts !! i = Some t -> ts !! j = Some t' -> (f t + f t' <= sum f ts)%nat.
Proof.
  unfold sum. revert i j. induction ts as [|x l IH]; intros [|i] [|j] N Hi Hj; cbn [list_lookup lookup] in Hi, Hj; try done.
  - injection Hi as ->. pose proof (sum_one f l j t' Hj). unfold sum in *. cbn [sum_list_with]. lia.
  - injection Hj as ->. pose proof (sum_one f l i t Hi). unfold sum in *. cbn [sum_list_with]. lia.
  - assert (i <> j) as N' by congruence. specialize (IH i j N' Hi Hj). cbn [sum_list_with]. lia.
Qed.

Definition left t : list (op V) := match t with Between l => l | Locked o l | Using o l => o :: l | Used _ l => l end.

(** [progs]: what the goroutines were to do. *)
Record inv (progs : list (list (op V))) s : Prop := {
  i_w : sum hw (sh_all s) = if sh_locked s then 1%nat else 0%nat;
  i_r : sum hr (sh_all s) = sh_readers s;
  i_x : sh_locked s = true -> sh_readers s = 0%nat;
  i_c : sh_crashed s = false;
  i_t : in_turn ∅ (sh_done s) (sh_map s);
  i_n : forall x, x ∈ sh_done s -> (x.1.1 < length progs)%nat;
  i_l : length (sh_all s) = length progs;
  i_p : forall i t p, sh_all s !! i = Some t -> progs !! i = Some p -> p = (of_one i (sh_done s) ++ left t)%list
}.

Lemma sum_between f (progs : list (list (op V))) : (forall l, f (Between l) = 0%nat) -> sum f (map Between progs) = 0%nat.
Proof. intros H. unfold sum. induction progs as [|p l IH]; [done|]. cbn [map sum_list_with]. by rewrite H, IH. Qed.

Lemma inv_new progs : inv progs (new_shared progs).
Proof.
  split; cbn; [by apply sum_between|by apply sum_between|done|done|constructor|by intros x Hx; apply elem_of_nil in Hx|by rewrite map_length|].
  intros i t p Ht Hp. rewrite list_lookup_fmap, Hp in Ht. by injection Ht as <-.
Qed.

Lemma turn_snoc (m : gmap string V) l m' i (o : op V) : in_turn m l m' -> in_turn m (l ++ [(i, o, (apply o m').2)]) (apply o m').1.
Proof.
  induction 1 as [m|m j k v l m' _ IH|m j k l m' _ IH|m j k l m' _ IH]; cbn [app].
  - destruct o as [k v|k|k]; cbn [apply fst snd]; repeat constructor.
  - by constructor.
  - by constructor.
  - by constructor.
Qed.

Lemma of_one_snoc i j l (o : op V) (r : option V) : of_one i (l ++ [(j, o, r)]) = (of_one i l ++ (if decide (j = i) then [o] else []))%list.
Proof.
  unfold of_one. rewrite List.filter_app, map_app. f_equal. cbn [List.filter fst snd].
  destruct (decide (j = i)) as [->|N]; [by rewrite bool_decide_eq_true_2|by rewrite bool_decide_eq_false_2].
Qed.

Lemma conflict_free ts w r m d c i o l progs :
  inv progs (Shared ts w r m d c) -> ts !! i = Some (Locked o l) -> in_conflict o ts = false.
Proof.
  intros [Hw Hr Hx _ _ _ _ _] Hi. cbn [sh_all sh_locked sh_readers] in *.
  destruct (in_conflict o ts) eqn:E; [exfalso|done]. unfold in_conflict in E. apply existsb_exists in E as (t & Hin & Ht).
  destruct t as [?|? ?|o' l'|? ?]; try done. apply elem_of_list_In, elem_of_list_lookup in Hin as [j Hj].
  assert (i <> j) as N by (intros ->; congruence).
  pose proof (sum_two hw ts i j _ _ N Hi Hj) as A. pose proof (sum_two hr ts i j _ _ N Hi Hj) as B.
  cbn [hw hr] in A, B. destruct w; [specialize (Hx eq_refl)|]; destruct (is_write o), (is_write o'); cbn in Ht; try done; lia.
Qed.

Lemma prog_keep (progs : list (list (op V))) ts (d : list (nat * op V * option V)) i t t' :
  (forall i t p, ts !! i = Some t -> progs !! i = Some p -> p = (of_one i d ++ left t)%list) ->
  ts !! i = Some t -> left t' = left t ->
  forall j u p, <[i := t']> ts !! j = Some u -> progs !! j = Some p -> p = (of_one j d ++ left u)%list.
Proof.
  intros H Hi Hl j u p Hu Hp. destruct (decide (i = j)) as [<-|N].
  - rewrite list_lookup_insert in Hu by (by eapply lookup_lt_Some). injection Hu as <-. rewrite Hl. by apply H.
  - rewrite list_lookup_insert_ne in Hu by done. by apply H.
Qed.

Lemma inv_share progs s s' : inv progs s -> share s s' -> inv progs s'.
Proof.
  intros I H. destruct H as [i o l ts w r m d c Hi Hm|i o l ts w r m d c Hi|i o l ts w r m d c Hi|i o l ts w r m d c Hi].
  - destruct I as [Hw Hr Hx Hc Ht Hn Hl Hp]. cbn [sh_all sh_locked sh_readers sh_map sh_done sh_crashed] in *. pose proof (sum_insert hw ts i _ (Locked o l) Hi) as A.
    pose proof (sum_insert hr ts i _ (Locked o l) Hi) as B. cbn [hw hr] in A, B. unfold may_lock in Hm. cbn [sh_all sh_locked sh_readers] in Hm.
    destruct w; [done|]. cbn in Hm. split; cbn [sh_all sh_locked sh_readers sh_map sh_done sh_crashed]; [..|done|done|done|by rewrite insert_length|by eapply prog_keep].
    + destruct (is_write o); lia.
    + destruct (is_write o); lia.
    + destruct (is_write o); [|done]. intros _. by apply Nat.eqb_eq in Hm.
  - pose proof (conflict_free _ _ _ _ _ _ _ _ _ _ I Hi) as F. destruct I as [Hw Hr Hx Hc Ht Hn Hl Hp]. cbn [sh_all sh_locked sh_readers sh_map sh_done sh_crashed] in *.
    pose proof (sum_insert hw ts i _ (Using o l) Hi) as A. pose proof (sum_insert hr ts i _ (Using o l) Hi) as B. cbn [hw hr] in A, B.
    split; cbn [sh_all sh_locked sh_readers sh_map sh_done sh_crashed]; [lia|lia|done|by rewrite Hc, F|done|done|by rewrite insert_length|by eapply prog_keep].
  - destruct I as [Hw Hr Hx Hc Ht Hn Hl Hp]. cbn [sh_all sh_locked sh_readers sh_map sh_done sh_crashed] in *.
    pose proof (sum_insert hw ts i _ (Used o l) Hi) as A. pose proof (sum_insert hr ts i _ (Used o l) Hi) as B. cbn [hw hr] in A, B.
    split; cbn [sh_all sh_locked sh_readers sh_map sh_done sh_crashed]; [lia|lia|done|done|by apply turn_snoc| |by rewrite insert_length|].
    { intros x Hin. apply elem_of_app in Hin as [Hin|Hin]; [by apply Hn|]. apply elem_of_list_singleton in Hin as ->.
      cbn [fst]. rewrite <- Hl. by eapply lookup_lt_Some. }
    intros j u p Hu Hq. rewrite of_one_snoc. destruct (decide (i = j)) as [<-|N].
    + rewrite list_lookup_insert in Hu by (by eapply lookup_lt_Some). injection Hu as <-.
      rewrite (Hp i _ p Hi Hq). cbn [left]. by rewrite <- app_assoc.
    + rewrite list_lookup_insert_ne in Hu by done. rewrite app_nil_r. by apply Hp.
  - destruct I as [Hw Hr Hx Hc Ht Hn Hl Hp]. cbn [sh_all sh_locked sh_readers sh_map sh_done sh_crashed] in *.
    pose proof (sum_insert hw ts i _ (Between l) Hi) as A. pose proof (sum_insert hr ts i _ (Between l) Hi) as B. cbn [hw hr] in A, B.
    pose proof (sum_one hw ts i _ Hi) as A'. pose proof (sum_one hr ts i _ Hi) as B'. cbn [hw hr] in A', B'.
    split; cbn [sh_all sh_locked sh_readers sh_map sh_done sh_crashed]; [..|done|done|done|by rewrite insert_length|by eapply prog_keep].
    + destruct (is_write o), w; lia.
    + destruct (is_write o); lia.
    + destruct (is_write o); [done|]. intros ->. specialize (Hx eq_refl). lia.
Qed.

Lemma inv_reach progs s : rtc share (new_shared progs) s -> inv progs s.
Proof.
  intros H. assert (forall a b, rtc share a b -> inv progs a -> inv progs b) as G.
  { intros a b. induction 1 as [|x y z Hxy _ IH]; [done|]. intros I. apply IH. by eapply inv_share. }
  eapply G; [exact H|apply inv_new].
Qed.

Lemma progress progs s : inv progs s -> (exists s', share s s') \/ all_through s.
Proof.
  intros [Hw Hr Hx Hc Ht Hn Hl Hp]. destruct s as [ts w r m d c]. cbn [sh_all sh_locked sh_readers sh_map sh_done sh_crashed] in *.
  destruct (decide (Exists (fun t => hw t + hr t <> 0)%nat ts)) as [E|E].
  - left. apply Exists_exists in E as (t & Hin & Ht'). apply elem_of_list_lookup in Hin as [i Hi].
    destruct t as [l|o l|o l|o l]; [cbn in Ht'; lia|..]; eexists.
    + by eapply share_begin.
    + by eapply share_end.
    + by eapply share_unlock.
  - assert (forall t, t ∈ ts -> exists l, t = Between l) as Hb.
    { intros t Hin. destruct t as [l|o l|o l|o l]; [by eexists|..]; exfalso; apply E; apply Exists_exists;
        eexists; (split; [exact Hin|]); cbn; by destruct (is_write o). }
    assert (sum hw ts = 0%nat /\ sum hr ts = 0%nat) as [Z1 Z2].
    { clear -Hb. unfold sum. induction ts as [|t l IH]; [done|]. destruct (Hb t) as [l' ->]; [by left|].
      cbn [sum_list_with hw hr]. apply IH. intros t Hin. apply Hb. by right. }
    rewrite Z1 in Hw. rewrite Z2 in Hr. destruct w; [done|]. subst r.
    destruct (decide (Exists (fun t => length (left t) <> 0%nat) ts)) as [E'|E'].
    + left. apply Exists_exists in E' as (t & Hin & Ht'). destruct (Hb t Hin) as [l ->].
      apply elem_of_list_lookup in Hin as [i Hi]. destruct l as [|o l]; [done|]. eexists. eapply share_lock; [exact Hi|].
      unfold may_lock. cbn. by destruct (is_write o).
    + right. intros t Hin. destruct (Hb t Hin) as [l ->]. destruct l as [|o l]; [done|]. exfalso. apply E'.
      apply Exists_exists. eexists. split; [exact Hin|]. done.
Qed.

Definition todo t : nat :=
  match t with Between l => 4 * length l | Locked _ l => 4 * length l + 3 | Using _ l => 4 * length l + 2 | Used _ l => 4 * length l + 1 end.

Lemma share_less s s' : share s s' -> (sum todo (sh_all s') < sum todo (sh_all s))%nat.
Proof.
  destruct 1 as [i o l ts w r m d c Hi Hm|i o l ts w r m d c Hi|i o l ts w r m d c Hi|i o l ts w r m d c Hi]; cbn [sh_all];
    match goal with |- context [<[i := ?t']> ts] => pose proof (sum_insert todo ts i _ t' Hi) as A end; cbn [todo length] in A; lia.
Qed.

Lemma share_ends s : exists n, forall k s', nsteps share k s s' -> (k <= n)%nat.
Proof.
  exists (sum todo (sh_all s)). intros k. revert s. induction k as [|k IH]; intros s s' H; [lia|].
  inversion H as [|? ? s1 ? H1 H2]; subst. apply IH in H2. apply share_less in H1. lia.
Qed.

End shared.
