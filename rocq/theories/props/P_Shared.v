(** C136: the map of downloads shared by goroutines. *)
From stdpp Require Import strings list gmap relations.
From Coq Require Import Lia.
From Verif.model Require Import GoStr Shared.
From Verif.spec Require Import SharedSpec.
From Verif.proofs Require Import SharedProofs.

Local Open Scope string_scope.

(** However many goroutines use the map, the runtime finds no concurrent uses, and the
    results are those of the same operations one after the other, in an order that respects
    the order in each goroutine. *)
Theorem C136_in_turn : forall (V : Type) (programs : list (list (op V))) s, rtc share (new_shared programs) s ->
  sh_crashed s = false /\ in_turn ∅ (sh_done s) (sh_map s) /\
  forall i p, programs !! i = Some p -> exists rest, p = (of_one i (sh_done s) ++ rest)%list.
Proof.
  intros V programs s H. apply inv_reach in H as [_ _ _ Hc Ht _ Hl Hp]. split; [done|]. split; [done|].
  intros i p Hi. destruct (lookup_lt_is_Some_2 (sh_all s) i) as [t Ht'].
  { rewrite Hl. by eapply lookup_lt_Some. }
  exists (left t). by apply Hp.
Qed.

(** No goroutine waits for ever: some step is possible until all are through, and after
    finitely many steps they are; then all operations have been done. *)
Theorem C136_through : forall (V : Type) (programs : list (list (op V))),
  (forall s, rtc share (new_shared programs) s -> (exists s', share s s') \/ all_through s) /\
  (exists n, forall k s, nsteps share k (new_shared programs) s -> k <= n) /\
  (forall s, rtc share (new_shared programs) s -> all_through s -> forall i p, programs !! i = Some p -> of_one i (sh_done s) = p).
Proof.
  intros V programs. split; [|split].
  - intros s H. eapply progress. by apply inv_reach.
  - apply share_ends.
  - intros s H Ha i p Hi. apply inv_reach in H as [_ _ _ _ _ _ Hl Hp].
    destruct (lookup_lt_is_Some_2 (sh_all s) i) as [t Ht]; [rewrite Hl; by eapply lookup_lt_Some|].
    rewrite (Hp i t p Ht Hi). rewrite (Ha t) by (by eapply elem_of_list_lookup_2). cbn [left]. by rewrite app_nil_r.
Qed.

(** What the downloads need: what one goroutine puts under a name of its own is there in
    the end. *)
Theorem C136_kept : forall (V : Type) (programs : list (list (op V))) s k v, rtc share (new_shared programs) s -> all_through s ->
  (exists p, p ∈ programs /\ Put k v ∈ p) ->
  (forall p o, p ∈ programs -> o ∈ p -> match o with Put k' v' => k' = k -> v' = v | Delete k' => k' <> k | Get _ => True end) ->
  sh_map s !! k = Some v.
Proof.
  intros V programs s k v H Ha (p & Hp & Hin) Hall.
  destruct (C136_in_turn V programs s H) as (_ & Ht & _). destruct (C136_through V programs) as (_ & _ & Hdone).
  pose proof (inv_reach _ _ H) as I.
  assert (exists i r, (i, Put k v, r) ∈ sh_done s) as Hput.
  { apply elem_of_list_lookup in Hp as [i Hi]. rewrite <- (Hdone s H Ha i p Hi) in Hin. unfold of_one in Hin.
    apply elem_of_list_fmap in Hin as ([[j o] r] & E & Hf). cbn in E. subst o. apply elem_of_list_In, filter_In in Hf as [Hf _].
    apply elem_of_list_In in Hf. eauto. }
  assert (forall i o r, (i, o, r) ∈ sh_done s -> match o with Put k' v' => k' = k -> v' = v | Delete k' => k' <> k | Get _ => True end) as Hops.
  { intros i o r Hd. assert (exists q, programs !! i = Some q) as [q Hq].
    { apply lookup_lt_is_Some_2. exact (i_n _ _ I _ Hd). }
    eapply (Hall q); [by eapply elem_of_list_lookup_2|]. rewrite <- (Hdone s H Ha i q Hq). unfold of_one.
    apply elem_of_list_fmap. exists (i, o, r). split; [done|]. apply elem_of_list_In, filter_In. split; [by apply elem_of_list_In|].
    by apply bool_decide_eq_true_2. }
  revert Ht Hput Hops. generalize (∅ : gmap string V) as m. generalize (sh_map s) as m'. clear. intros m' m.
  assert (forall d m m', in_turn m d m' -> m !! k = Some v \/ (exists i r, (i, Put k v, r) ∈ d) ->
    (forall i o r, (i, o, r) ∈ d -> match o with Put k' v' => k' = k -> v' = v | Delete k' => k' <> k | Get _ => True end) -> m' !! k = Some v) as G.
  { clear. induction 1 as [m|m i k' v' l m' _ IH|m i k' l m' _ IH|m i k' l m' _ IH]; intros Hs Hops.
    - destruct Hs as [|(i & r & H)]; [done|]. by apply elem_of_nil in H.
    - apply IH; [|intros j o r Hj; apply (Hops j o r); by right]. destruct (decide (k' = k)) as [->|N].
      + left. rewrite lookup_insert. f_equal. apply (Hops i (Put k v') None); [by left|done].
      + rewrite lookup_insert_ne by done. destruct Hs as [|(j & r & Hj)]; [by left|]. apply elem_of_cons in Hj as [Hj|Hj]; [congruence|]. right. eauto.
    - apply IH; [|intros j o r Hj; apply (Hops j o r); by right].
      assert (k' <> k) as N by (apply (Hops i (Delete k') None); by left).
      rewrite lookup_delete_ne by done. destruct Hs as [|(j & r & Hj)]; [by left|]. apply elem_of_cons in Hj as [Hj|Hj]; [congruence|]. right. eauto.
    - apply IH; [|intros j o r Hj; apply (Hops j o r); by right].
      destruct Hs as [|(j & r & Hj)]; [by left|]. apply elem_of_cons in Hj as [Hj|Hj]; [congruence|]. right. eauto. }
  intros Ht Hput Hops. eapply G; [exact Ht|by right|exact Hops].
Qed.

Example C136_example :
  exists s, rtc share (new_shared [[Put "MASS" 1]; [Put "app" 2; Get "MASS"]]) s /\ all_through s /\
    sh_done s = [(1, Put "app" 2, None); (0, Put "MASS" 1, None); (1, Get "MASS", Some 1)].
Proof.
  eexists. split.
  - do 4 (eapply rtc_l; [first [eapply (share_lock 1); reflexivity|eapply (share_begin 1); reflexivity|eapply (share_end 1); reflexivity|eapply (share_unlock 1); reflexivity]|]; cbn).
    do 4 (eapply rtc_l; [first [eapply (share_lock 0); reflexivity|eapply (share_begin 0); reflexivity|eapply (share_end 0); reflexivity|eapply (share_unlock 0); reflexivity]|]; cbn).
    do 4 (eapply rtc_l; [first [eapply (share_lock 1); reflexivity|eapply (share_begin 1); reflexivity|eapply (share_end 1); reflexivity|eapply (share_unlock 1); reflexivity]|]; cbn).
    apply rtc_refl.
  - split; [|vm_compute; done]. intros t Ht. cbn in Ht. repeat (apply elem_of_cons in Ht as [->|Ht]; [done|]). by apply elem_of_nil in Ht.
Qed.

Print Assumptions C136_in_turn.
Print Assumptions C136_through.
Print Assumptions C136_kept.
