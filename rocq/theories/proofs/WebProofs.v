From stdpp Require Import strings list gmap.
From Coq Require Import Ascii ZArith NArith Lia.
From Verif.model Require Import GoStr Web.
From Verif.spec Require Import WebSpec.
From Verif.proofs Require Import GoStrLemmas.

Local Open Scope string_scope.

Lemma is_tls_true u : is_tls u = true <-> https u.
Proof. apply has_prefix_true. Qed.

Lemma is_web_true u : is_web u = true <-> http u \/ https u.
Proof. unfold is_web. rewrite orb_true_iff, is_tls_true. by rewrite (has_prefix_true "http://"). Qed.

Lemma not_both u : http u -> https u -> False.
Proof. by intros [a ->] [b H]. Qed.

Lemma given_up_false c n u : given_up c n u = false <->
  (http u \/ https u) /\ (https u -> cl_verify c = true -> n_trusted n (through c n u) u = true).
Proof.
  unfold given_up. rewrite orb_false_iff, negb_false_iff, is_web_true. rewrite <- !is_tls_true.
  destruct (is_tls u), (cl_verify c), (n_trusted n (through c n u) u); cbn; intuition congruence.
Qed.

(** The routes that a client follows. *)
Lemma get_route c n k u st b ok : web_get c n k u (SAnswer st b ok) <->
  exists l, head l = Some u /\ length l <= k /\ follows n (through c n) l (SAnswer st b ok) /\
    forall v, v ∈ l -> given_up c n v = false.
Proof.
  split.
  - intros H. remember (SAnswer st b ok) as s eqn:Es. induction H as [|k u H|k u H1 H2|k u st' b' ok' H1 H2|k u to s H1 H2 H3 IH];
      try discriminate.
    + injection Es as -> -> ->. exists [u]. split; [done|]. split; [cbn; lia|]. split; [done|].
      intros v Hv. by apply elem_of_list_singleton in Hv as ->.
    + destruct (IH Es) as (l & L1 & L2 & L3 & L4). destruct l as [|v l]; [discriminate|]. injection L1 as ->.
      exists (u :: to :: l). split; [done|]. split; [cbn in *; lia|]. split; [by split|].
      intros v Hv. apply elem_of_cons in Hv as [-> | Hv]; [done|by apply L4].
  - intros (l & L1 & L2 & L3 & L4). revert k u L1 L2. induction l as [|a l IH]; intros k u L1 L2; [done|].
    injection L1 as ->. destruct k as [|k]; [cbn in L2; lia|].
    destruct l as [|v l].
    + apply wg_answer; [|done]. apply L4. by left.
    + destruct L3 as [L3 L5]. apply (wg_redirect _ _ _ _ v); [apply L4; by left|done|].
      apply IH; [done| |done|cbn in *; lia]. intros x Hx. apply L4. by right.
Qed.

Lemma through_secure n u : through (make_client false) n u = n_proxy n u.
Proof. done. Qed.

Lemma follows_ext n f g l s : (forall u, f u = g u) -> follows n f l s -> follows n g l s.
Proof.
  intros E. induction l as [|a l IH]; [done|]. cbn. rewrite E. destruct l; [done|]. intros [H1 H2]. auto.
Qed.

Lemma secure_route n u st b ok : client_get false n u (SAnswer st b ok) <->
  exists l, checked_route n (n_proxy n) u l (SAnswer st b ok).
Proof.
  unfold client_get. rewrite get_route. unfold checked_route. split; intros (l & L1 & L2 & L3 & L4); exists l.
  - split; [done|]. split; [done|]. split; [done|]. intros v Hv. apply L4, given_up_false in Hv as [[Hv|Hv] Ht]; [by right|].
    left. split; [done|]. by apply Ht.
  - split; [done|]. split; [done|]. split; [done|]. intros v Hv. apply given_up_false. destruct (L4 v Hv) as [[Hs Ht]|Hh].
    + by split; [right|].
    + split; [by left|]. intros Hs. by destruct (not_both v).
Qed.

Lemma insecure_route n u st b ok : client_get true n u (SAnswer st b ok) <->
  exists l, head l = Some u /\ length l <= 10 /\ follows n (fun _ => false) l (SAnswer st b ok) /\
    forall v, v ∈ l -> http v \/ https v.
Proof.
  unfold client_get. rewrite get_route. split; intros (l & L1 & L2 & L3 & L4); exists l.
  - split; [done|]. split; [done|]. split; [done|]. intros v Hv. by apply L4, given_up_false in Hv as [Hv _].
  - split; [done|]. split; [done|]. split; [done|]. intros v Hv. apply given_up_false. split; [by apply L4|]. done.
Qed.

Lemma route_https n via l s u : stays_https n -> head l = Some u -> https u -> follows n via l s ->
  (forall v, v ∈ l -> vouched n via v \/ http v) -> forall v, v ∈ l -> vouched n via v.
Proof.
  intros Hn. revert u. induction l as [|a l IH]; [done|]. intros u Ha Hu Hf Hv v Hin. injection Ha as ->.
  apply elem_of_cons in Hin as [-> | Hin].
  - destruct (Hv u) as [H|H]; [by left|done|by destruct (not_both u)].
  - destruct l as [|b l]; [by apply elem_of_nil in Hin|]. destruct Hf as [Hf1 Hf2]. apply (IH b); try done.
    + by apply (Hn (via u) u).
    + intros w Hw. apply Hv. by right.
Qed.

Lemma get_same n k u s : no_proxy n -> (forall p v, https v -> n_trusted n p v = true) ->
  web_get (make_client true) n k u s <-> web_get (make_client false) n k u s.
Proof.
  intros Hp Ht. assert (forall v, through (make_client true) n v = through (make_client false) n v) as E1.
  { intros v. unfold through. cbn. by rewrite Hp. }
  assert (forall v, given_up (make_client true) n v = given_up (make_client false) n v) as E2.
  { intros v. unfold given_up. cbn [cl_verify make_client]. destruct (is_tls v) eqn:E; cbn; [|done].
    rewrite Ht by by apply is_tls_true. done. }
  split; intros H; induction H as [|k u H|k u H1 H2|k u st' b' ok' H1 H2|k u to s H1 H2 H3 IH].
  1, 6: apply wg_stop.
  - apply wg_given_up. by rewrite <- E2.
  - apply wg_nothing; [by rewrite <- E2|by rewrite <- E1].
  - apply wg_answer; [by rewrite <- E2|by rewrite <- E1].
  - eapply wg_redirect; [by rewrite <- E2|rewrite <- E1; exact H2|done].
  - apply wg_given_up. by rewrite E2.
  - apply wg_nothing; [by rewrite E2|by rewrite E1].
  - apply wg_answer; [by rewrite E2|by rewrite E1].
  - eapply wg_redirect; [by rewrite E2|rewrite E1; exact H2|done].
Qed.
