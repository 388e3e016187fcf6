(** C46, C47: how large a plan can be without executing it getting stuck. *)
From stdpp Require Import strings list gmap.
From Coq Require Import Ascii ZArith Lia.
From Verif.model Require Import GoStr Graph Sched.
From Verif.spec Require Import GraphSpec SchedSpec.
From Verif.proofs Require Import GoStrLemmas GraphProofs SchedProofs SchedProps SchedLink.

Local Open Scope string_scope.

(** ** Plans without a dependency but one *)

Fixpoint word (n : nat) : string := match n with 0 => "" | S k => String "a" (word k) end.

Lemma word_inj n k : word n = word k -> n = k.
Proof. revert k. induction n as [|n IH]; intros [|k] E; try done. injection E as E. by rewrite (IH k). Qed.

Lemma word_q n : word n <> "q".
Proof. by destruct n. Qed.

(** [m] packages without dependencies, and q, which depends on the first of them. *)
Definition large (m n : nat) : job := Job (map word (seq 0 m)) {[ "q" := [""] ]} ["q"] n.

Lemma large_nodup m k : NoDup (map word (seq m k)).
Proof.
  apply (NoDup_fmap_2_strong (A := nat) word); [intros x y _ _; apply word_inj|apply NoDup_seq].
Qed.

Lemma large_ok m n : 1 <= m -> job_ok (large m n).
Proof.
  intros Hm. split; cbn [large j_starting j_depdb j_keys].
  - apply large_nodup.
  - by rewrite map_to_list_singleton.
  - intros p Hp. apply elem_of_list_In, in_map_iff in Hp as (k & <- & _).
    apply lookup_singleton_ne. intros E. by apply (word_q k).
  - intros p l H. apply lookup_singleton_Some in H as [<- <-]. split; [done|].
    split; [apply NoDup_singleton|]. by rewrite elem_of_list_singleton.
  - intros p d (l & H & Hd). cbn in H. apply lookup_singleton_Some in H as [<- <-].
    apply elem_of_list_singleton in Hd as ->. left. destruct m as [|m]; [lia|]. cbn. by left.
  - intros p d e (l & H & Hd) (l2 & H2 & _). cbn in H, H2. apply lookup_singleton_Some in H as [<- <-].
    apply elem_of_list_singleton in Hd as ->. apply lookup_singleton_Some in H2 as [? _]. done.
Qed.

Lemma large_size m n : plan_size (large m n) = m + 1.
Proof. unfold plan_size, large. cbn [j_starting j_depdb]. by rewrite map_length, seq_length, map_size_singleton. Qed.

Lemma large_dependents m n : dependents (large m n) "" = ["q"].
Proof. reflexivity. Qed.

(** ** Executions without failures *)

Definition fine (l : label) : Prop :=
  match l with Tau | Start _ | Finish _ (ROk true) => True | _ => False end.

Section large.
  Context (j : job).

  (** The goroutines can reach a state with [P]. *)
  Definition leads (s : state) (P : state -> Prop) : Prop :=
    exists ls s', Forall fine ls /\ execution j s ls s' /\ P s'.

  Lemma leads_here s (P : state -> Prop) : P s -> leads s P.
  Proof. intros H. exists [], s. split; [apply Forall_nil_2|]. split; [constructor|done]. Qed.

  Lemma leads_step s l s1 P : step j s l s1 -> fine l -> leads s1 P -> leads s P.
  Proof.
    intros Hs Hf (ls & s' & H1 & H2 & H3). exists (l :: ls), s'.
    split; [by apply Forall_cons_2|]. split; [by eapply exec_cons|done].
  Qed.

  (** A request goes from the loop of the main goroutine to the queue. *)
  Lemma feed x l wg rs wq ws uq u ins fl P : x ∉ rs -> length wq < workq_cap ->
    leads (State (MFeed l) (wg + 1) RIdle (x :: rs) (wq ++ [x])%list ws uq u ins false fl) P ->
    leads (State (MFeed (x :: l)) wg RIdle rs wq ws uq u ins false fl) P.
  Proof.
    intros Hx Hq H.
    eapply leads_step; [apply main_add|done|]. eapply leads_step; [apply main_send|done|].
    eapply leads_step; [apply req_mark|done|].
    { destruct (is_in x rs) eqn:E; [|done]. by apply is_in_spec in E. }
    eapply leads_step; [by apply req_push|done|done].
  Qed.

  (** As many requests as there is room for. *)
  Lemma feed_all k : forall l wg rs wq ws uq u ins fl P, NoDup k -> (forall x, x ∈ k -> x ∉ rs) ->
    length wq + length k <= workq_cap ->
    (forall rs2 wg2, (wg <= wg2)%Z -> (forall x, x ∈ rs2 <-> x ∈ k \/ x ∈ rs) ->
      leads (State (MFeed l) wg2 RIdle rs2 (wq ++ k)%list ws uq u ins false fl) P) ->
    leads (State (MFeed (k ++ l)%list) wg RIdle rs wq ws uq u ins false fl) P.
  Proof.
    induction k as [|x k IH]; intros l wg rs wq ws uq u ins fl P Hn Hx Hq H.
    { cbn [app]. specialize (H rs wg). rewrite app_nil_r in H. apply H; [lia|]. intros y. set_solver. }
    apply NoDup_cons in Hn as [Hn1 Hn2]. cbn [app length] in *. apply feed; [apply Hx; by left|lia|].
    apply IH; [done| |rewrite app_length; cbn [length]; lia|].
    - intros y Hy. rewrite elem_of_cons. intros [->|K]; [done|]. apply (Hx y); [by right|done].
    - intros rs2 wg2 Hw Hr. rewrite <- app_assoc. cbn [app]. apply H; [lia|]. intros y. rewrite Hr. set_solver.
  Qed.

  (** The first worker installs packages whose updates stay in the queue of updates. *)
  Lemma update_all k : forall l wg rs ws uq u ins fl P, NoDup k -> (forall x, x ∈ k -> x ∉ rs) ->
    length uq + length k <= updq_cap ->
    (forall rs2 wg2 uq2, (wg <= wg2)%Z -> (forall x, x ∈ rs2 <-> x ∈ k \/ x ∈ rs) ->
      length uq2 = length uq + length k ->
      leads (State (MFeed l) wg2 RIdle rs2 [] (WIdle :: ws) uq2 u ins false fl) P) ->
    leads (State (MFeed (k ++ l)%list) wg RIdle rs [] (WIdle :: ws) uq u ins false fl) P.
  Proof.
    induction k as [|x k IH]; intros l wg rs ws uq u ins fl P Hn Hx Hq H.
    { cbn [app]. apply H; [lia| |cbn [length]; lia]. intros y. set_solver. }
    apply NoDup_cons in Hn as [Hn1 Hn2]. cbn [app length] in *.
    apply feed; [apply Hx; by left|unfold workq_cap; cbn [length]; lia|]. cbn [app].
    eapply leads_step; [apply work_start with (w1 := [])|done|cbn [app]].
    eapply leads_step; [apply work_finish with (w1 := []) (r := ROk true)|done|cbn [app]].
    eapply leads_step; [apply work_post with (w1 := []); lia|done|cbn [app]].
    apply IH; [done| |rewrite app_length; cbn [length]; lia|].
    - intros y Hy. rewrite elem_of_cons. intros [->|K]; [done|]. apply (Hx y); [by right|done].
    - intros rs2 wg2 uq2 Hw Hr Hu. apply H; [lia| |rewrite Hu, app_length; cbn [length]; lia].
      intros y. rewrite Hr. set_solver.
  Qed.

  (** Every worker has installed a package and waits for the queue of updates. *)
  Lemma post_all k : forall l wg rs w1 uq u ins fl P, NoDup k -> (forall x, x ∈ k -> x ∉ rs) ->
    (WIdle ∉ w1 /\ forall x, WBusy x ∉ w1) ->
    (forall rs2 wg2 ws, (wg <= wg2)%Z -> (forall x, x ∈ rs2 <-> x ∈ k \/ x ∈ rs) ->
      (WIdle ∉ ws /\ forall x, WBusy x ∉ ws) ->
      leads (State (MFeed l) wg2 RIdle rs2 [] ws uq u ins false fl) P) ->
    leads (State (MFeed (k ++ l)%list) wg RIdle rs [] (w1 ++ replicate (length k) WIdle)%list uq u ins false fl) P.
  Proof.
    induction k as [|x k IH]; intros l wg rs w1 uq u ins fl P Hn Hx Hw H.
    { cbn [app length replicate]. rewrite app_nil_r. apply H; [lia| |done]. intros y. set_solver. }
    apply NoDup_cons in Hn as [Hn1 Hn2]. cbn [app length replicate] in *.
    apply feed; [apply Hx; by left|unfold workq_cap; cbn [length]; lia|]. cbn [app].
    eapply leads_step; [apply work_start|done|].
    eapply leads_step; [apply work_finish with (r := ROk true)|done|].
    replace (w1 ++ WPost x (ROk true) :: replicate (length k) WIdle)%list
      with ((w1 ++ [WPost x (ROk true)]) ++ replicate (length k) WIdle)%list by (by rewrite <- app_assoc).
    apply IH; [done| | |].
    - intros y Hy. rewrite elem_of_cons. intros [->|K]; [done|]. apply (Hx y); [by right|done].
    - split; [|intros y]; rewrite elem_of_app, elem_of_list_singleton; intros [?|?]; try done.
      + by apply (proj1 Hw).
      + by eapply (proj2 Hw).
    - intros rs2 wg2 ws Hg Hr Hw2. apply H; [lia| |done]. intros y. rewrite Hr. set_solver.
  Qed.
End large.

Lemma fine_facts ls : Forall fine ls -> no_failures ls /\ none_dropped ls /\ all_copied ls.
Proof.
  intros H. rewrite Forall_forall in H.
  split; [|split]; intros p Hp; by apply H in Hp.
Qed.

(** Everything waits for something. *)
Lemma blocked j m wg p rs wq ws uq q l c ins fl :
  (m = MWait /\ (0 < wg)%Z \/ exists x k, m = MSend x k) -> length wq = workq_cap -> length uq = updq_cap ->
  (WIdle ∉ ws /\ forall x, WBusy x ∉ ws) ->
  Sched.stuck j (State m wg (RPush p) rs wq ws uq (USend q l c) ins false fl).
Proof.
  intros Hm Hq Hu [W1 W2] lb s H. inversion H; subst.
  all: try (destruct Hm as [[? ?]|(? & ? & ?)]; (done || lia)).
  all: try lia.
  - apply W1. apply elem_of_app. right. by left.
  - eapply W2. apply elem_of_app. right. by left.
Qed.

Definition full (s : state) : Prop := exists m wg p rs wq ws uq q l c ins fl,
  s = State m wg (RPush p) rs wq ws uq (USend q l c) ins false fl /\
  (m = MWait /\ (0 < wg)%Z \/ exists x k, m = MSend x k) /\ length wq = workq_cap /\ length uq = updq_cap /\
  (WIdle ∉ ws /\ forall x, WBusy x ∉ ws).

Lemma full_stuck j s : full s -> Sched.stuck j s /\ forall e, ~ returned s e.
Proof.
  intros (m & wg & p & rs & wq & ws & uq & q & l & c & ins & fl & -> & Hm & Hq & Hu & Hw).
  split; [by apply blocked|]. intros e He. unfold returned in He. cbn in He.
  destruct Hm as [[-> _]|(? & ? & ->)]; done.
Qed.

Lemma large_leads m n : 1 <= n -> workq_cap + updq_cap + n + 2 <= m ->
  leads (large m n) (initial (large m n)) full.
Proof.
  intros Hn Hm. remember updq_cap as a eqn:Ea. remember workq_cap as b eqn:Eb.
  assert (exists U P W r X, map word (seq 0 m) = "" :: U ++ P ++ W ++ r :: X /\
    length U = a /\ length P = n /\ length W = b)%list as (U & P & W & r & X & El & LU & LP & LW).
  { exists (map word (seq 1 a)), (map word (seq (1 + a) n)), (map word (seq (1 + a + n) b)),
      (word (1 + a + n + b)), (map word (seq (2 + a + n + b) (m - (2 + a + n + b)))).
    rewrite !map_length, !seq_length. split; [|done].
    replace m with (1 + (a + (n + (b + (1 + (m - (2 + a + n + b))))))) at 1 by lia.
    rewrite !seq_app, !map_app. cbn [seq map app Nat.add word]. by rewrite Nat.add_1_r. }
  pose proof (large_nodup 0 m) as Nd. rewrite El in Nd.
  apply NoDup_cons in Nd as [N0 Nd]. rewrite !elem_of_app, elem_of_cons in N0.
  apply NoDup_app in Nd as (NU & DU & Nd). apply NoDup_app in Nd as (NP & DP & Nd).
  apply NoDup_app in Nd as (NW & DW & Nd). apply NoDup_cons in Nd as [NX _].
  unfold initial. change (j_starting (large m n)) with (map word (seq 0 m)).
  change (j_workers (large m n)) with n. rewrite El.
  destruct n as [|n]; [lia|]. cbn [replicate].
  apply feed; [apply not_elem_of_nil|unfold workq_cap; cbn [length]; lia|]. cbn [app].
  eapply leads_step; [apply work_start with (w1 := [])|done|cbn [app]].
  eapply leads_step; [apply work_finish with (w1 := []) (r := ROk true)|done|cbn [app]].
  eapply leads_step; [apply work_post with (w1 := []); unfold updq_cap; cbn [length]; lia|done|cbn [app]].
  eapply leads_step; [apply upd_ok|done|]. rewrite large_dependents.
  eapply leads_step; [apply upd_suggest; reflexivity|done|].
  apply update_all; [done| |cbn [length]; lia|].
  { intros x Hx. rewrite elem_of_list_singleton. intros ->. apply N0. by left. }
  intros rs2 wg2 uq2 G2 R2 U2.
  change (WIdle :: replicate n WIdle)%list with ([] ++ replicate (S n) WIdle)%list. rewrite <- LP.
  apply post_all; [done| |by split; [|intros]; apply not_elem_of_nil|].
  { intros x Hx. rewrite R2, elem_of_list_singleton. intros [K| ->]; [apply (DU x K)|apply N0]; rewrite ?elem_of_app; tauto. }
  intros rs3 wg3 ws3 G3 R3 W3.
  apply feed_all; [done| |cbn [length]; lia|].
  { intros x Hx. rewrite R3, R2, elem_of_list_singleton.
    intros [K|[K| ->]]; [apply (DP x K)|apply (DU x K)|apply N0]; rewrite ?elem_of_app; tauto. }
  intros rs4 wg4 G4 R4. cbn [app].
  eapply leads_step; [apply main_add|done|]. eapply leads_step; [apply main_send|done|].
  eapply leads_step; [apply req_mark|done|].
  { destruct (is_in r rs4) eqn:E; [|done]. apply is_in_spec in E. exfalso.
    rewrite R4, R3, R2, elem_of_list_singleton in E.
    destruct E as [K|[K|[K| ->]]]; [apply (DW r K)|apply (DP r K)|apply (DU r K)|apply N0];
      rewrite ?elem_of_app, ?elem_of_cons; tauto. }
  destruct X as [|x X].
  - eapply leads_step; [apply main_wait|done|]. apply leads_here.
    do 12 eexists. split; [reflexivity|]. split; [left; split; [done|lia]|].
    split; [congruence|]. split; [cbn [length Nat.add] in U2; congruence|exact W3].
  - eapply leads_step; [apply main_add|done|]. apply leads_here.
    do 12 eexists. split; [reflexivity|]. split; [right; by eexists _, _|].
    split; [congruence|]. split; [cbn [length Nat.add] in U2; congruence|exact W3].
Qed.

(** A plan with more than 2502 packages and the number of workers: the program can hang
    although nothing fails. q waits to be requested, 2000 requests wait to be started, one
    more for room in that queue, the workers for room in the queue of updates, and 500
    updates for q to be requested. *)
Theorem C46_large_refuted : forall m n, 1 <= n -> 2502 + n < m -> exists j ls s,
  job_ok j /\ plan_size j = m /\ j_workers j = n /\ execution j (initial j) ls s /\
  no_failures ls /\ none_dropped ls /\ all_copied ls /\ Sched.stuck j s /\ forall e, ~ returned s e.
Proof.
  intros m n Hn Hm. change 2502 with (workq_cap + updq_cap + 2) in Hm.
  destruct (large_leads (m - 1) n Hn) as (ls & s & H1 & H2 & H3); [lia|].
  destruct (fine_facts ls H1) as (F1 & F2 & F3). destruct (full_stuck (large (m - 1) n) s H3) as [S1 S2].
  exists (large (m - 1) n), ls, s. split; [apply large_ok; lia|].
  split; [rewrite large_size; lia|]. done.
Qed.
Print Assumptions C46_large_refuted.

(** So the bound of C46 and C47 is exact. *)
Theorem C47_size_exact : forall m n, 1 <= n ->
  (forall j ls s, job_ok j -> plan_size j = m -> j_workers j = n -> execution j (initial j) ls s -> Sched.stuck j s ->
     none_dropped ls -> all_copied ls -> exists e, returned s e) <-> m <= 2502 + n.
Proof.
  intros m n Hn. split.
  - intros H. destruct (le_lt_dec m (2502 + n)) as [|Hm]; [done|]. exfalso.
    destruct (C46_large_refuted m n Hn Hm) as (j & ls & s & H1 & H2 & H3 & H4 & _ & H6 & H7 & H8 & H9).
    destruct (H j ls s H1 H2 H3 H4 H8 H6 H7) as [e He]. by apply (H9 e).
  - intros Hm j ls s H1 H2 H3 H4 H5 H6 H7. subst m n. exact (stuck_returned j H1 ls s H4 H5 Hm Hn H6 H7).
Qed.
Print Assumptions C47_size_exact.

(** With the usual one worker per core, for instance 8: 2510 packages are installed, 2511
    can be too many. *)
Example C47_size_example : (2510 <= 2502 + 8) /\ ~ (2511 <= 2502 + 8) /\
  exists j ls s, job_ok j /\ plan_size j = 2511 /\ j_workers j = 8 /\ execution j (initial j) ls s /\
    no_failures ls /\ Sched.stuck j s /\ forall e, ~ returned s e.
Proof.
  split; [apply Nat.leb_le; vm_compute; reflexivity|]. split; [apply Nat.leb_nle; vm_compute; reflexivity|].
  destruct (C46_large_refuted 2511 8) as (j & ls & s & H1 & H2 & H3 & H4 & H5 & _ & _ & H8 & H9);
    [apply Nat.leb_le; vm_compute; reflexivity|apply Nat.leb_le; vm_compute; reflexivity|].
  by exists j, ls, s.
Qed.
