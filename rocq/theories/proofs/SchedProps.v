(** Executing install plans: the properties. *)
From stdpp Require Import strings list gmap.
From Coq Require Import Ascii ZArith Lia.
From Verif.model Require Import GoStr Graph Sched.
From Verif.spec Require Import GraphSpec SchedSpec.
From Verif.proofs Require Import GoStrLemmas GraphProofs PlanProofs PlanProps DerivedProofs SchedProofs.

Local Open Scope string_scope.

Lemma execution_app j s l1 l2 s' : execution j s (l1 ++ l2)%list s' ->
  exists s1, execution j s l1 s1 /\ execution j s1 l2 s'.
Proof.
  revert s'. induction l2 as [|l l2 IH] using rev_ind; intros s' H.
  - rewrite app_nil_r in H. exists s'. split; [done|constructor].
  - rewrite app_assoc in H. inversion H as [|? ls s2 l' ? H1 H2 E1 E2]; subst; [by destruct (l1 ++ l2)%list|].
    apply app_inj_tail in E2 as [E2 E3]. subst. apply IH in H1 as (s1 & H3 & H4).
    exists s1. split; [done|]. by eapply ex_snoc.
Qed.

Lemma execution_cons j s l ls s' : execution j s (l :: ls) s' ->
  exists s1, step j s l s1 /\ execution j s1 ls s'.
Proof.
  intros H. apply (execution_app j s [l] ls) in H as (s1 & H1 & H2). exists s1. split; [|done].
  inversion H1 as [|? k s2 l' ? H3 H4 E1 E2]; subst. destruct k as [|x k]; [|by destruct k].
  cbn in E2. assert (l' = l) as -> by congruence.
  inversion H3 as [|? k' s3 l3 s4 H5 H6 E3 E4]; subst; [done|]. by destruct k'.
Qed.

Section job.
  Context (j : job) (Hj : job_ok j).
  Notation run := (execution j (initial j)).

  (** C41 *)
  Lemma deps_first ls s l1 l2 p d : run ls s -> ls = (l1 ++ Start p :: l2)%list -> depends_on j p d ->
    succeeded l1 d.
  Proof.
    intros H -> Hd. apply execution_app in H as (s1 & H1 & H2).
    apply execution_cons in H2 as (s2 & H2 & _).
    pose proof (counts_run _ _ _ H1) as [K1 K2 K3 K4 _ _ _ _].
    pose proof (asks_run _ Hj _ _ H1) as [_ A _ _].
    inversion H2; subst; cbn [s_main s_wg s_req s_requested s_workq s_workers s_updq s_upd s_installed
      s_any_failed s_failed] in *.
    apply h_ok_elem. rewrite K4. destruct (A p) as [_ B].
    { specialize (K1 p). cbn [cnt] in K1. rewrite one_eq in K1. lia. }
    apply B, cnt_elem in Hd. lia.
  Qed.

  (** C42 *)
  Lemma start_once ls s l1 l2 p : run ls s -> ls = (l1 ++ Start p :: l2)%list ->
    ~ started l1 p /\ ~ started l2 p /\ in_plan j p.
  Proof.
    intros H E. pose proof (counts_run _ _ _ H) as [K1 K2 K3 K4 _ _ K7 _].
    specialize (K1 p). specialize (K7 p). rewrite E, h_start_app in K1. cbn [h_start] in K1. rewrite one_eq in K1.
    split; [rewrite h_start_elem; lia|]. split; [rewrite h_start_elem; lia|].
    eapply (asks_run _ Hj); [done|]. lia.
  Qed.

  (** Nothing is under way when the function has returned. *)
  Lemma returned_quiet ls s e : run ls s -> returned s e ->
    flight s = 0 /\ none_dropped ls /\ all_copied ls /\ e = if s_any_failed s then Some (s_failed s) else None.
  Proof.
    intros H He. pose proof (waits_run _ _ _ H) as W. destruct (w_returned _ _ W e He) as [E1 E2].
    destruct (waits_zero _ _ W E1) as (Z1 & Z2 & Z3).
    split; [done|]. split; [by apply h_drop_none|]. split; [by apply h_bad_none|done].
  Qed.

  Lemma n_work_zero ws : n_work ws = 0 -> forall x, c_busy x ws = 0 /\ c_post x ws = 0 /\ o_post x ws = 0.
  Proof. intros H x. induction ws as [|[] ws IH]; cbn in *; [done|by apply IH|lia|lia]. Qed.

  Lemma quiet_counts ls s x : run ls s -> flight s = 0 ->
    h_ok x ls = cnt x (s_installed s) /\ h_fin x ls = cnt x (s_installed s) + cnt x (s_failed s) /\
    cnt x (s_requested s) = h_fin x ls /\ c_usend x (s_upd s) = 0 /\ c_got x (s_req s) = 0 /\
    c_rest x (s_upd s) = 0.
  Proof.
    intros H Hf. pose proof (counts_run _ _ _ H) as [K1 K2 K3 K4 _ _ _ _].
    specialize (K1 x). specialize (K2 x). specialize (K3 x). specialize (K4 x). unfold flight in Hf.
    destruct (n_work_zero (s_workers s)) with (x := x) as (N1 & N2 & N3); [lia|].
    destruct (s_req s), (s_upd s), (s_updq s), (s_workq s); cbn in *; try lia.
  Qed.

  Lemma needed_smaller p d : depends_on j p d -> length (needed j d) < length (needed j p).
  Proof.
    intros Hd.
    assert (NoDup (d :: needed j d)) as N.
    { constructor.
      - unfold needed. destruct (j_depdb j !! d) as [l|] eqn:E; cbn [default from_option id].
        + by apply (jo_deps _ Hj d l E).
        + apply not_elem_of_nil.
      - unfold needed. destruct (j_depdb j !! d) as [l|] eqn:E; cbn [default from_option id].
        + by apply (jo_deps _ Hj d l E).
        + constructor. }
    assert (d :: needed j d ⊆+ needed j p) as S.
    { apply NoDup_submseteq; [done|]. intros e [->|He]%elem_of_cons; [by apply needed_spec|].
      apply needed_spec. apply (jo_trans _ Hj p d); [done|]. by apply needed_spec. }
    apply submseteq_length in S. cbn [length] in S. lia.
  Qed.

  (** C43 *)
  Lemma success_all ls s : run ls s -> returned s None -> forall p, in_plan j p -> succeeded ls p.
  Proof.
    intros H Hr. destruct (returned_quiet _ _ _ H Hr) as (Hf & _ & _ & E).
    destruct (s_any_failed s) eqn:Eaf; [done|].
    assert (s_failed s = []) as Efl.
    { pose proof (k_af _ _ _ (counts_run _ _ _ H)) as K. destruct (s_failed s); [done|].
      rewrite (proj2 K) in Eaf by done. done. }
    assert (forall n p, length (needed j p) < n -> in_plan j p -> p ∈ s_installed s) as G.
    { induction n as [|n IH]; [lia|]. intros p Hn Hp.
      pose proof (complete_run _ Hj _ _ H Eaf p Hp) as C. feed specialize C.
      { intros d Hd. apply IH; [|by apply (jo_closed _ Hj p d)]. apply needed_smaller in Hd. lia. }
      destruct (quiet_counts ls s p H Hf) as (Q1 & Q2 & Q3 & Q4 & Q5 & Q6). unfold asked in C.
      unfold returned in Hr. rewrite Hr in C. cbn [c_feed] in C. rewrite Efl in Q2. cbn [cnt] in Q2.
      apply cnt_elem. lia. }
    intros p Hp. apply h_ok_elem. destruct (quiet_counts ls s p H Hf) as (-> & _).
    apply cnt_elem. apply (G (S (length (needed j p)))); [lia|done].
  Qed.

  (** C44 *)
  Lemma errors_exact ls s e : run ls s -> returned s e ->
    (forall p, p ∈ default [] e <-> did_fail ls p) /\ NoDup (default [] e) /\ (e = None <-> no_failures ls).
  Proof.
    intros H Hr. destruct (returned_quiet _ _ _ H Hr) as (Hf & _ & _ & E).
    pose proof (counts_run _ _ _ H) as K. pose proof (k_af _ _ _ K) as Kaf.
    assert (default [] e = s_failed s) as Ee.
    { rewrite E. destruct (s_any_failed s) eqn:Ea; [done|]. cbn [default from_option].
      destruct (s_failed s) as [|y k]; [done|]. assert (false = true) as X by (by apply Kaf). done. }
    assert (forall p, p ∈ default [] e <-> did_fail ls p) as A.
    { intros p. rewrite Ee, h_fail_elem, cnt_elem.
      destruct (quiet_counts ls s p H Hf) as (Q1 & Q2 & _). lia. }
    split; [done|]. split.
    - rewrite Ee. apply cnt_nodup. intros x. destruct (quiet_counts ls s x H Hf) as (Q1 & Q2 & Q3 & _).
      pose proof (k_seen _ _ _ K x). lia.
    - split.
      + intros -> p Hp. apply A in Hp. by apply elem_of_nil in Hp.
      + intros Hn. rewrite E. destruct (s_any_failed s) eqn:Eaf; [|done].
        destruct (s_failed s) as [|p l] eqn:Efl; [by destruct (proj1 Kaf eq_refl)|].
        exfalso. apply (Hn p), A. rewrite Ee. by left.
  Qed.

  (** C45 *)
  Lemma no_dependents ls s p f : run ls s -> depends_on j p f -> did_fail ls f -> ~ started ls p.
  Proof.
    intros H Hd Hf Hs. pose proof (counts_run _ _ _ H) as [K1 K2 K3 K4 _ _ K7 _].
    apply h_start_elem in Hs. apply h_fail_elem in Hf.
    destruct (a_dep _ _ (asks_run _ Hj _ _ H) p) as [_ B]; [specialize (K1 p); lia|].
    apply B, cnt_elem in Hd. specialize (K1 f). specialize (K2 f). specialize (K3 f). specialize (K4 f).
    specialize (K7 f). lia.
  Qed.

  (** C48 *)
  Lemma running_busy ls s p : run ls s -> running ls p -> 1 <= c_busy p (s_workers s).
  Proof.
    intros H [H1 H2]. pose proof (counts_run _ _ _ H) as [K1 K2 K3 K4 _ _ _ _].
    apply h_start_elem in H1. specialize (K2 p). destruct (decide (1 <= h_fin p ls)) as [E|E]; [|lia].
    apply h_fin_elem in E as [r E]. by apply H2 in E.
  Qed.

  Lemma busy_bound (l : list string) ws : NoDup l -> (forall p, p ∈ l -> 1 <= c_busy p ws) ->
    length l <= length ws.
  Proof.
    revert l. induction ws as [|w ws IH]; intros l Hnd Hl.
    - destruct l as [|p l]; [done|]. specialize (Hl p). feed specialize Hl; [by left|]. cbn in Hl. lia.
    - destruct w as [|q|q r]; cbn [c_busy] in Hl; try (specialize (IH l Hnd Hl); cbn [length]; lia).
      assert (length (List.filter (fun p => negb (String.eqb p q)) l) <= length ws) as B.
      { apply IH.
        - rewrite NoDup_ListNoDup in *. by apply List.NoDup_filter.
        - intros p Hp. apply elem_of_list_In, filter_In in Hp as [Hp1 Hp2].
          apply elem_of_list_In, Hl in Hp1. unfold one in Hp1. destruct (decide (q = p)) as [->|]; [|lia].
          by rewrite String.eqb_refl in Hp2. }
      assert (length l <= S (length (List.filter (fun p => negb (String.eqb p q)) l))) as C; [|cbn [length]; lia].
      clear IH Hl B. induction l as [|p l IH]; [cbn; lia|]. apply NoDup_cons in Hnd as [Hp Hnd].
      cbn [List.filter]. destruct (String.eqb_spec p q) as [->|Hne]; cbn [negb length].
      + assert (List.filter (fun p => negb (String.eqb p q)) l = l) as ->; [|lia].
        clear IH Hnd. induction l as [|y l IH]; [done|]. cbn [List.filter].
        destruct (String.eqb_spec y q) as [->|]; [exfalso; apply Hp; by left|]. cbn [negb]. f_equal.
        apply IH. intros ?. apply Hp. by right.
      + specialize (IH Hnd). lia.
  Qed.

  Lemma workers_bound ls s (l : list string) : run ls s -> NoDup l -> (forall p, p ∈ l -> running ls p) ->
    length l <= j_workers j.
  Proof.
    intros H Hnd Hl. rewrite <- (k_workers _ _ _ (counts_run _ _ _ H)). apply busy_bound; [done|].
    intros p Hp. eapply running_busy; [done|]. by apply Hl.
  Qed.

  (** The wait group is never negative. *)
  Lemma wg_nonneg ls s : run ls s -> (0 <= s_wg s)%Z.
  Proof. intros H. destruct (waits_run _ _ _ H) as [W1 W2 _ _]. lia. Qed.

  (** ** Termination *)
  Definition plan_list : list string := (j_starting j ++ j_keys j)%list.

  Lemma plan_list_spec p : p ∈ plan_list <-> in_plan j p.
  Proof.
    unfold plan_list, in_plan. rewrite elem_of_app, (jo_keys _ Hj), elem_of_list_fmap. split.
    - intros [?|([q l] & -> & H)]; [by left|]. right. apply elem_of_map_to_list in H. by exists l.
    - intros [?|[l H]]; [by left|]. right. exists (p, l). split; [done|]. by apply elem_of_map_to_list.
  Qed.

  Lemma plan_list_size : length plan_list = plan_size j.
  Proof.
    unfold plan_list, plan_size. rewrite app_length, (jo_keys _ Hj), fmap_length. f_equal.
  Qed.

  Definition todo (rs : list string) : nat := length (List.filter (fun p => negb (is_in p rs)) plan_list).

  Definition weight (p : string) : nat := 3 * length (dependents j p).
  Definition v_main (m : main_state) : nat :=
    match m with
    | MFeed l => 3 * length l + 4 | MSend _ l => 3 * length l + 6
    | MWait => 3 | MWoken => 2 | MReturned _ => 1
    end.
  Definition v_req (r : requester_state) : nat :=
    match r with RIdle => 0 | RGot _ => 1 | RPush p => weight p + 9 end.
  Fixpoint v_workq (l : list string) : nat :=
    match l with [] => 0 | p :: l' => weight p + 8 + v_workq l' end.
  Fixpoint v_work (ws : list worker_state) : nat :=
    match ws with
    | [] => 0
    | WIdle :: l => v_work l
    | WBusy p :: l => weight p + 7 + v_work l
    | WPost p _ :: l => weight p + 6 + v_work l
    end.
  Fixpoint v_updq (l : list (string * result)) : nat :=
    match l with [] => 0 | (p, _) :: l' => weight p + 5 + v_updq l' end.
  Definition v_upd (u : updater_state) : nat :=
    match u with UIdle => 0 | UDone => 1 | UCheck l _ => 3 * length l + 4 | USend _ l _ => 3 * length l + 6 end.
  Definition value (s : state) : nat :=
    v_main (s_main s) + v_req (s_req s) + v_workq (s_workq s) + v_work (s_workers s) + v_updq (s_updq s) +
    v_upd (s_upd s).

  Lemma v_workq_app l k : v_workq (l ++ k)%list = v_workq l + v_workq k.
  Proof. induction l as [|p l IH]; cbn [v_workq app]; lia. Qed.
  Lemma v_work_app l k : v_work (l ++ k)%list = v_work l + v_work k.
  Proof. induction l as [|[] l IH]; cbn [v_work app]; lia. Qed.
  Lemma v_updq_app l k : v_updq (l ++ k)%list = v_updq l + v_updq k.
  Proof. induction l as [|[] l IH]; cbn [v_updq app]; lia. Qed.

  Lemma todo_less p rs : in_plan j p -> is_in p rs = false -> todo (p :: rs) < todo rs.
  Proof.
    intros Hp Hn. apply plan_list_spec, elem_of_list_In in Hp. unfold todo.
    assert (forall l, length (List.filter (fun q => negb (is_in q (p :: rs))) l) <=
      length (List.filter (fun q => negb (is_in q rs)) l)) as M.
    { induction l as [|y l IH]; [done|]. cbn [List.filter]. unfold is_in in *. cbn [existsb] in *.
      destruct (String.eqb y p), (existsb (String.eqb y) rs); cbn [orb negb length]; lia. }
    induction plan_list as [|y l IH]; [done|]. destruct Hp as [->|Hp].
    - cbn [List.filter]. specialize (M l). unfold is_in in *. cbn [existsb] in *. rewrite Hn, String.eqb_refl.
      cbn [orb negb length]. lia.
    - specialize (IH Hp). cbn [List.filter]. unfold is_in in *. cbn [existsb] in *.
      destruct (String.eqb y p), (existsb (String.eqb y) rs); cbn [orb negb length]; lia.
  Qed.

  Lemma step_decreases ls s l s' : run ls s -> step j s l s' ->
    todo (s_requested s') < todo (s_requested s) \/
    (s_requested s' = s_requested s /\ value s' < value s).
  Proof.
    intros H Hs. unfold value.
    assert (Hs' := Hs). destruct Hs; cbn [s_main s_wg s_req s_requested s_workq s_workers s_updq s_upd
      s_installed s_any_failed s_failed];
      try (right; split; [done|]; rewrite ?v_workq_app, ?v_work_app, ?v_updq_app;
           cbn [v_main v_req v_workq v_work v_updq v_upd length]; unfold weight; lia).
    left. apply todo_less; [|done].
    apply (a_dep _ _ (asks_run _ Hj _ _ H) p). cbn. rewrite one_eq. lia.
  Qed.

  (** Every execution is finite. *)
  Lemma no_infinite ls s : run ls s -> Acc (fun s2 s1 => exists l, step j s1 l s2) s.
  Proof.
    remember (todo (s_requested s)) as a eqn:Ea. revert ls s Ea.
    induction (lt_wf a) as [a _ IHa]. intros ls s Ea.
    remember (value s) as b eqn:Eb. revert ls s Ea Eb.
    induction (lt_wf b) as [b _ IHb]. intros ls s Ea Eb H.
    constructor. intros s2 [l Hs].
    assert (run (ls ++ [l])%list s2) as H2 by (by eapply ex_snoc).
    destruct (step_decreases _ _ _ _ H Hs) as [D|[D1 D2]].
    - eapply IHa; [|done|exact H2]. by subst.
    - eapply IHb; [| |done|exact H2]; [by subst|by rewrite D1].
  Qed.

  (** ** Where executions end *)
  Lemma no_drops ls s : run ls s -> s_any_failed s = false -> none_dropped ls.
  Proof.
    intros H. remember (initial j) as s0 eqn:E. induction H as [s|s ls s' l s'' H IH Hs]; subst.
    { intros _ p Hp. by apply elem_of_nil in Hp. }
    specialize (IH eq_refl). intros Haf p Hp. pose proof (asks_run _ Hj _ _ H) as A.
    destruct Hs; cbn [s_any_failed] in *; try done;
      try (apply elem_of_app in Hp as [Hp|Hp]; [by apply IH in Hp|];
           apply elem_of_list_singleton in Hp; done).
    apply elem_of_app in Hp as [Hp|Hp]; [by apply IH in Hp|].
    pose proof (a_once _ _ A p0) as Ho. unfold asked in Ho. cbn in Ho. rewrite one_eq in Ho.
    apply is_in_spec, cnt_elem in H0. lia.
  Qed.

  Lemma any_failed_fails ls s : run ls s -> s_any_failed s = true -> exists p, did_fail ls p.
  Proof.
    intros H Haf. pose proof (counts_run _ _ _ H) as [K1 K2 K3 K4 _ K6 _ _]. apply K6 in Haf.
    destruct (s_failed s) as [|p l] eqn:E; [done|]. exists p. apply h_fail_elem. rewrite K3, K4.
    cbn [cnt]. rewrite one_eq. pose proof (o_post_le p (s_workers s)). pose proof (o_updq_le p (s_updq s)). lia.
  Qed.

  (** The updater is at work only after a first update. *)
  Lemma updater_used ls s : run ls s -> s_upd s <> UIdle -> 1 <= length (s_installed s) + length (s_failed s).
  Proof.
    intros H. remember (initial j) as s0 eqn:E. induction H as [s|s ls s' l s'' H IH Hs]; subst; [done|].
    specialize (IH eq_refl). destruct Hs; cbn [s_upd s_installed s_failed] in *; try done;
      try (intros _; by apply IH); intros _; rewrite ?app_length; cbn [length]; lia.
  Qed.

  Fixpoint held (ws : list worker_state) : list string :=
    match ws with [] => [] | WIdle :: l => held l | WBusy p :: l | WPost p _ :: l => p :: held l end.

  Lemma cnt_held x ws : cnt x (held ws) = c_busy x ws + c_post x ws.
  Proof. induction ws as [|[] ws IH]; cbn [held cnt c_busy c_post]; lia. Qed.

  Lemma cnt_updq x (l : list (string * result)) : cnt x (l.*1) = c_updq x l.
  Proof. induction l as [|[p r] l IH]; [done|]. cbn [fmap list_fmap cnt c_updq fst]. by rewrite <- IH. Qed.

  (** When a request waits for the queue and the updater for the requester, all these are
      different packages of the plan. *)
  Lemma blocked_size ls s p q l c : run ls s -> s_req s = RPush p -> s_upd s = USend q l c ->
    3 + length (s_workq s) + length (held (s_workers s)) + length (s_updq s) <= plan_size j.
  Proof.
    intros H Er Eu. pose proof (counts_run _ _ _ H) as [K1 K2 K3 _ _ _ K7 _].
    pose proof (asks_run _ Hj _ _ H) as A. pose proof (updater_used ls s H ltac:(by rewrite Eu)) as Hu.
    assert (forall x, cnt x (q :: p :: s_workq s ++ held (s_workers s) ++ (s_updq s).*1 ++ s_installed s ++ s_failed s)%list =
      c_usend x (s_upd s) + cnt x (s_requested s)) as C.
    { intros x. specialize (K1 x). specialize (K2 x). specialize (K3 x). rewrite Er in K1. rewrite Eu.
      cbn [cnt c_push c_usend] in *. rewrite !cnt_app, cnt_held, cnt_updq. lia. }
    assert (length (q :: p :: s_workq s ++ held (s_workers s) ++ (s_updq s).*1 ++ s_installed s ++ s_failed s)%list <=
      length plan_list) as L.
    { apply submseteq_length, NoDup_submseteq.
      - apply cnt_nodup. intros x. rewrite C. pose proof (a_once _ _ A x) as O. unfold asked in O. lia.
      - intros x Hx. apply plan_list_spec. apply (a_dep _ _ A x). apply cnt_elem in Hx. rewrite C in Hx. lia. }
    rewrite plan_list_size in L. cbn [length] in L. rewrite !app_length, fmap_length in L. lia.
  Qed.

  Lemma worker_cases ws : (exists w1 w2, ws = (w1 ++ WIdle :: w2)%list) \/ (ws = []) \/
    (exists w1 p w2, ws = (w1 ++ WBusy p :: w2)%list) \/ (exists w1 p r w2, ws = (w1 ++ WPost p r :: w2)%list).
  Proof.
    destruct ws as [|[| |] ws]; [by right; left|left; by exists [], ws|right; right; left; by exists [], p, ws|].
    right. right. right. by exists [], p, r, ws.
  Qed.

  Lemma n_work_cases ws : n_work ws <> 0 ->
    (exists w1 p w2, ws = (w1 ++ WBusy p :: w2)%list) \/ (exists w1 p r w2, ws = (w1 ++ WPost p r :: w2)%list).
  Proof.
    induction ws as [|[|p|p r] ws IH]; cbn [n_work]; [done| | |].
    - intros H. destruct (IH H) as [(w1 & p & w2 & ->)|(w1 & p & r & w2 & ->)].
      + left. by exists (WIdle :: w1), p, w2.
      + right. by exists (WIdle :: w1), p, r, w2.
    - intros _. left. by exists [], p, ws.
    - intros _. right. by exists [], p, r, ws.
  Qed.

  Lemma stuck_returned ls s : run ls s -> stuck j s -> plan_size j <= 2502 + j_workers j -> 1 <= j_workers j ->
    none_dropped ls -> all_copied ls -> exists e, returned s e.
  Proof.
    intros H Hs Hc Hw Hd Hb. change 2502 with (workq_cap + updq_cap + 2) in Hc.
    pose proof (blocked_size ls s) as Wb.
    pose proof (w_count _ _ (waits_run _ _ _ H)) as W. pose proof (w_bad _ _ (waits_run _ _ _ H)) as W'.
    rewrite (proj2 (h_drop_none ls) Hd), (proj2 (h_bad_none ls) Hb) in W.
    rewrite (proj2 (h_bad_none ls) Hb) in W'.
    pose proof (k_workers _ _ _ (counts_run _ _ _ H)) as Kw.
    destruct s as [m wg rq rs wq ws uq u ins af fl]. unfold returned, flight in *.
    cbn [s_main s_wg s_req s_requested s_workq s_workers s_updq s_upd s_installed s_any_failed s_failed] in *.
    assert (rq = RIdle) as ->.
    { destruct rq as [|p|p]; [done| |].
      - exfalso. destruct af; [eapply Hs; constructor|].
        destruct (is_in p rs) eqn:E; eapply Hs; [by apply req_seen|by apply req_mark].
      - exfalso. destruct (decide (length wq < workq_cap)) as [|Hq]; [eapply Hs; by apply req_push|].
        assert (length (held ws) = length ws) as Hh.
        { destruct wq as [|y wq]; [exfalso; apply Hq; apply Nat.lt_0_succ|].
          assert (WIdle ∉ ws) as Hi.
          { intros (w1 & w2 & ->)%elem_of_list_split. eapply Hs, work_start. }
          clear -Hi. induction ws as [|[] ws IH]; cbn [held length]; [done| | |].
          - exfalso. apply Hi. by left.
          - rewrite IH; [done|]. intros K. apply Hi. by right.
          - rewrite IH; [done|]. intros K. apply Hi. by right. }
        assert (updq_cap <= length uq) as Hq2.
        { destruct (decide (length uq < updq_cap)) as [Hl|]; [|lia]. exfalso.
          destruct ws as [|[|y|y r] ws]; cbn [length held] in *; [lia| | |].
          - assert (length (held ws) <= length ws) as B; [|lia].
            clear. induction ws as [|[] ws IH]; cbn [held length]; lia.
          - eapply Hs. apply (work_finish j) with (w1 := []) (r := RFail).
          - eapply Hs. by apply (work_post j) with (w1 := []). }
        destruct u as [|[|y l] c|y l c|].
        + destruct uq as [|[y [c|]] uq]; [by apply Nat.nle_succ_0 in Hq2|eapply Hs; apply upd_ok|eapply Hs; apply upd_failed].
        + destruct c; eapply Hs; [apply upd_copied|apply upd_copy_error].
        + destruct af; [eapply Hs, upd_skip; by rewrite andb_false_r|].
          destruct (all_installed j y ins) eqn:E; eapply Hs; [by apply upd_suggest|].
          apply upd_skip. by rewrite E.
        + specialize (Wb p y l c H eq_refl eq_refl). lia.
        + eapply Hs. apply upd_done. }
    assert (u = UIdle) as ->.
    { destruct u as [|[|q l] c|q l c|]; [done| | | |]; exfalso.
      - destruct c; eapply Hs; constructor.
      - destruct af; [eapply Hs, upd_skip; by rewrite andb_false_r|].
        destruct (all_installed j q ins) eqn:E; eapply Hs; [by apply upd_suggest|].
        apply upd_skip. by rewrite E.
      - eapply Hs. apply upd_send.
      - eapply Hs. apply upd_done. }
    assert (uq = []) as ->.
    { destruct uq as [|[p [c|]] uq]; [done| |]; exfalso; eapply Hs; constructor. }
    assert (n_work ws = 0) as Nw.
    { destruct (decide (n_work ws = 0)) as [|E]; [done|]. exfalso.
      apply n_work_cases in E as [(w1 & p & w2 & ->)|(w1 & p & r & w2 & ->)].
      - eapply Hs. eapply (work_finish j) with (r := RFail).
      - eapply Hs. apply work_post. unfold updq_cap. cbn [length]. lia. }
    assert (wq = []) as ->.
    { destruct wq as [|p wq]; [done|]. exfalso.
      destruct ws as [|[|q|q r] ws]; cbn [length n_work] in *; try lia.
      eapply Hs. apply (work_start j) with (w1 := []). }
    destruct m as [[|p l]|p l| | |e]; [| | | | |by exists e]; exfalso.
    - eapply Hs. apply main_wait.
    - eapply Hs. apply main_add.
    - eapply Hs. apply main_send.
    - assert (wg = 0%Z) as -> by (cbn in *; lia). eapply Hs. apply main_woken.
    - eapply Hs. apply main_return.
  Qed.

  (** An execution that returned is maximal. *)
  Lemma returned_stuck ls s e : run ls s -> returned s e -> stuck j s.
  Proof.
    intros H Hr l s' Hs. destruct (returned_quiet _ _ _ H Hr) as (Hf & _). unfold flight, returned in *.
    destruct Hs; cbn [s_main s_req s_workq s_workers s_updq s_upd] in *; try done;
      try (subst; rewrite ?n_work_app in *; cbn in *; lia).
  Qed.
End job.
