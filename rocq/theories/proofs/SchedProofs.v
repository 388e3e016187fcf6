(** Invariants of executing install plans. *)
From stdpp Require Import strings list gmap.
From Coq Require Import Ascii ZArith Lia.
From Verif.model Require Import GoStr Graph Sched.
From Verif.spec Require Import GraphSpec SchedSpec.
From Verif.proofs Require Import GoStrLemmas GraphProofs PlanProofs PlanProps DerivedProofs.

Local Open Scope string_scope.

(** ** Counting *)
Definition one (x y : string) : nat := if decide (y = x) then 1 else 0.

Fixpoint cnt (x : string) (l : list string) : nat :=
  match l with [] => 0 | y :: l' => one x y + cnt x l' end.

Lemma cnt_app x l k : cnt x (l ++ k)%list = cnt x l + cnt x k.
Proof. induction l as [|y l IH]; cbn [cnt app]; [done|]. lia. Qed.

Lemma cnt_elem x l : x ∈ l <-> 1 <= cnt x l.
Proof.
  induction l as [|y l IH]; cbn [cnt]; [split; [intros H; by apply elem_of_nil in H|lia]|].
  rewrite elem_of_cons, IH. unfold one. destruct (decide (y = x)) as [->|]; [split; [lia|by left]|].
  split; [intros [->|?]; [done|lia]|right; lia].
Qed.

Lemma cnt_nodup l : NoDup l <-> forall x, cnt x l <= 1.
Proof.
  induction l as [|y l IH]; [split; [cbn; lia|constructor]|]. rewrite NoDup_cons, IH. split.
  - intros [H1 H2] x. cbn [cnt]. unfold one. destruct (decide (y = x)) as [->|]; [|apply H2].
    rewrite cnt_elem in H1. lia.
  - intros H. split.
    + rewrite cnt_elem. specialize (H y). cbn [cnt] in H. unfold one in H.
      destruct (decide (y = y)); [lia|done].
    + intros x. specialize (H x). cbn [cnt] in H. lia.
Qed.

Lemma one_eq x : one x x = 1.
Proof. unfold one. by destruct (decide (x = x)). Qed.

Lemma cnt_zero l : (forall x, cnt x l = 0) -> l = [].
Proof. destruct l as [|y l]; [done|]. intros H. specialize (H y). cbn [cnt] in H. rewrite one_eq in H. lia. Qed.

(** Counting in the parts of a state. *)
Definition c_feed (x : string) (m : main_state) : nat :=
  match m with MFeed l => cnt x l | MSend p l => one x p + cnt x l | _ => 0 end.
Definition c_got (x : string) (r : requester_state) : nat := match r with RGot p => one x p | _ => 0 end.
Definition c_push (x : string) (r : requester_state) : nat := match r with RPush p => one x p | _ => 0 end.
Definition c_usend (x : string) (u : updater_state) : nat := match u with USend q _ _ => one x q | _ => 0 end.
Definition c_rest (x : string) (u : updater_state) : nat :=
  match u with UCheck l _ | USend _ l _ => cnt x l | _ => 0 end.

Fixpoint c_busy (x : string) (ws : list worker_state) : nat :=
  match ws with [] => 0 | WBusy p :: l => one x p + c_busy x l | _ :: l => c_busy x l end.
Fixpoint c_post (x : string) (ws : list worker_state) : nat :=
  match ws with [] => 0 | WPost p _ :: l => one x p + c_post x l | _ :: l => c_post x l end.
Fixpoint c_updq (x : string) (l : list (string * result)) : nat :=
  match l with [] => 0 | (p, _) :: l' => one x p + c_updq x l' end.

(** Successes and failures that are still being reported. *)
Definition res_ok (r : result) : nat := match r with ROk _ => 1 | RFail => 0 end.
Fixpoint o_post (x : string) (ws : list worker_state) : nat :=
  match ws with [] => 0 | WPost p r :: l => one x p * res_ok r + o_post x l | _ :: l => o_post x l end.
Fixpoint o_updq (x : string) (l : list (string * result)) : nat :=
  match l with [] => 0 | (p, r) :: l' => one x p * res_ok r + o_updq x l' end.

Lemma c_busy_app x l k : c_busy x (l ++ k)%list = c_busy x l + c_busy x k.
Proof. induction l as [|[] l IH]; cbn; lia. Qed.
Lemma c_post_app x l k : c_post x (l ++ k)%list = c_post x l + c_post x k.
Proof. induction l as [|[] l IH]; cbn; lia. Qed.
Lemma o_post_app x l k : o_post x (l ++ k)%list = o_post x l + o_post x k.
Proof. induction l as [|[] l IH]; cbn [o_post app]; lia. Qed.
Lemma c_updq_app x l k : c_updq x (l ++ k)%list = c_updq x l + c_updq x k.
Proof. induction l as [|[] l IH]; cbn; lia. Qed.
Lemma o_updq_app x l k : o_updq x (l ++ k)%list = o_updq x l + o_updq x k.
Proof. induction l as [|[] l IH]; cbn [o_updq app]; lia. Qed.

Lemma res_ok_le r : res_ok r <= 1.
Proof. destruct r; cbn; lia. Qed.

Lemma o_post_le x ws : o_post x ws <= c_post x ws.
Proof. induction ws as [|[| |p r] ws IH]; cbn [o_post c_post]; try lia. destruct r; cbn [res_ok]; lia. Qed.
Lemma o_updq_le x l : o_updq x l <= c_updq x l.
Proof. induction l as [|[p r] ws IH]; cbn [o_updq c_updq]; [lia|]. destruct r; cbn [res_ok]; lia. Qed.

(** Counting in histories. *)
Fixpoint h_start (x : string) (ls : list label) : nat :=
  match ls with [] => 0 | Start p :: l => one x p + h_start x l | _ :: l => h_start x l end.
Fixpoint h_ok (x : string) (ls : list label) : nat :=
  match ls with [] => 0 | Finish p r :: l => one x p * res_ok r + h_ok x l | _ :: l => h_ok x l end.
Fixpoint h_fin (x : string) (ls : list label) : nat :=
  match ls with [] => 0 | Finish p r :: l => one x p + h_fin x l | _ :: l => h_fin x l end.

Lemma h_start_app x l k : h_start x (l ++ k)%list = h_start x l + h_start x k.
Proof. induction l as [|[] l IH]; cbn; lia. Qed.
Lemma h_ok_app x l k : h_ok x (l ++ k)%list = h_ok x l + h_ok x k.
Proof. induction l as [|[] l IH]; cbn [h_ok app]; lia. Qed.
Lemma h_fin_app x l k : h_fin x (l ++ k)%list = h_fin x l + h_fin x k.
Proof. induction l as [|[] l IH]; cbn; lia. Qed.

Lemma h_start_elem x ls : started ls x <-> 1 <= h_start x ls.
Proof.
  unfold started. induction ls as [|l ls IH]; [split; [intros H; by apply elem_of_nil in H|cbn; lia]|].
  rewrite elem_of_cons, IH. destruct l; cbn [h_start]; try (split; [intros [?|?]; [done|done]|by right]).
  unfold one. destruct (decide (p = x)) as [->|]; [split; [lia|by left]|].
  split; [intros [[= ->]|?]; [done|lia]|right; lia].
Qed.

Lemma h_fin_elem x ls : (exists r, Finish x r ∈ ls) <-> 1 <= h_fin x ls.
Proof.
  induction ls as [|l ls IH]; [split; [intros [r H]; by apply elem_of_nil in H|cbn; lia]|].
  assert ((exists r, Finish x r ∈ l :: ls) <-> (exists r, l = Finish x r) \/ 1 <= h_fin x ls) as ->.
  { rewrite <- IH. split.
    - intros [r [E|H]%elem_of_cons]; [left; by exists r|right; by exists r].
    - intros [[r ->]|[r H]]; exists r; [by left|by right]. }
  destruct l; cbn [h_fin]; try (split; [intros [[? ?]|?]; [done|done]|by right]).
  unfold one. destruct (decide (p = x)) as [->|]; [split; [lia|left; by exists r]|].
  split; [intros [[? [= -> ->]]|?]; [done|lia]|right; lia].
Qed.

Lemma h_ok_elem x ls : succeeded ls x <-> 1 <= h_ok x ls.
Proof.
  unfold succeeded. induction ls as [|l ls IH]; [split; [intros [c H]; by apply elem_of_nil in H|cbn; lia]|].
  assert ((exists c, Finish x (ROk c) ∈ l :: ls) <-> (exists c, l = Finish x (ROk c)) \/ 1 <= h_ok x ls) as ->.
  { rewrite <- IH. split.
    - intros [r [E|H]%elem_of_cons]; [left; by exists r|right; by exists r].
    - intros [[r ->]|[r H]]; exists r; [by left|by right]. }
  destruct l; cbn [h_ok]; try (split; [intros [[? ?]|?]; [done|done]|by right]).
  unfold one. destruct (decide (p = x)) as [->|].
  - destruct r; cbn [res_ok]; [split; [lia|left; by eexists]|].
    split; [intros [[? ?]|?]; [done|lia]|right; lia].
  - split; [intros [[? [= -> ->]]|?]; [done|lia]|right; lia].
Qed.

Lemma h_fail_elem x ls : did_fail ls x <-> h_ok x ls < h_fin x ls.
Proof.
  unfold did_fail.
  assert (forall ls, h_ok x ls <= h_fin x ls) as Hle.
  { intros k. induction k as [|l k IH]; [done|]. destruct l; cbn [h_ok h_fin]; try done.
    pose proof (res_ok_le r). nia. }
  induction ls as [|l ls IH]; [split; [intros H; by apply elem_of_nil in H|cbn; lia]|].
  rewrite elem_of_cons, IH. specialize (Hle ls).
  destruct l; cbn [h_ok h_fin]; try (split; [intros [?|?]; [done|done]|by right]).
  unfold one. destruct (decide (p = x)) as [->|].
  - destruct r; cbn [res_ok]; [split; [intros [?|?]; [done|lia]|right; lia]|].
    split; [lia|by left].
  - split; [intros [[= -> _]|?]; [done|lia]|right; lia].
Qed.

(** ** What has been counted *)
Record counts (j : job) (s : state) (ls : list label) : Prop := {
  k_req : forall x, cnt x (s_requested s) = c_push x (s_req s) + cnt x (s_workq s) + h_start x ls;
  k_start : forall x, h_start x ls = c_busy x (s_workers s) + h_fin x ls;
  k_fin : forall x, h_fin x ls = c_post x (s_workers s) + c_updq x (s_updq s) +
            cnt x (s_installed s) + cnt x (s_failed s);
  k_ok : forall x, h_ok x ls = o_post x (s_workers s) + o_updq x (s_updq s) + cnt x (s_installed s);
  k_workers : length (s_workers s) = j_workers j;
  k_af : s_any_failed s = true <-> s_failed s <> [];
  k_seen : forall x, cnt x (s_requested s) <= 1;
  k_drop : s_any_failed s = false -> forall p, Drop p ∈ ls -> p ∈ s_requested s
}.

Ltac simp_counts :=
  rewrite ?cnt_app, ?c_busy_app, ?c_post_app, ?o_post_app, ?c_updq_app, ?o_updq_app,
    ?h_start_app, ?h_ok_app, ?h_fin_app, ?app_length in *;
  cbn [cnt c_feed c_got c_push c_usend c_rest c_busy c_post c_updq o_post o_updq h_start h_ok h_fin res_ok length] in *.

Lemma is_in_spec x l : is_in x l = true <-> x ∈ l.
Proof.
  unfold is_in. rewrite existsb_exists. split.
  - intros (y & H & E). apply String.eqb_eq in E. subst. by apply elem_of_list_In.
  - intros H. exists x. split; [by apply elem_of_list_In|]. apply String.eqb_refl.
Qed.

Lemma drop_snoc_other ls l p : Drop p ∈ (ls ++ [l])%list -> l <> Drop p -> Drop p ∈ ls.
Proof. rewrite elem_of_app, elem_of_list_singleton. intros [?|?]; [done|congruence]. Qed.

Lemma counts_initial j : counts j (initial j) [].
Proof.
  assert (forall x, c_busy x (replicate (j_workers j) WIdle) = 0 /\ c_post x (replicate (j_workers j) WIdle) = 0 /\
    o_post x (replicate (j_workers j) WIdle) = 0) as H.
  { intros x. induction (j_workers j) as [|n IH]; [done|]. cbn. apply IH. }
  split; cbn; try done.
  - intros x. destruct (H x) as (-> & _). done.
  - intros x. destruct (H x) as (_ & -> & _). done.
  - intros x. destruct (H x) as (_ & _ & ->). done.
  - by rewrite replicate_length.
  - lia.
  - intros _ p Hp. by apply elem_of_nil in Hp.
Qed.

Lemma counts_step j s ls l s' : counts j s ls -> step j s l s' -> counts j s' (ls ++ [l])%list.
Proof.
  intros [K1 K2 K3 K4 K5 K6 K7 K8] H. destruct H; cbn [s_main s_wg s_req s_requested s_workq s_workers s_updq
    s_upd s_installed s_any_failed s_failed] in *; split;
  cbn [s_main s_wg s_req s_requested s_workq s_workers s_updq s_upd s_installed s_any_failed s_failed];
  try done;
  try (intros x; specialize (K1 x); specialize (K2 x); specialize (K3 x); specialize (K4 x); specialize (K7 x);
       simp_counts; lia);
  try (intros Haf y Hy; apply drop_snoc_other in Hy; [|done]; by apply (K8 Haf));
  try (simp_counts; lia).
  - intros _ y Hy. apply elem_of_app in Hy as [Hy|Hy]; [by apply K8|].
    apply elem_of_list_singleton in Hy. assert (y = p) as -> by congruence. by apply is_in_spec.
  - intros x. specialize (K7 x). cbn [cnt]. unfold one. destruct (decide (p = x)) as [->|]; [|lia].
    assert (~ (x ∈ rs)) as Hn by (rewrite <- is_in_spec; congruence). rewrite cnt_elem in Hn. lia.
  - intros Haf y Hy. apply drop_snoc_other in Hy; [|done]. right. by apply (K8 Haf).
  - split; [|done]. intros _ E. by destruct fl.
Qed.

Lemma counts_run j ls s : execution j (initial j) ls s -> counts j s ls.
Proof.
  intros H. remember (initial j) as s0 eqn:E. induction H as [s|s ls s' l s'' H IH Hs]; subst.
  - apply counts_initial.
  - eapply counts_step; [by apply IH|done].
Qed.

(** ** Who has been asked for *)
Section job.
  Context (j : job) (Hj : job_ok j).

  Lemma needed_spec x d : d ∈ needed j x <-> depends_on j x d.
  Proof.
    unfold needed, depends_on. destruct (j_depdb j !! x) as [l|] eqn:E; cbn [default from_option id].
    - split; [intros H; by exists l|intros (l' & [= <-] & H); done].
    - split; [intros H; by apply elem_of_nil in H|intros (l' & ? & H); done].
  Qed.

  Lemma needed_starting x : x ∈ j_starting j -> needed j x = [].
  Proof. intros H. unfold needed. by rewrite (jo_starting _ Hj x H). Qed.

  Lemma dependents_spec p q : q ∈ dependents j p <-> depends_on j q p.
  Proof.
    unfold dependents, depends_on.
    destruct (invert_spec (j_depdb j) (j_keys j) (jo_keys _ Hj)) as [I1 I2].
    { intros x l H. by apply (jo_deps _ Hj x l H). }
    destruct (invert_dependencies (j_depdb j) (j_keys j) !! p) as [l|] eqn:E; cbn [default from_option id].
    - destruct (I1 p l E) as (_ & _ & _ & H). apply H.
    - split; [intros H; by apply elem_of_nil in H|]. intros (l & H1 & H2).
      exfalso. by apply (proj1 (I2 p) E q l H1).
  Qed.

  Lemma dependents_nodup p : NoDup (dependents j p).
  Proof.
    unfold dependents. destruct (invert_spec (j_depdb j) (j_keys j) (jo_keys _ Hj)) as [I1 I2].
    { intros x l H. by apply (jo_deps _ Hj x l H). }
    destruct (invert_dependencies (j_depdb j) (j_keys j) !! p) as [l|] eqn:E; cbn [default from_option id].
    - by destruct (I1 p l E) as (_ & _ & H & _).
    - constructor.
  Qed.

  Lemma all_installed_spec q ins : all_installed j q ins = true <-> forall d, depends_on j q d -> d ∈ ins.
  Proof.
    unfold all_installed. rewrite forallb_forall. split.
    - intros H d Hd. apply needed_spec, elem_of_list_In, H in Hd. by apply is_in_spec.
    - intros H d Hd. apply is_in_spec, H, needed_spec. by apply elem_of_list_In.
  Qed.

  Definition asked (s : state) (x : string) : nat :=
    c_feed x (s_main s) + c_usend x (s_upd s) + c_got x (s_req s) + cnt x (s_requested s).

  Record asks (s : state) : Prop := {
    a_feed : forall x, 1 <= c_feed x (s_main s) -> x ∈ j_starting j;
    a_dep : forall x, 1 <= c_usend x (s_upd s) + c_got x (s_req s) + cnt x (s_requested s) ->
      in_plan j x /\ forall d, depends_on j x d -> d ∈ s_installed s;
    a_once : forall x, asked s x <= 1;
    a_rest : forall x, 1 <= c_rest x (s_upd s) ->
      is_Some (j_depdb j !! x) /\ asked s x = 0 /\ c_rest x (s_upd s) <= 1
  }.

  Lemma starting_no_deps x d : x ∈ j_starting j -> ~ depends_on j x d.
  Proof. intros H (l & E & _). by rewrite (jo_starting _ Hj x H) in E. Qed.

  Lemma asks_initial : asks (initial j).
  Proof.
    split; cbn; try lia.
    - intros x. by rewrite <- cnt_elem.
    - intros x. pose proof (proj1 (cnt_nodup _) (jo_nodup _ Hj) x). unfold asked. cbn. lia.
  Qed.

  Lemma one_pos x y : 1 <= one x y -> y = x.
  Proof. unfold one. destruct (decide (y = x)); [done|lia]. Qed.

  Ltac state_cbn := cbn [s_main s_wg s_req s_requested s_workq s_workers s_updq
    s_upd s_installed s_any_failed s_failed] in *.

  Lemma asks_step s ls l s' : counts j s ls -> asks s -> step j s l s' -> asks s'.
  Proof.
    intros [K1 K2 K3 K4 K5 K6 K7 K8] [A1 A2 A3 A4] H. unfold asked in *.
    destruct H; state_cbn; split; unfold asked; state_cbn; intros x; specialize (A1 x); specialize (A2 x);
      specialize (A3 x); specialize (A4 x); simp_counts;
      try (intros Hx; apply A1; lia); try (intros Hx; apply A2; lia); try lia;
      try (intros Hx; destruct A4 as (? & ? & ?); [lia|]; split; [done|lia]).
    - (* main_send *)
      intros Hx. destruct (decide (1 <= one x p)) as [E|E]; [|apply A2; lia].
      assert (x ∈ j_starting j) as Hs by (apply A1; lia). split; [by left|].
      intros d Hd. by apply starting_no_deps in Hd.
    - (* upd_ok: dependencies *)
      intros Hx. destruct A2 as [B1 B2]; [lia|]. split; [done|]. intros d Hd. right. by apply B2.
    - (* upd_ok: rest *)
      intros Hx. apply cnt_elem, dependents_spec in Hx.
      split; [destruct Hx as (k & Hk & _); by exists k|]. split.
      + destruct (decide (1 <= c_feed x m)) as [E|E]; [exfalso; apply A1 in E; by apply (starting_no_deps x p E)|].
        destruct (decide (1 <= 0 + c_got x rq + cnt x rs)) as [E'|E']; [|lia].
        destruct A2 as [_ B]; [lia|]. apply B, cnt_elem in Hx.
        specialize (K1 p). specialize (K2 p). specialize (K3 p). specialize (K7 p). cbn [c_updq] in K3.
        rewrite one_eq in K3. lia.
      + apply cnt_nodup, dependents_nodup.
    - (* upd_suggest *)
      intros Hx. destruct (decide (1 <= one x q)) as [E|E]; [|apply A2; lia].
      destruct A4 as [[k Hk] _]; [lia|]. apply one_pos in E. subst. split; [right; by exists k|].
      by apply all_installed_spec.
  Qed.

  Lemma asks_run ls s : execution j (initial j) ls s -> asks s.
  Proof.
    intros H. remember (initial j) as s0 eqn:E. induction H as [s|s ls s' l s'' H IH Hs]; subst.
    - apply asks_initial.
    - eapply asks_step; [by apply counts_run|by apply IH|done].
  Qed.

  (** ** Nothing is forgotten *)
  Definition complete (s : state) : Prop :=
    s_any_failed s = false -> forall x, in_plan j x -> (forall d, depends_on j x d -> d ∈ s_installed s) ->
    1 <= asked s x + c_rest x (s_upd s).

  Lemma complete_initial : complete (initial j).
  Proof.
    intros _ x [Hx|[l Hx]] Hd; unfold asked; cbn.
    - apply cnt_elem in Hx. lia.
    - destruct (jo_deps _ Hj x l Hx) as (Hl & _). destruct l as [|d l]; [done|].
      exfalso. apply (not_elem_of_nil d), Hd. exists (d :: l). split; [done|by left].
  Qed.

  Lemma complete_step s l s' : complete s -> step j s l s' -> complete s'.
  Proof.
    intros C H. unfold complete, asked in *. destruct H; state_cbn; intros Haf x Hx Hd; try done;
      try (specialize (C Haf x Hx Hd); simp_counts; lia).
    - (* req_seen *)
      specialize (C Haf x Hx Hd). simp_counts. destruct (decide (1 <= one x p)) as [E|E]; [|lia].
      apply one_pos in E. subst. apply is_in_spec, cnt_elem in H. lia.
    - (* upd_ok *)
      cbn [c_usend c_rest] in *. destruct (decide (p ∈ needed j x)) as [E|E].
      + apply needed_spec, dependents_spec, cnt_elem in E. lia.
      + specialize (C Haf x Hx). feed specialize C; [|lia]. intros d Hdd.
        pose proof (Hd d Hdd) as [->|?]%elem_of_cons; [|done]. by apply needed_spec in Hdd.
    - (* upd_skip *)
      specialize (C Haf x Hx Hd). simp_counts. destruct (decide (1 <= one x q)) as [E|E]; [|lia].
      apply one_pos in E. subst. apply all_installed_spec in Hd. by rewrite Hd in H.
  Qed.

  Lemma complete_run ls s : execution j (initial j) ls s -> complete s.
  Proof.
    intros H. remember (initial j) as s0 eqn:E. induction H as [s|s ls s' l s'' H IH Hs]; subst.
    - apply complete_initial.
    - eapply complete_step; [by apply IH|done].
  Qed.
End job.

(** ** The wait group *)
Definition n_main (m : main_state) : nat := match m with MSend _ _ => 1 | _ => 0 end.
Definition n_req (r : requester_state) : nat := match r with RIdle => 0 | _ => 1 end.
Definition n_upd (u : updater_state) : nat := match u with UIdle => 0 | USend _ _ _ => 2 | _ => 1 end.
Fixpoint n_work (ws : list worker_state) : nat :=
  match ws with [] => 0 | WIdle :: l => n_work l | _ :: l => S (n_work l) end.

(** Requests and updates under way. *)
Definition flight (s : state) : nat :=
  n_main (s_main s) + n_req (s_req s) + length (s_workq s) + n_work (s_workers s) + length (s_updq s) +
  n_upd (s_upd s).

(** Binaries that cannot be copied, not handled yet. *)
Definition bad (r : result) : nat := match r with ROk false => 1 | _ => 0 end.
Fixpoint b_work (ws : list worker_state) : nat :=
  match ws with [] => 0 | WPost _ r :: l => bad r + b_work l | _ :: l => b_work l end.
Fixpoint b_updq (l : list (string * result)) : nat :=
  match l with [] => 0 | (_, r) :: l' => bad r + b_updq l' end.
Definition b_upd (u : updater_state) : nat :=
  match u with UCheck _ false | USend _ _ false => 1 | _ => 0 end.

Fixpoint h_drop (ls : list label) : nat :=
  match ls with [] => 0 | Drop _ :: l => S (h_drop l) | _ :: l => h_drop l end.
Fixpoint h_bad (ls : list label) : nat :=
  match ls with [] => 0 | Finish _ r :: l => bad r + h_bad l | _ :: l => h_bad l end.

Lemma n_work_app l k : n_work (l ++ k)%list = n_work l + n_work k.
Proof. induction l as [|[] l IH]; cbn; lia. Qed.
Lemma b_work_app l k : b_work (l ++ k)%list = b_work l + b_work k.
Proof. induction l as [|[] l IH]; cbn; lia. Qed.
Lemma b_updq_app l k : b_updq (l ++ k)%list = b_updq l + b_updq k.
Proof. induction l as [|[] l IH]; cbn; lia. Qed.
Lemma h_drop_app l k : h_drop (l ++ k)%list = h_drop l + h_drop k.
Proof. induction l as [|[] l IH]; cbn; lia. Qed.
Lemma h_bad_app l k : h_bad (l ++ k)%list = h_bad l + h_bad k.
Proof. induction l as [|[] l IH]; cbn; lia. Qed.

Lemma b_work_le ws : b_work ws <= n_work ws.
Proof. induction ws as [|[| |p [[]|]] ws IH]; cbn; lia. Qed.
Lemma b_updq_le l : b_updq l <= length l.
Proof. induction l as [|[p [[]|]] l IH]; cbn; lia. Qed.
Lemma b_upd_le u : b_upd u <= n_upd u.
Proof. destruct u as [|? []|? ? []|]; cbn; lia. Qed.

Lemma h_drop_none ls : h_drop ls = 0 <-> none_dropped ls.
Proof.
  unfold none_dropped. induction ls as [|l ls IH]; [split; [intros _ p H; by apply elem_of_nil in H|done]|].
  split.
  - intros H p [E|Hp]%elem_of_cons; [by subst|]. destruct l; cbn in H; try done; by apply (proj1 IH H p).
  - intros H. destruct l; cbn [h_drop]; try (apply IH; intros q Hq; apply (H q); by right).
    exfalso. apply (H p). by left.
Qed.

Lemma h_bad_none ls : h_bad ls = 0 <-> all_copied ls.
Proof.
  unfold all_copied. induction ls as [|l ls IH]; [split; [intros _ p H; by apply elem_of_nil in H|done]|].
  split.
  - intros H p [E|Hp]%elem_of_cons; [by subst|].
    apply (proj1 IH) with p; [|done]. destruct l; cbn in H; lia.
  - intros H. assert (h_bad ls = 0) as E by (apply IH; intros p Hp; apply (H p); by right).
    destruct l as [| |p [[]|]| |]; cbn [h_bad bad]; try lia. exfalso. apply (H p). by left.
Qed.

Record waits (s : state) (ls : list label) : Prop := {
  w_count : (s_wg s + Z.of_nat (b_work (s_workers s) + b_updq (s_updq s) + b_upd (s_upd s)) =
             Z.of_nat (flight s + h_drop ls + h_bad ls))%Z;
  w_bad : b_work (s_workers s) + b_updq (s_updq s) + b_upd (s_upd s) <= h_bad ls;
  w_woken : s_main s = MWoken -> s_wg s = 0%Z;
  w_returned : forall e, s_main s = MReturned e ->
    s_wg s = 0%Z /\ e = if s_any_failed s then Some (s_failed s) else None
}.

Lemma waits_initial j : waits (initial j) [].
Proof.
  assert (n_work (replicate (j_workers j) WIdle) = 0 /\ b_work (replicate (j_workers j) WIdle) = 0) as [H1 H2].
  { induction (j_workers j) as [|n IH]; [done|]. cbn. apply IH. }
  split; cbn; try done.
  - unfold flight. cbn. rewrite H1, H2. done.
  - rewrite H2. done.
Qed.

Ltac simp_wg :=
  rewrite ?n_work_app, ?b_work_app, ?b_updq_app, ?h_drop_app, ?h_bad_app, ?app_length in *;
  cbn [n_main n_req n_upd n_work b_work b_updq b_upd h_drop h_bad bad length] in *.

Lemma waits_zero s ls : waits s ls -> s_wg s = 0%Z -> flight s = 0 /\ h_drop ls = 0 /\ h_bad ls = 0.
Proof.
  intros [W W' _ _] E. pose proof (b_work_le (s_workers s)). pose proof (b_updq_le (s_updq s)).
  pose proof (b_upd_le (s_upd s)). unfold flight in *. rewrite E in W.
  assert (b_upd (s_upd s) <= n_upd (s_upd s)) by done. lia.
Qed.

Lemma waits_step j s ls l s' : waits s ls -> step j s l s' -> waits s' (ls ++ [l])%list.
Proof.
  intros HW H. pose proof (waits_zero _ _ HW) as Z. destruct HW as [W1 W0 W2 W3]. unfold flight in *.
  destruct H; cbn [s_main s_wg s_req s_requested s_workq s_workers s_updq
    s_upd s_installed s_any_failed s_failed] in *; split; unfold flight;
    cbn [s_main s_wg s_req s_requested s_workq s_workers s_updq s_upd s_installed s_any_failed s_failed];
    try done; try (simp_wg; lia);
    try (intros e He; destruct (W3 e He) as [W4 W5]; destruct (Z W4) as (? & ? & ?); simp_wg; lia);
    try (intros He; specialize (W2 He); destruct (Z W2) as (? & ? & ?); simp_wg; lia).
  intros e [= <-]. split; [by apply W2|done].
Qed.

Lemma waits_run j ls s : execution j (initial j) ls s -> waits s ls.
Proof.
  intros H. remember (initial j) as s0 eqn:E. induction H as [s|s ls s' l s'' H IH Hs]; subst.
  - apply waits_initial.
  - eapply waits_step; [by apply IH|done].
Qed.
