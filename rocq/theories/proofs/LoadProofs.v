(** Loading packages. *)
From stdpp Require Import strings list gmap.
From Coq Require Import ZArith Lia.
From Verif.model Require Import Load.
From Verif.spec Require Import LoadSpec.

Lemma holders_insert gs i g g' : gs !! i = Some g ->
  holders (<[i := g']> gs) + (if holds g then 1 else 0) = holders gs + (if holds g' then 1 else 0).
Proof.
  unfold holders. revert i. induction gs as [|h gs IH]; intros [|i] H; try done.
  - injection H as ->. simpl. destruct (holds g'), (holds g); simpl; lia.
  - specialize (IH i H). simpl. destruct (holds h); simpl; lia.
Qed.

Lemma holders_pos gs : 0 < holders gs -> exists i g, gs !! i = Some g /\ holds g = true.
Proof.
  unfold holders. induction gs as [|h gs IH]; cbn [List.filter]; [cbn; lia|].
  destruct (holds h) eqn:E; [intros _; by exists 0, h|]. intros H. destruct (IH H) as (i & g & ? & ?). by exists (S i), g.
Qed.

Record linv (n cap : nat) (ends : nat -> attempt) (s : load_state) : Prop := {
  li_len : length (ls_gs s) = n;
  li_in : forall i, i ∈ ls_chan s ++ ls_got s <-> ls_gs s !! i = Some GSent \/ ls_gs s !! i = Some GEnd;
  li_nodup : NoDup (ls_chan s ++ ls_got s);
  li_cap : holders (ls_gs s) <= cap;
  li_ok : forall i, i ∈ ls_chan s ++ ls_got s -> ends i <> CannotRun;
  li_main : ls_main s = true -> length (ls_got s) = n
}.

Lemma lookup_insert_cases (gs : list goroutine) i g j : i < length gs ->
  (<[i := g]> gs) !! j = if decide (j = i) then Some g else gs !! j.
Proof.
  intros H. destruct (decide (j = i)) as [->|Hn]; [by apply list_lookup_insert|]. by apply list_lookup_insert_ne.
Qed.

Lemma linv_step n cap ends s s' : linv n cap ends s -> lstep n cap ends (Going s) (Going s') -> linv n cap ends s'.
Proof.
  intros [I1 I2 I3 I4 I5 I6] H. inversion H as [s0 i Hm Hi Hc E1 E2|s0 i Hm Hi Hk Hc E1 E2|s0 i Hm Hi Hk E1 E2|s0 i Hm Hi E1 E2|s0 i r Hm Hl Hc E1 E2|s0 Hm Hl E1 E2]; subst.
  - pose proof (lookup_lt_Some _ _ _ Hi) as Hlt. split; cbn [ls_gs ls_chan ls_got ls_main]; [by rewrite insert_length| |done| |done|done].
    + intros j. rewrite I2, lookup_insert_cases by done. destruct (decide (j = i)) as [->|]; [|done]. rewrite Hi. naive_solver.
    + pose proof (holders_insert _ _ _ GRun Hi) as K. cbn [holds] in K. lia.
  - pose proof (lookup_lt_Some _ _ _ Hi) as Hlt.
    assert (i ∉ ls_chan s ++ ls_got s) as Hni by (rewrite I2, Hi; naive_solver).
    split; cbn [ls_gs ls_chan ls_got ls_main]; [by rewrite insert_length| | | | |done].
    + intros j. rewrite lookup_insert_cases by done. specialize (I2 j).
      rewrite elem_of_app in I2. rewrite !elem_of_app, elem_of_list_singleton.
      destruct (decide (j = i)) as [->|]; naive_solver.
    + rewrite <- app_assoc. rewrite NoDup_app in I3 |- *. destruct I3 as (N1 & N2 & N3).
      rewrite elem_of_app in Hni. split; [done|]. split.
      * intros j Hj. rewrite elem_of_app, elem_of_list_singleton. specialize (N2 j Hj). naive_solver.
      * apply NoDup_cons. split; [naive_solver|done].
    + pose proof (holders_insert _ _ _ GSent Hi) as K. cbn [holds] in K. lia.
    + intros j. specialize (I5 j). rewrite elem_of_app in I5. rewrite !elem_of_app, elem_of_list_singleton. naive_solver.
  - pose proof (lookup_lt_Some _ _ _ Hi) as Hlt. split; cbn [ls_gs ls_chan ls_got ls_main]; [by rewrite insert_length| |done| |done|done].
    + intros j. rewrite I2, lookup_insert_cases by done. destruct (decide (j = i)) as [->|]; [|done]. rewrite Hi. naive_solver.
    + pose proof (holders_insert _ _ _ GEnd Hi) as K. cbn [holds] in K. lia.
  - assert (ls_chan s ++ ls_got s ≡ₚ r ++ ls_got s ++ [i]) as Hp.
    { rewrite Hc. rewrite app_assoc. by rewrite <- (Permutation_cons_append (r ++ ls_got s) i). }
    split; cbn [ls_gs ls_chan ls_got ls_main]; [done| | |done| |done].
    + intros j. by rewrite <- Hp.
    + by rewrite <- Hp.
    + intros j. rewrite <- Hp. apply I5.
  - by split.
Qed.

Lemma linv_exec n cap ends o : lexec n cap ends o -> match o with Going s => linv n cap ends s | Fatal => True end.
Proof.
  induction 1 as [|o o' H IH Hs].
  - split; cbn [ls_gs ls_chan ls_got ls_main].
    + by rewrite replicate_length.
    + intros i. split; [intros H; by apply elem_of_nil in H|].
      intros [H|H]; apply lookup_replicate in H as [? _]; done.
    + constructor.
    + unfold holders. replace (List.filter holds (replicate n GWait)) with (@nil goroutine); [cbn; lia|].
      induction n; [done|]. by cbn.
    + intros i H. by apply elem_of_nil in H.
    + done.
  - destruct o' as [s'|]; [|done]. destruct o as [s|]; [by eapply linv_step|]. inversion Hs.
Qed.

(** ** Progress and termination *)

Lemma some_unsent n cap ends s : linv n cap ends s -> ls_chan s = [] -> length (ls_got s) < n ->
  exists i, ls_gs s !! i = Some GWait \/ ls_gs s !! i = Some GRun.
Proof.
  intros I Hc Hl. destruct (decide (Exists (fun g => g = GWait \/ g = GRun) (ls_gs s))) as [He|He].
  - apply Exists_exists in He as (g & Hg & Hx). apply elem_of_list_lookup in Hg as [i Hi].
    exists i. destruct Hx as [-> | ->]; naive_solver.
  - exfalso. rewrite <- Forall_Exists_neg in He.
    assert (forall i, i < n -> i ∈ ls_got s) as K.
    { intros i Hi. pose proof (li_in _ _ _ _ I i) as Hin. rewrite Hc in Hin. apply Hin.
      rewrite <- (li_len _ _ _ _ I) in Hi. apply lookup_lt_is_Some_2 in Hi as [g Hg].
      rewrite Forall_forall in He. specialize (He g (elem_of_list_lookup_2 _ _ _ Hg)). destruct g; naive_solver. }
    assert (n <= length (ls_got s)); [|lia]. rewrite <- (seq_length n 0).
    apply submseteq_length. apply NoDup_submseteq; [apply NoDup_seq|]. intros i Hi. apply K. apply elem_of_seq in Hi. lia.
Qed.

Lemma progress n cap ends s : 0 < cap -> lexec n cap ends (Going s) -> ls_main s = false ->
  exists o', lstep n cap ends (Going s) o'.
Proof.
  intros Hcap He Hm. pose proof (linv_exec _ _ _ _ He) as I. cbn in I.
  destruct (decide (length (ls_got s) = n)) as [Hl|Hl]; [eexists; by apply l_return|].
  assert (length (ls_chan s) + length (ls_got s) <= n) as Hle.
  { rewrite <- app_length, <- (seq_length n 0). apply submseteq_length. apply NoDup_submseteq; [apply I|].
    intros i Hi. apply (li_in _ _ _ _ I) in Hi. apply elem_of_seq.
    destruct Hi as [Hi|Hi]; apply lookup_lt_Some in Hi; rewrite (li_len _ _ _ _ I) in Hi; lia. }
  destruct (ls_chan s) as [|j r] eqn:Hc; [|eexists; eapply l_receive; [done| |done]; cbn in Hle; lia].
  cbn in Hle. destruct (some_unsent _ _ _ _ I Hc) as (i & Hi); [lia|].
  destruct (decide (Exists (fun g => holds g = true) (ls_gs s))) as [Hx|Hx].
  - apply Exists_exists in Hx as (g & Hg & Hh). apply elem_of_list_lookup in Hg as [k Hk]. destruct g; try done.
    + destruct (decide (ends k = CannotRun)) as [E|E]; [eexists; by eapply l_fatal|].
      eexists. eapply l_send; [done|done|done|]. rewrite Hc. cbn. lia.
    + eexists. by eapply l_release.
  - destruct Hi as [Hi|Hi].
    + eexists. eapply l_acquire; [done|done|]. destruct (holders (ls_gs s)) eqn:E; [done|].
      destruct (holders_pos (ls_gs s)) as (k & g & Hk & Hg); [lia|]. exfalso. apply Hx. apply Exists_exists.
      exists g. split; [by eapply elem_of_list_lookup_2|done].
    + exfalso. apply Hx. apply Exists_exists. exists GRun. split; [by eapply elem_of_list_lookup_2|done].
Qed.

Definition weight (g : goroutine) : nat := match g with GWait => 4 | GRun => 3 | GSent => 1 | GEnd => 0 end.

Definition measure (o : outcome) : nat :=
  match o with
  | Fatal => 0
  | Going s => S (sum_list_with weight (ls_gs s) + length (ls_chan s) + if ls_main s then 0 else 1)
  end.

Lemma weight_insert gs i g g' : gs !! i = Some g ->
  sum_list_with weight (<[i := g']> gs) + weight g = sum_list_with weight gs + weight g'.
Proof.
  revert i. induction gs as [|h gs IH]; intros [|i] H; try done.
  - injection H as ->. simpl. lia.
  - specialize (IH i H). simpl. lia.
Qed.

Lemma decreases n cap ends o o' : lstep n cap ends o o' -> measure o' < measure o.
Proof.
  destruct 1 as [s i Hm Hi Hc|s i Hm Hi Hk Hc|s i Hm Hi Hk|s i Hm Hi|s i r Hm Hl Hc|s Hm Hl]; cbn [measure ls_gs ls_chan ls_main]; rewrite Hm.
  - pose proof (weight_insert _ _ _ GRun Hi). cbn [weight] in *. lia.
  - pose proof (weight_insert _ _ _ GSent Hi). cbn [weight] in *. rewrite app_length. cbn. lia.
  - lia.
  - pose proof (weight_insert _ _ _ GEnd Hi). cbn [weight] in *. lia.
  - rewrite Hc. cbn. lia.
  - lia.
Qed.

Lemma terminates n cap ends : well_founded (fun o' o => lstep n cap ends o o').
Proof.
  intros o. remember (measure o) as k eqn:E. revert o E. induction k as [k IH] using lt_wf_ind. intros o ->.
  constructor. intros o' H. eapply IH; [by eapply decreases|done].
Qed.

Lemma running_le n cap ends o : lexec n cap ends o -> running o <= cap.
Proof.
  intros H. pose proof (linv_exec _ _ _ _ H) as I. destruct o as [s|]; [|cbn; lia].
  etransitivity; [|apply I]. unfold running, holders. induction (ls_gs s) as [|g gs IH]; [done|].
  cbn [List.filter]. destruct g; cbn [holds length]; lia.
Qed.

(** ** The report *)

Lemma got_all n cap ends s : lexec n cap ends (Going s) -> ls_main s = true -> ls_got s ≡ₚ seq 0 n.
Proof.
  intros He Hm. pose proof (linv_exec _ _ _ _ He) as I. cbn in I. apply submseteq_Permutation_length_eq.
  { rewrite seq_length. by rewrite (li_main _ _ _ _ I Hm). }
  apply NoDup_submseteq.
  - pose proof (li_nodup _ _ _ _ I) as N. apply NoDup_app in N. by apply N.
  - intros i Hi. apply elem_of_seq. assert (i ∈ ls_chan s ++ ls_got s) as K by (apply elem_of_app; by right).
      apply (li_in _ _ _ _ I) in K. destruct K as [K|K]; apply lookup_lt_Some in K; rewrite (li_len _ _ _ _ I) in K; lia.
Qed.

Section report.
  Context (pkgs : list string) (ends : nat -> attempt).

  Let add (rep : load_report) (i : nat) : load_report :=
    match pkgs !! i with
    | Some p => match attempt_load p (ends i) with Some r => add_result rep r | None => rep end
    | None => rep
    end.

  Lemma failures_fold l : forall rep, (forall i, i ∈ l -> i < length pkgs) ->
    rep_failures (fold_left add l rep) =
    rep_failures rep + length (List.filter (fun i => match ends i with ExitNonZero => true | _ => false end) l).
  Proof.
    induction l as [|i l IH]; intros rep H; cbn [fold_left List.filter]; [cbn; lia|].
    rewrite IH by (intros j Hj; apply H; by right). unfold add.
    destruct (lookup_lt_is_Some_2 pkgs i) as [p Hp]; [apply H; by left|]. rewrite Hp.
    destruct (ends i); cbn [attempt_load add_result rep_failures lr_success length]; lia.
  Qed.

  Lemma results_fold l : forall rep p r, rep_results (fold_left add l rep) !! p = Some r ->
    rep_results rep !! p = Some r \/ exists i, i ∈ l /\ pkgs !! i = Some p /\ attempt_load p (ends i) = Some r.
  Proof.
    induction l as [|i l IH]; intros rep p r H; cbn [fold_left] in H; [by left|].
    destruct (IH _ _ _ H) as [K|(j & Hj & K)]; [|right; exists j; split; [by right|done]].
    unfold add in K. destruct (pkgs !! i) as [q|] eqn:Hq; [|by left].
    destruct (attempt_load q (ends i)) as [r'|] eqn:Ea; [|by left]. cbn [add_result rep_results] in K.
    assert (lr_pkg r' = q) as Eq by (destruct (ends i); by inversion Ea).
    destruct (decide (q = p)) as [->|Hn].
    - rewrite Eq, lookup_insert in K. injection K as ->. right. exists i. split; [by left|done].
    - rewrite Eq, lookup_insert_ne in K by done. by left.
  Qed.

  Lemma results_dom l i p : forall rep, i ∈ l -> pkgs !! i = Some p -> ends i <> CannotRun ->
    is_Some (rep_results (fold_left add l rep) !! p).
  Proof.
    assert (forall l rep, is_Some (rep_results rep !! p) -> is_Some (rep_results (fold_left add l rep) !! p)) as K.
    { intros k. induction k as [|j k IH]; intros rep H; [done|]. cbn [fold_left]. apply IH.
      unfold add. destruct (pkgs !! j); [|done]. destruct (attempt_load _ _) as [r|]; [|done].
      cbn [add_result rep_results]. destruct (decide (lr_pkg r = p)) as [<-|Hn]; [rewrite lookup_insert; by eexists|].
      by rewrite lookup_insert_ne. }
    induction l as [|j l IH]; intros rep Hi Hp He; [by apply elem_of_nil in Hi|]. cbn [fold_left].
    apply elem_of_cons in Hi as [<-|Hi]; [|by apply IH]. apply K. unfold add. rewrite Hp.
    destruct (ends i); [| |done]; cbn; rewrite lookup_insert; by eexists.
  Qed.
End report.

Lemma report_complete pkgs cap ends s : lexec (length pkgs) cap ends (Going s) -> ls_main s = true ->
  let rep := report_of pkgs ends (ls_got s) in
  (forall p, p ∈ pkgs <-> is_Some (rep_results rep !! p))
  /\ (forall p r, rep_results rep !! p = Some r -> exists i, pkgs !! i = Some p /\ attempt_load p (ends i) = Some r)
  /\ rep_failures rep = failed_attempts (length pkgs) ends.
Proof.
  intros He Hm rep. pose proof (got_all _ _ _ _ He Hm) as Hp. pose proof (linv_exec _ _ _ _ He) as I. cbn in I.
  assert (forall p r, rep_results rep !! p = Some r -> exists i, pkgs !! i = Some p /\ attempt_load p (ends i) = Some r) as K.
  { intros p r Hr. apply results_fold in Hr as [Hr|(i & _ & Hi)]; [|by exists i]. cbn in Hr. by rewrite lookup_empty in Hr. }
  split; [|split; [done|]].
  - intros p. split.
    + intros Hx. apply elem_of_list_lookup in Hx as [i Hi]. assert (i ∈ ls_got s) as Hg.
      { rewrite Hp. apply elem_of_seq. apply lookup_lt_Some in Hi. lia. }
      eapply results_dom; [done|done|]. apply (li_ok _ _ _ _ I). apply elem_of_app. by right.
    + intros [r Hr]. destruct (K p r Hr) as (i & Hi & _). by eapply elem_of_list_lookup_2.
  - unfold rep, report_of. rewrite failures_fold.
    + cbn [init_report rep_failures]. unfold failed_attempts.
      assert (forall f (l k : list nat), l ≡ₚ k -> length (List.filter f l) = length (List.filter f k)) as F.
      { intros f l k H. induction H; cbn [List.filter]; [done| | |congruence].
        - destruct (f x); cbn [length]; congruence.
        - destruct (f x), (f y); done. }
      by rewrite (F _ _ _ Hp).
    + intros i Hi. rewrite Hp in Hi. apply elem_of_seq in Hi. lia.
Qed.

(** Without duplicates the number of failures is the number of failed packages. *)
Lemma failures_distinct pkgs cap ends s : NoDup pkgs -> lexec (length pkgs) cap ends (Going s) -> ls_main s = true ->
  let rep := report_of pkgs ends (ls_got s) in rep_failures rep = length (failed_entries pkgs rep).
Proof.
  intros Hn He Hm rep. pose proof (report_complete _ _ _ _ He Hm) as K0. cbv zeta in K0.
  fold rep in K0. destruct K0 as (K1 & K2 & ->).
  assert (forall i p, pkgs !! i = Some p -> rep_results rep !! p = attempt_load p (ends i)) as K.
  { intros i p Hi. destruct (proj1 (K1 p)) as [r Hr]; [by eapply elem_of_list_lookup_2|].
    destruct (K2 p r Hr) as (j & Hj & Ha). rewrite (NoDup_lookup _ _ _ _ Hn Hi Hj). by rewrite Ha. }
  unfold failed_attempts, failed_entries. clearbody rep. clear K1 K2 He Hm Hn s.
  assert (forall l k, (forall i p, l !! i = Some p -> rep_results rep !! p = attempt_load p (ends (k + i))) ->
    length (List.filter (fun i => match ends i with ExitNonZero => true | _ => false end) (seq k (length l))) =
    length (List.filter (fun p => match rep_results rep !! p with Some r => negb (lr_success r) | None => false end) l)) as F.
  { intros l. induction l as [|p l IH]; intros k H; [done|]. cbn [length seq List.filter].
    specialize (IH (S k)). rewrite (H 0 p eq_refl), Nat.add_0_r.
    assert (length (List.filter (fun i => match ends i with ExitNonZero => true | _ => false end) (seq (S k) (length l))) =
      length (List.filter (fun p => match rep_results rep !! p with Some r => negb (lr_success r) | None => false end) l)) as E.
    { apply IH. intros i q Hq. rewrite (H (S i) q Hq). do 2 f_equal. lia. }
    destruct (ends k); cbn [attempt_load lr_success negb length]; lia. }
  apply F. intros i p Hi. by apply K.
Qed.
