(** Installing a plan concurrently comes to an end. *)
From stdpp Require Import strings list gmap.
From Coq Require Import Ascii ZArith Lia Wf_nat.
From Verif.model Require Import GoStr Nexus RepoDb Graph Fs Stamp Yml Sched Install Download Tarballs Together.
From Verif.spec Require Import StrSpec SchedSpec LibSpec InstallSpec TarballSpec TogetherSpec.
From Verif.proofs Require Import SchedProofs SchedProps TogetherProofs.

Local Open Scope string_scope.

Section end_.

Context (e : setting) (Rs : rsystem) (j : job).
Hypothesis Hj : job_ok j.

(** ** Busy workers *)

Definition called_ok (p : string) (w : wstate (rs_state Rs)) : Prop :=
  match w with WFile k | WRun k _ | WStamp k => is_Some (call_for e p k) | _ => True end.

Lemma called_after p k code err : called_ok p (after_install e p k code err).
Proof. by destruct k. Qed.

Lemma called_step p w f w' f' : wstep e Rs p w f w' f' -> called_ok p w -> called_ok p w'.
Proof.
  intros Hs. destruct Hs as [| |f bp Eb|f bp Eb|f f' Hm|f k c Hc|f k c Hc|f k c x x' f' Hc|f k c x Hc|f k c x code Hc|f k c Hc|
    f code err inst|f b Eb|f b Eb]; cbn [called_ok]; try done; intros _.
  - cbn [call_for]. rewrite Eb. by eexists.
  - apply called_after.
  - apply called_after.
  - apply called_after.
  - by destruct (negb err && (code =? 0)%Z).
  - cbn [call_for]. rewrite Eb. by eexists.
Qed.

Record busy (ls : list label) (st : tstate (rs_state Rs)) : Prop := {
  b_exec : execution j (initial j) ls (t_sched st);
  b_work : forall p, started ls p -> (forall r, Finish p r ∉ ls) -> is_Some (t_work st !! p);
  b_called : forall p w, t_work st !! p = Some w -> called_ok p w
}.

Lemma together_busy f0 ls st : together e Rs j (tinitial _ j f0) ls st -> busy ls st.
Proof.
  intros H. induction H as [|ls st l st' H IH Hs].
  { split; cbn; [constructor| |done]. intros p Hp. by apply elem_of_nil in Hp. }
  destruct IH as [B1 B2 B3].
  assert (forall p w w' f f' s C b b', st = TState s (t_work st) C f b -> st' = TState s (<[p := w']> (t_work st)) C f' b' ->
    t_work st !! p = Some w -> wstep e Rs p w f w' f' -> busy ls st') as Hwork.
  { intros p w w' f f' s C b b' E E' Hw Hst. assert (t_sched st = s) as Es by by rewrite E. clear E. subst st' s. split; cbn; [done| |].
    - intros p' H1 H2. destruct (decide (p' = p)) as [->|Hne]; [rewrite lookup_insert; by eexists|].
      rewrite lookup_insert_ne by done. by apply B2.
    - intros p' v Hv. destruct (decide (p' = p)) as [->|Hne].
      + rewrite lookup_insert in Hv. injection Hv as <-. eapply called_step; [exact Hst|by apply B3].
      + rewrite lookup_insert_ne in Hv by done. by apply B3. }
  destruct Hs as [s l s' W C f Hst Hpl|s p s' W C f Hst|s p r s' W C f code err b Hwp Hr Hst|s p w w' W C f f' Hwp Hst|
                  s p w W C f Hwp Hst|s p k c x x' W C f f' Hwp Hc Hst|s p ball ok W C1 C2 f f' Hst];
    cbn [t_sched t_work t_copies t_fs] in *.
  - split; cbn; [by econstructor| |done]. intros p H1 H2. apply B2.
    + unfold started in H1. apply elem_snoc in H1 as [H1|H1]; [done|]. by rewrite <- H1 in Hpl.
    + intros r Hr. apply (H2 r). by apply elem_snoc; left.
  - split; cbn; [by econstructor| |].
    + intros p' H1 H2. destruct (decide (p' = p)) as [->|Hne]; [rewrite lookup_insert; by eexists|].
      rewrite lookup_insert_ne by done. apply B2.
      * unfold started in H1. apply elem_snoc in H1 as [H1|H1]; [done|]. congruence.
      * intros r Hr. apply (H2 r). by apply elem_snoc; left.
    + intros p' v Hv. destruct (decide (p' = p)) as [->|Hne].
      * rewrite lookup_insert in Hv. by injection Hv as <-.
      * rewrite lookup_insert_ne in Hv by done. by apply B3.
  - split; cbn; [by econstructor| |].
    + intros p' H1 H2. destruct (decide (p' = p)) as [->|Hne]; [exfalso; apply (H2 r); by apply elem_snoc; right|].
      rewrite lookup_delete_ne by done. apply B2.
      * unfold started in H1. apply elem_snoc in H1 as [H1|H1]; [done|]. congruence.
      * intros r' Hr'. apply (H2 r'). by apply elem_snoc; left.
    + intros p' v Hv. apply lookup_delete_Some in Hv as [_ Hv]. by apply B3.
  - rewrite app_nil_r. by eapply Hwork.
  - rewrite app_nil_r. by split.
  - rewrite app_nil_r. eapply Hwork; [done..|]. by eapply orphan_step.
  - rewrite app_nil_r. by split.
Qed.

(** ** Going on *)

Lemma worker_progress p w f : rs_live Rs -> called_ok p w ->
  (exists code err b, w = WEnd code err b) \/ wstop e p w f \/ exists w' f', wstep e Rs p w f w' f'.
Proof.
  intros HL. destruct w as [| | |k|k x|k|code err| |code err b]; cbn [called_ok]; intros Hf.
  - right. right. destruct (fs_dir_exists f (join_path (e_library e) p)) eqn:E.
    + eexists _, _. by apply w_present.
    + eexists _, _. by apply w_absent.
  - right. destruct (cache_path (surroundings_for e p) (request_for e p)) as [bp|] eqn:Eb; [|left; by constructor]. right.
    destruct (fs_exists f bp) eqn:E; eexists _, _; [by eapply w_cached|by eapply w_not_cached].
  - right. destruct (mkdir_all (e_tmp e p) f) as [f'|] eqn:E; [|left; by constructor]. right. eexists _, _. by eapply w_tmp.
  - right. right. destruct Hf as [c Hc]. destruct (fs_exists f (rc_source c)) eqn:E; eexists _, _; [by eapply w_call|by eapply w_no_file].
  - right. right. destruct Hf as [c Hc]. destruct (HL c x f) as [(x' & f' & H)|[code H]].
    + eexists _, _. by eapply w_r.
    + destruct (decide (code = 0%Z)) as [->|Hne]; eexists _, _; [by eapply w_r_ok|by eapply w_r_fail].
  - right. right. destruct Hf as [c Hc]. eexists _, _. by eapply w_stamp.
  - right. right. eexists _, _. by eapply (w_clean e Rs p).
  - right. destruct (ball_for e p) as [b|] eqn:Eb; [|left; by constructor]. right.
    destruct (fs_exists f b) eqn:E; eexists _, _; [by eapply w_ball|by eapply w_no_ball].
  - left. by eexists _, _, _.
Qed.

Lemma busy_started ls s p : execution j (initial j) ls s -> 1 <= c_busy p (s_workers s) ->
  started ls p /\ forall r, Finish p r ∉ ls.
Proof.
  intros H Hb. pose proof (counts_run _ _ _ H) as [K1 K2 _ _ _ _ K7 _]. specialize (K1 p). specialize (K2 p). specialize (K7 p).
  split; [apply h_start_elem; lia|]. intros r Hr. assert (1 <= h_fin p ls) by (apply h_fin_elem; by exists r). lia.
Qed.

Lemma blocked_scheduler f0 ls st : rs_live Rs -> together e Rs j (tinitial _ j f0) ls st -> t_stopped st = false ->
  all_stuck e Rs j st -> stuck j (t_sched st).
Proof.
  intros HL H Hst Hs l s' Hstep. pose proof (together_busy _ _ _ H) as [B1 B2 B3].
  destruct st as [s W C f b]. cbn [t_sched t_work t_stopped] in *. subst b.
  destruct l as [|p|p r|p|r].
  - eapply Hs. by eapply ts_sched.
  - eapply Hs. by eapply ts_start.
  - assert (1 <= c_busy p (s_workers s)) as Hb.
    { inversion Hstep; subst. cbn [s_workers]. rewrite c_busy_app. cbn [c_busy]. rewrite one_eq. lia. }
    destruct (busy_started _ _ _ B1 Hb) as [S1 S2]. destruct (B2 p S1 S2) as [w Hw].
    destruct (worker_progress p w f HL (B3 p w Hw)) as [(code & err & b & ->)|[K|(w' & f' & K)]].
    + assert (exists r', result_of err b r') as [r' Hr'].
      { destruct err; [exists RFail; constructor|]. destruct b as [b|]; [exists (ROk true); constructor|exists (ROk true); constructor]. }
      assert (exists s'', step j s (Finish p r') s'') as [s'' K]; [|eapply Hs; by eapply ts_finish].
      inversion Hstep; subst. eexists. by apply work_finish.
    + eapply Hs. by eapply ts_stop.
    + eapply Hs. by eapply ts_work.
  - eapply Hs. by eapply ts_sched.
  - eapply Hs. by eapply ts_sched.
Qed.

(** ** Coming to an end *)

Context (m : rs_state Rs -> nat).
Hypothesis Hm : rs_bounded Rs m.

Definition start_rank (p : string) (k : stage) : nat :=
  match call_for e p k with Some c => m (rs_init Rs c) | None => 0 end.

Definition after_rank (p : string) (k : stage) : nat :=
  match k with Build => 3 + (3 + start_rank p Final) | _ => 1 end.

Definition wrank (p : string) (w : wstate (rs_state Rs)) : nat :=
  match w with
  | WEnd _ _ _ => 0
  | WStamp k => after_rank p k
  | WRun k x => after_rank p k + 1 + m x
  | WFile k => after_rank p k + 2 + start_rank p k
  | WBall => 1 + (3 + start_rank p Final)
  | WClean _ _ => 2 + (3 + start_rank p Final)
  | WTmp => after_rank p Build + 3 + start_rank p Build
  | WCache => after_rank p Build + 4 + start_rank p Build + after_rank p Cached + 2 + start_rank p Cached
  | WLook => after_rank p Build + 5 + start_rank p Build + after_rank p Cached + 2 + start_rank p Cached
  end.

Lemma after_less p k code err : wrank p (after_install e p k code err) < after_rank p k.
Proof. destruct k; cbn; lia. Qed.

Lemma wstep_less p w f w' f' : wstep e Rs p w f w' f' -> wrank p w' < wrank p w.
Proof.
  intros Hs. destruct Hs as [| |f bp Eb|f bp Eb|f f' Hmk|f k c Hc|f k c Hc|f k c x x' f' Hc Hr|f k c x Hc|f k c x code Hc|f k c Hc|
    f code err inst|f b Eb|f b Eb]; cbn [wrank]; try lia.
  - pose proof (after_less p k 1 false). lia.
  - unfold start_rank at 1. rewrite Hc. lia.
  - apply Hm in Hr. lia.
  - pose proof (after_less p k code true). lia.
  - pose proof (after_less p k 0 false). lia.
  - destruct (negb err && (code =? 0)%Z); cbn [wrank]; lia.
  - cbn [after_rank]. lia.
Qed.

Definition ranks (W : gmap string (wstate (rs_state Rs))) : nat := map_fold (fun p w n => wrank p w + n) 0 W.

Lemma ranks_insert W p w : W !! p = None -> ranks (<[p := w]> W) = wrank p w + ranks W.
Proof. intros H. unfold ranks. rewrite map_fold_insert_L; [done| |done]. intros. lia. Qed.

Lemma ranks_update W p w w' : W !! p = Some w -> wrank p w' < wrank p w -> ranks (<[p := w']> W) < ranks W.
Proof.
  intros H Hr. rewrite <- (insert_delete W p w H) at 2. rewrite <- (insert_delete_insert W).
  rewrite !ranks_insert by apply lookup_delete. lia.
Qed.

Definition left_over (st : tstate (rs_state Rs)) : nat :=
  ranks (t_work st) + length (t_copies st) + (if t_stopped st then 0 else 1).

Lemma tstep_decreases st l st' : tstep e Rs j st l st' ->
  (exists l0, step j (t_sched st) l0 (t_sched st')) \/ (t_sched st' = t_sched st /\ left_over st' < left_over st).
Proof.
  intros Hs. destruct Hs as [s l s' W C f Hst Hpl|s p s' W C f Hst|s p r s' W C f code err b Hwp Hr Hst|s p w w' W C f f' Hwp Hst|
                  s p w W C f Hwp Hst|s p k c x x' W C f f' Hwp Hc Hst|s p ball ok W C1 C2 f f' Hst];
    unfold left_over; cbn [t_sched t_work t_copies t_stopped]; try (left; by eexists); right; (split; [done|]).
  - pose proof (ranks_update W p w w' Hwp (wstep_less _ _ _ _ _ Hst)). lia.
  - lia.
  - pose proof (ranks_update W p _ (WRun k x') Hwp (wstep_less _ _ _ _ _ (orphan_step e Rs p k c x f x' f' Hc Hst))). lia.
  - rewrite !app_length. cbn [length]. lia.
Qed.

Lemma together_ends f0 ls st : together e Rs j (tinitial _ j f0) ls st ->
  Acc (fun s2 s1 => exists l, tstep e Rs j s1 l s2) st.
Proof.
  intros H. pose proof (b_exec _ _ (together_busy _ _ _ H)) as Hx. pose proof (no_infinite j Hj _ _ Hx) as HA.
  remember (t_sched st) as s eqn:Es. revert ls st Es H Hx. induction HA as [s _ IHs]. intros ls st Es H Hx.
  remember (left_over st) as n eqn:En. revert ls st Es En H Hx. induction (lt_wf n) as [n _ IHn]. intros ls st Es En H Hx.
  constructor. intros st' [l Hs].
  assert (together e Rs j (tinitial _ j f0) (ls ++ l)%list st') as H2 by by econstructor.
  pose proof (b_exec _ _ (together_busy _ _ _ H2)) as Hx2.
  destruct (tstep_decreases _ _ _ Hs) as [[l0 D]|[D1 D2]].
  - eapply (IHs (t_sched st')); [exists l0; by rewrite Es|reflexivity|exact H2|exact Hx2].
  - eapply (IHn (left_over st')); [by rewrite En|by rewrite D1|reflexivity|exact H2|by rewrite D1, <- Es in Hx2].
Qed.

End end_.
