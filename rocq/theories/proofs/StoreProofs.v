(** The binaries that InstallPackagePlan puts into the cache. *)
From stdpp Require Import strings list gmap.
From Coq Require Import Ascii ZArith Lia.
From Verif.model Require Import GoStr Nexus RepoDb Graph Fs Stamp Yml Sched Install Download Tarballs Together Urls Fetching.
From Verif.spec Require Import StrSpec SchedSpec LibSpec InstallSpec TarballSpec TogetherSpec ApartSpec FetchingSpec EndSpec StoreSpec.
From Verif.proofs Require Import GoStrLemmas FsProofs ExtractProofs InstallProofs CacheProofs CleanProofs TarballProofs
  SchedProofs SchedProps TogetherProofs ApartProofs FetchingProofs EndProofs.

Local Open Scope string_scope.
Local Arguments Ascii.eqb : simpl never.
Local Arguments char_eqb : simpl never.

Lemma finish_same ls p r1 r2 : h_fin p ls <= 1 -> Finish p r1 ∈ ls -> Finish p r2 ∈ ls -> r1 = r2.
Proof.
  induction ls as [|l ls IH]; intros H H1 H2; [by apply elem_of_nil in H1|].
  assert (forall r, l = Finish p r -> forall r', Finish p r' ∈ ls -> False) as K.
  { intros r -> r' H'. assert (1 <= h_fin p ls) as Hf by (apply h_fin_elem; by exists r').
    cbn [h_fin] in H. unfold one in H. destruct (decide (p = p)); [lia|done]. }
  assert (h_fin p ls <= 1) as Hle by (destruct l; cbn [h_fin] in H; lia).
  apply elem_of_cons in H1 as [E1|H1]; apply elem_of_cons in H2 as [E2|H2].
  - congruence.
  - by destruct (K r1 (eq_sym E1) r2 H2).
  - by destruct (K r2 (eq_sym E2) r1 H1).
  - by apply IH.
Qed.

Section store.

Context (e : setting) (Rs : rsystem) (j : job) (name : list string -> string) (ds : list (list string)).
Hypothesis Hj : job_ok j.
Hypothesis Ho : setting_ok e j name ds.
Hypothesis HR : rs_only Rs name.
Hypothesis Hb : binaries_ok e j.

Local Notation lib := (e_library e).
Local Notation tmp := (e_tmp e).
Local Notation lock p := ("00LOCK-" +:+ p).
Local Notation touch := (touch e).
Local Notation inv := (inv e Rs j).

Lemma finish_unique ls s p r1 r2 : execution j (initial j) ls s -> Finish p r1 ∈ ls -> Finish p r2 ∈ ls -> r1 = r2.
Proof.
  intros H. apply finish_same. pose proof (counts_run _ _ _ H) as K.
  pose proof (k_start _ _ _ K p). pose proof (k_req _ _ _ K p). pose proof (k_seen _ _ _ K p). lia.
Qed.

Lemma store_in p b : in_plan j p -> ball_for e p = Some b -> in_dir (binary_dir e p) (store_for e p b).
Proof.
  intros Hp E. destruct (store_eq e j name ds Ho p b Hp E) as (d & n & ->). eexists. by rewrite <- app_assoc.
Qed.

Lemma ball_in p b : in_plan j p -> ball_for e p = Some b -> in_dir (tmp p) b.
Proof. intros Hp E. destruct (ball_name e j name ds Ho p b Hp E) as (n & _ & ->). by eexists. Qed.

(** What is in the temporary directory of a package is not touched for others. *)
Lemma other_tmp p p' q n n' : in_plan j p -> in_plan j p' -> p <> p' -> in_dir (tmp p) q -> ~ touch p' q n n'.
Proof.
  intros Hp Hp' Hne Hq H. destruct (so_tmps _ _ _ _ Ho p p' Hp Hp' Hne) as [A1 A2].
  destruct (bo_tmp _ _ Hb p' p Hp' Hp) as [B1 B2]. pose proof (so_tmp _ _ _ _ Ho p Hp) as Ht.
  assert (forall x, ~ in_dir (lib ++ [x])%list q) as K.
  { intros x Hx. apply in_dir_left in Hx. by apply (some_not_lib e j name ds Ho _ q) in Ht as [? _]. }
  destruct H as [H|[H|[H|[(H & _)|[H _]]]]].
  - by apply K in H.
  - by apply K in H.
  - destruct (in_dir_meet _ _ _ Hq H); done.
  - apply A1. by eapply in_dir_trans.
  - destruct (in_dir_meet _ _ _ Hq H); done.
Qed.

(** A worker does not touch what is stored. *)
Lemma worker_store p p' b w f w' f' : in_plan j p -> in_plan j p' -> ball_for e p = Some b -> wstep e Rs p' w f w' f' ->
  f' (store_for e p b) = f (store_for e p b).
Proof.
  intros Hp Hp' Eb Hs. pose proof (store_in p b Hp Eb) as Hin. set (q := store_for e p b) in *.
  destruct (bo_tmp _ _ Hb p p' Hp Hp') as [A1 A2].
  assert (in_some ds q) as Hq.
  { destruct (so_binaries _ _ _ _ Ho p Hp) as (d & Hd & H). exists d. split; [done|]. by eapply in_dir_trans. }
  assert (~ in_dir lib q) as Hl.
  { intros H. destruct (some_not_lib e j name ds Ho q q Hq H) as [N _]. apply N. by exists []; rewrite app_nil_r. }
  assert (forall x, ~ in_dir (lib ++ [x])%list q) as K by (intros x Hx; apply in_dir_left in Hx; done).
  assert (~ in_dir (tmp p') q) as Ht by (intros H; destruct (in_dir_meet _ _ _ Hin H); done).
  assert (~ in_dir q (tmp p')) as Ht2 by (intros H; apply A1; by eapply in_dir_trans).
  destruct (decide (f' q = f q)) as [|Hne]; [done|exfalso].
  destruct Hs as [| | | |f f' Hm| | |f k c x x' f' Hc Hr| | |f k c Hc|f code err inst| |]; try done.
  - destruct (mkdir_spec _ _ _ Hm) as (_ & H2 & _). apply Hne, H2, Ht2.
  - destruct (HR _ _ _ _ _ Hr) as [H _]. specialize (H q Hne). rewrite (so_files _ _ _ _ Ho p' k c Hp' Hc) in H.
    destruct k; cbn [call_for] in Hc.
    + destruct (cache_path _ _); [|done]. injection Hc as <-. cbn in H. destruct H as [H|[H|[? _]]]; [by apply K in H|by apply K in H|done].
    + injection Hc as <-. cbn in H. destruct H as [H|[H|[_ H]]]; [| |done]; apply in_dir_left in H; done.
    + destruct (ball_for e p'); [|done]. injection Hc as <-. cbn in H. destruct H as [H|[H|[? _]]]; [by apply K in H|by apply K in H|done].
  - apply write_description_frame in Hne; [|rewrite stage_pkg; by apply (so_names _ _ _ _ Ho)]. rewrite stage_pkg in Hne.
    destruct k; cbn [call_for] in Hc.
    + destruct (cache_path _ _); [|done]. injection Hc as <-. by apply K in Hne.
    + injection Hc as <-. cbn in Hne. apply in_dir_left in Hne. done.
    + destruct (ball_for e p'); [|done]. injection Hc as <-. by apply K in Hne.
  - destruct (fs_dir_exists f inst); [|done]. unfold inst in Hne. rewrite join_name in Hne by by apply (so_names _ _ _ _ Ho).
    destruct (remove_cases (tmp p' ++ [p'])%list f q) as [[H _]|[_ H]]; [|done]. apply in_dir_left in H. done.
Qed.

(** Nor does copying for other packages. *)
Lemma copy_store p p' b b' ok f f' : in_plan j p -> in_plan j p' -> p <> p' -> ball_for e p = Some b -> ball_for e p' = Some b' ->
  copy_step (binary_dir e p') (store_for e p' b') b' ok f f' -> f' (store_for e p b) = f (store_for e p b).
Proof.
  intros Hp Hp' Hne E E' Hs. set (q := store_for e p b).
  assert (q <> b') as N1.
  { intros Eq. pose proof (store_in p b Hp E) as H1. fold q in H1. rewrite Eq in H1. pose proof (ball_in p' b' Hp' E') as H2.
    destruct (bo_tmp _ _ Hb p p' Hp Hp') as [A1 A2]. destruct (in_dir_meet _ _ _ H1 H2); done. }
  assert (q <> store_for e p' b') as N2 by by apply (bo_stores _ _ Hb).
  assert (q <> binary_dir e p') as N3 by by apply (bo_dirs _ _ Hb).
  assert (make_dir (binary_dir e p') f q = f q) as K.
  { destruct (decide (make_dir (binary_dir e p') f q = f q)) as [|H]; [done|]. by apply make_dir_change in H as (H & _). }
  destruct Hs as [f c _ _ _|f|f c r _ _ _]; cbn;
    rewrite ?(bool_decide_eq_false_2 (q = b')), ?(bool_decide_eq_false_2 (q = store_for e p' b')) by done; done.
Qed.

(** Copying for the package itself. *)
Lemma copy_own p b ok f f' : in_plan j p -> ball_for e p = Some b ->
  copy_step (binary_dir e p) (store_for e p b) b ok f f' ->
  (ok = true -> exists c, f b = Some (File c) /\ f' (store_for e p b) = Some (File c) /\ f' b = None).
Proof.
  intros Hp E Hs ->. inversion Hs as [f0 c H1 H2 H3| |]; subst.
  pose proof (store_in p b Hp E) as Hin. pose proof (ball_in p b Hp E) as Hbin. destruct (bo_tmp _ _ Hb p p Hp Hp) as [A1 A2].
  assert (store_for e p b <> b) as N. { intros Eq. rewrite Eq in Hin. destruct (in_dir_meet _ _ _ Hin Hbin); done. }
  assert (b <> binary_dir e p) as N2. { intros Eq. apply A2. by rewrite Eq in Hbin. }
  exists c. split; [|split].
  - destruct (decide (make_dir (binary_dir e p) f b = f b)) as [Eq|H]; [congruence|]. by apply make_dir_change in H as (H & _).
  - rewrite bool_decide_eq_false_2 by done. by rewrite bool_decide_eq_true_2.
  - by rewrite bool_decide_eq_true_2.
Qed.

Lemma copy_failed p b f f' : in_plan j p -> ball_for e p = Some b ->
  copy_step (binary_dir e p) (store_for e p b) b false f f' -> f' (store_for e p b) <> f (store_for e p b) ->
  exists c r, f b = Some (File (c +:+ r)) /\ f' (store_for e p b) = Some (File c).
Proof.
  intros Hp E Hs Hn.
  pose proof (store_in p b Hp E) as Hin. pose proof (ball_in p b Hp E) as Hbin. destruct (bo_tmp _ _ Hb p p Hp Hp) as [A1 A2].
  assert (b <> binary_dir e p) as N2. { intros Eq. apply A2. by rewrite Eq in Hbin. }
  assert (forall q, q <> binary_dir e p -> make_dir (binary_dir e p) f q = f q) as M.
  { intros q Hq. destruct (decide (make_dir (binary_dir e p) f q = f q)) as [|H]; [done|]. by apply make_dir_change in H as (H & _). }
  assert (store_for e p b <> binary_dir e p) as N3.
  { destruct (store_eq e j name ds Ho p b Hp E) as (d & n & ->). intros Eq. apply (f_equal length) in Eq. rewrite !app_length in Eq. cbn in Eq. lia. }
  inversion Hs as [|f0|f0 c r H1 H2 H3]; subst.
  - by rewrite M in Hn.
  - exists c, r. rewrite M in H1 by done. split; [done|]. by rewrite bool_decide_eq_true_2.
Qed.

(** Where the binary is there. *)
Definition final (p : string) (w : wstate (rs_state Rs)) : Prop :=
  match w with
  | WFile Final | WRun Final _ | WStamp Final => True
  | WEnd _ _ (Some _) => True
  | _ => False
  end.

Lemma final_ball p w f w' f' b : in_plan j p -> ball_for e p = Some b -> wstep e Rs p w f w' f' -> final p w ->
  f' b = f b /\ final p w'.
Proof.
  intros Hp E Hs. pose proof (ball_in p b Hp E) as Hbin.
  assert (~ in_dir lib b) as Hl.
  { intros H. by destruct (some_not_lib e j name ds Ho _ b (so_tmp _ _ _ _ Ho p Hp) H). }
  assert (forall x, ~ in_dir (lib ++ [x])%list b) as K by (intros x Hx; apply in_dir_left in Hx; done).
  destruct Hs as [f He|f He|f bp Eb He|f bp Eb He|f f' Hm|f k c Hc He|f k c Hc He|f k c x x' f' Hc Hr|f k c x Hc Hx|
    f k c x code Hc Hx Hne|f k c Hc|f code err inst|f b0 Eb He|f b0 Eb He]; cbn [final]; try done.
  - destruct k; try done. intros _. split; [done|]. cbn. by rewrite E.
  - destruct k; try done. intros _. split; [|done]. destruct (decide (f' b = f b)) as [|Hne]; [done|exfalso].
    destruct (HR _ _ _ _ _ Hr) as [H _]. specialize (H b Hne). rewrite (so_files _ _ _ _ Ho p _ c Hp Hc) in H.
    cbn [call_for] in Hc. rewrite E in Hc. injection Hc as <-. cbn in H. destruct H as [H|[H|[? _]]]; [by apply K in H|by apply K in H|done].
  - destruct k; try done. intros _. split; [done|]. cbn. by rewrite E.
  - destruct k; try done. intros _. split; [|cbn; by rewrite E].
    match goal with |- ?g b = _ => destruct (decide (g b = f b)) as [|Hne]; [done|exfalso] end.
    apply write_description_frame in Hne; [|rewrite stage_pkg; by apply (so_names _ _ _ _ Ho)]. rewrite stage_pkg in Hne.
    cbn [call_for] in Hc. rewrite E in Hc. injection Hc as <-. by apply K in Hne.
Qed.

Lemma enters_final p w f w' f' : wstep e Rs p w f w' f' -> final p w' -> final p w \/
  (w = WBall /\ f' = f /\ exists b, ball_for e p = Some b /\ f b <> None).
Proof.
  intros Hs. destruct Hs as [f He|f He|f bp Eb He|f bp Eb He|f f' Hm|f k c Hc He|f k c Hc He|f k c x x' f' Hc Hr|f k c x Hc Hx|
    f k c x code Hc Hx Hne|f k c Hc|f code err inst|f b0 Eb He|f b0 Eb He]; try done.
  - destruct k; cbn; auto.
  - cbn. auto.
  - cbn. auto.
  - cbn. auto.
  - destruct k; cbn; auto.
  - destruct k; cbn; auto.
  - by destruct (negb err && (code =? 0)%Z).
  - intros _. right. split; [done|]. split; [done|]. exists b0. split; [done|]. by apply exists_some.
Qed.

Lemma built_step f0 p n ls st l st' : built e Rs j f0 p n ls st -> tstep e Rs j st l st' -> built e Rs j f0 p n (ls ++ l)%list st'.
Proof.
  intros (ls1 & st1 & ls2 & b & -> & H1 & H2 & H3) Hs. exists ls1, st1, (ls2 ++ l)%list, b. split; [by rewrite app_assoc|]. split; [done|]. split; [by eapply tg_snoc|done].
Qed.

Record inv3 (f0 : fsys) (ls : list label) (st : tstate (rs_state Rs)) : Prop := {
  y_final : forall p w b, t_work st !! p = Some w -> final p w -> ball_for e p = Some b ->
    exists n, built e Rs j f0 p n ls st /\ t_fs st b = Some n;
  y_copy : forall p b ok, (p, b, ok) ∈ t_copies st ->
    Finish p (ROk ok) ∈ ls /\ exists n, built e Rs j f0 p n ls st /\ t_fs st b = Some n;
  y_once : NoDup ((t_copies st).*1).*1;
  y_store : forall p b, in_plan j p -> ball_for e p = Some b -> t_fs st (store_for e p b) <> f0 (store_for e p b) ->
    exists c r, built e Rs j f0 p (File (c +:+ r)) ls st /\ t_fs st (store_for e p b) = Some (File c) /\
      (Finish p (ROk false) ∈ ls \/ (Finish p (ROk true) ∈ ls /\ r = ""))
}.

Lemma inv3_initial f0 : inv3 f0 [] (tinitial _ j f0).
Proof.
  split; cbn; try done.
  - intros p b ok H. by apply elem_of_nil in H.
  - constructor.
Qed.

Lemma inv3_step f0 ls st l st' : together e Rs j (tinitial _ j f0) ls st -> inv f0 ls st -> inv3 f0 ls st ->
  tstep e Rs j st l st' -> inv3 f0 (ls ++ l)%list st'.
Proof.
  intros Htg [I1 I2 I3 I4 I5 I6 I7 I8] [Y1 Y2 Y3 Y4] Hs.
  assert (forall p n, built e Rs j f0 p n ls st -> built e Rs j f0 p n (ls ++ l)%list st') as HB by (intros; by eapply built_step).
  assert (forall p w, t_work st !! p = Some w -> in_plan j p) as Hpl.
  { intros p w Hw. eapply started_planned; [done|exact I1|by eapply I2]. }
  assert (forall p w w' f f' s C b b', st = TState s (t_work st) C f b -> st' = TState s (<[p := w']> (t_work st)) C f' b' ->
    t_work st !! p = Some w -> wstep e Rs p w f w' f' -> inv3 f0 (ls ++ l)%list st') as Hwork.
  { intros p w w' f f' s C b b' E E' Hw Hst.
    assert (t_fs st = f) as Ef by by rewrite E. assert (t_copies st = C) as EC by by rewrite E. clear E. subst f C. rewrite E'. rewrite E' in HB. clear E'.
    assert (in_plan j p) as Hp by by eapply Hpl.
    assert (forall q, f' q <> t_fs st q -> touch p q (t_fs st q) (f' q)) as Ht by (intros q; by eapply worker_touch).
    assert (forall p' b, in_plan j p' -> p' <> p -> ball_for e p' = Some b -> f' b = t_fs st b) as Hoth.
    { intros p' b0 Hp' Hne Eb. destruct (decide (f' b0 = t_fs st b0)) as [|Hd]; [done|exfalso].
      eapply (other_tmp p' p b0 _ _ Hp' Hp Hne); [by apply ball_in|by apply Ht]. }
    split; cbn.
    - intros p' v b0 Hv Hfin Eb. destruct (decide (p' = p)) as [->|Hne].
      + rewrite lookup_insert in Hv. injection Hv as <-.
        destruct (enters_final p w _ w' f' Hst Hfin) as [Hf|(-> & -> & b1 & Eb1 & Hn)].
        * destruct (Y1 p w b0 Hw Hf Eb) as (n & N1 & N2). exists n. split; [by apply HB|].
          destruct (final_ball p w _ w' f' b0 Hp Eb Hst Hf) as [-> _]. done.
        * rewrite Eb in Eb1. injection Eb1 as <-. destruct (t_fs st b0) as [n|] eqn:En; [|done].
          exists n. split; [|done]. apply HB. exists ls, st, [], b0. split; [by rewrite app_nil_r|]. split; [done|]. split; [constructor|]. done.
      + rewrite lookup_insert_ne in Hv by done. destruct (Y1 p' v b0 Hv Hfin Eb) as (n & N1 & N2). exists n. split; [by apply HB|].
        rewrite (Hoth p' b0); [done|by eapply Hpl|done|done].
    - intros p' b0 ok H. destruct (Y2 p' b0 ok H) as (F & n & N1 & N2). split; [by apply elem_of_app; left|]. exists n. split; [by apply HB|].
      destruct (I3 p' b0 ok H) as (Hp' & (r & Hr) & Eb). rewrite (Hoth p' b0); [done|done| |done].
      intros ->. by apply (I2 p w Hw) in Hr.
    - done.
    - intros p' b0 Hp' Eb. rewrite (worker_store p' p b0 w _ w' f' Hp' Hp Eb Hst). intros H.
      destruct (Y4 p' b0 Hp' Eb H) as (c & r & K1 & K2 & K3). exists c, r. split; [by apply HB|]. split; [done|].
      rewrite !elem_of_app. tauto. }
  assert (forall p b, in_plan j p -> ball_for e p = Some b -> t_fs st (store_for e p b) <> f0 (store_for e p b) ->
    exists c r, built e Rs j f0 p (File (c +:+ r)) (ls ++ l)%list st' /\ t_fs st (store_for e p b) = Some (File c) /\
      (Finish p (ROk false) ∈ (ls ++ l)%list \/ (Finish p (ROk true) ∈ (ls ++ l)%list /\ r = ""))) as Hst4.
  { intros p b Hp Eb H. destruct (Y4 p b Hp Eb H) as (c & r & K1 & K2 & K3). exists c, r. split; [by apply HB|]. split; [done|].
    rewrite !elem_of_app. tauto. }
  destruct Hs as [s l s' W C f Hst Hpn|s p s' W C f Hst|s p r s' W C f code err b Hw Hr Hst|s p w w' W C f f' Hw Hst|
                  s p w W C f Hw Hst|s p k c x x' W C f f' Hw Hc Hst|s p ball ok W C1 C2 f f' Hst];
    cbn [t_sched t_work t_copies t_fs] in *.
  - split; cbn.
    + intros p w b Hw Hf Eb. destruct (Y1 p w b Hw Hf Eb) as (n & N1 & N2). eauto.
    + intros p b ok H. destruct (Y2 p b ok H) as (F & n & N1 & N2). split; [by apply elem_of_app; left|]. eauto.
    + done.
    + intros p b Hp Eb H. by apply Hst4.
  - split; cbn.
    + intros p' w b Hw Hf Eb. destruct (decide (p' = p)) as [->|Hne].
      * rewrite lookup_insert in Hw. by injection Hw as <-.
      * rewrite lookup_insert_ne in Hw by done. destruct (Y1 p' w b Hw Hf Eb) as (n & N1 & N2). eauto.
    + intros p' b ok H. destruct (Y2 p' b ok H) as (F & n & N1 & N2). split; [by apply elem_of_app; left|]. eauto.
    + done.
    + intros p' b Hp Eb H. by apply Hst4.
  - split; cbn.
    + intros p' w b0 Hw' Hf Eb. apply lookup_delete_Some in Hw' as [Hne Hw']. destruct (Y1 p' w b0 Hw' Hf Eb) as (n & N1 & N2). eauto.
    + intros p' b' ok' H. apply elem_of_app in H as [H|H].
      * destruct (Y2 p' b' ok' H) as (F & n & N1 & N2). split; [by apply elem_of_app; left|]. eauto.
      * destruct r as [c|]; [|by apply elem_of_nil in H]. destruct b as [ball|]; [|by apply elem_of_nil in H].
        cbn in H. apply elem_of_list_singleton in H as [= -> -> ->]. split; [by apply elem_snoc; right|].
        destruct (Y1 p _ ball Hw I) as (n & N1 & N2); [by eapply I8|]. eauto.
    + destruct r as [c|]; [|by rewrite app_nil_r]. destruct b as [ball|]; [|by rewrite app_nil_r].
      cbn [to_copy]. rewrite !fmap_app. apply NoDup_app. split; [done|]. split; [|cbn; apply NoDup_singleton].
      cbn. intros x Hx Hx2. apply elem_of_list_singleton in Hx2 as ->.
      apply elem_of_list_fmap in Hx as ([p' b'] & Ep & Hx). cbn in Ep. subst p'.
      apply elem_of_list_fmap in Hx as ([[p' b''] ok'] & [= <- <-] & Hx).
      destruct (I3 p b' ok' Hx) as (_ & (r' & Hr') & _). by apply (I2 p _ Hw) in Hr'.
    + intros p' b0 Hp Eb H. by apply Hst4.
  - by eapply Hwork.
  - split; cbn.
    + intros p' w' b Hw' Hf Eb. destruct (Y1 p' w' b Hw' Hf Eb) as (n & N1 & N2). eauto.
    + intros p' b ok H. destruct (Y2 p' b ok H) as (F & n & N1 & N2). split; [by apply elem_of_app; left|]. eauto.
    + done.
    + intros p' b Hp Eb H. by apply Hst4.
  - eapply Hwork; [done..|]. by eapply orphan_step.
  - assert ((p, ball, ok) ∈ (C1 ++ (p, ball, ok) :: C2)%list) as Hin by (apply elem_of_app; right; by left).
    destruct (I3 p ball ok Hin) as (Hp & (r & Hr) & Eball).
    assert (forall q, f' q <> f q -> touch p q (f q) (f' q)) as Ht by (intros q; by eapply copy_touch).
    assert (forall p' b, in_plan j p' -> p' <> p -> ball_for e p' = Some b -> f' b = f b) as Hoth.
    { intros p' b0 Hp' Hne Eb. destruct (decide (f' b0 = f b0)) as [|Hd]; [done|exfalso].
      eapply (other_tmp p' p b0 _ _ Hp' Hp Hne); [by apply ball_in|by apply Ht]. }
    split; cbn.
    + intros p' w b Hw Hf Eb. destruct (Y1 p' w b Hw Hf Eb) as (n & N1 & N2). exists n. split; [by apply HB|].
      rewrite (Hoth p' b); [done|by eapply Hpl| |done]. intros ->. by apply (I2 p w Hw) in Hr.
    + intros p' b' ok' H. assert ((p', b', ok') ∈ (C1 ++ (p, ball, ok) :: C2)%list) as H'.
      { rewrite elem_of_app in H |- *. destruct H; [by left|right; by right]. }
      destruct (Y2 p' b' ok' H') as (F & n & N1 & N2). split; [by apply elem_of_app; left|]. exists n. split; [by apply HB|].
      destruct (I3 p' b' ok' H') as (Hp' & _ & Eb). rewrite (Hoth p' b'); [done|done| |done].
      intros ->. rewrite !fmap_app in Y3. cbn in Y3. apply NoDup_app in Y3 as (_ & Y3 & Y3').
      apply NoDup_cons in Y3' as [Y3' _]. apply elem_of_app in H as [H|H].
      * apply (Y3 p); [|by left]. apply elem_of_list_fmap. exists (p, b'). split; [done|]. apply elem_of_list_fmap. by exists (p, b', ok').
      * apply Y3'. apply elem_of_list_fmap. exists (p, b'). split; [done|]. apply elem_of_list_fmap. by exists (p, b', ok').
    + rewrite !fmap_app in Y3 |- *. cbn in Y3. apply NoDup_app in Y3 as (Z1 & Z2 & Z3). apply NoDup_cons in Z3 as [_ Z3].
      apply NoDup_app. split; [done|]. split; [|done]. intros x Hx Hx2. apply (Z2 x Hx). by right.
    + intros p' b' Hp' Eb H. destruct (decide (p' = p)) as [->|Hne].
      * rewrite Eball in Eb. injection Eb as <-. destruct (Y2 p ball ok Hin) as (F & n & N1 & N2). destruct ok.
        { destruct (copy_own p ball true f f' Hp Eball Hst eq_refl) as (c & C3 & C4 & C5).
          exists c, "". rewrite app_nil_str. split; [|split; [done|]].
          - rewrite C3 in N2. injection N2 as <-. by apply HB.
          - right. split; [by apply elem_of_app; left|done]. }
        destruct (decide (f' (store_for e p ball) = f (store_for e p ball))) as [Eq|Ne].
        { rewrite Eq in H |- *. by apply Hst4. }
        destruct (copy_failed p ball f f' Hp Eball Hst Ne) as (c & r0 & C3 & C4). exists c, r0. split; [|split; [done|]].
        { rewrite C3 in N2. injection N2 as <-. by apply HB. }
        left. by apply elem_of_app; left.
      * rewrite (copy_store p' p b' ball ok f f') in H |- * by (done || congruence).
        by apply Hst4.
Qed.

Lemma together_inv3 f0 ls st : tree_ok f0 -> together e Rs j (tinitial _ j f0) ls st -> inv3 f0 ls st.
Proof.
  intros T H. induction H as [|ls s' l s'' H IH Hs]; [by apply inv3_initial|].
  eapply inv3_step; [exact H| |exact IH|exact Hs]. by eapply together_inv.
Qed.

(** ** What becomes of a binary *)

Definition later (p : string) (b : list string) (n : node) (ls : list label) (st : tstate (rs_state Rs)) : Prop :=
  (exists w, t_work st !! p = Some w /\ (w = WBall \/ final p w) /\ t_fs st b = Some n) \/
  (exists r, Finish p r ∈ ls /\ r <> ROk true) \/
  (Finish p (ROk true) ∈ ls /\ (p, b, true) ∈ t_copies st /\ t_fs st b = Some n) \/
  (Finish p (ROk true) ∈ ls /\ (forall b' ok, (p, b', ok) ∉ t_copies st) /\ t_fs st b = None /\
   exists c, n = File c /\ t_fs st (store_for e p b) = Some (File c)).

Lemma later_step f0 p b n ls st l st' : in_plan j p -> ball_for e p = Some b -> inv f0 ls st -> inv3 f0 ls st ->
  later p b n ls st -> tstep e Rs j st l st' -> later p b n (ls ++ l)%list st'.
Proof.
  intros Hp Eb [I1 I2 I3 I4 I5 I6 I7 I8] [Y1 Y2 Y3 Y4] HL Hs.
  assert (forall p w, t_work st !! p = Some w -> in_plan j p) as Hpl.
  { intros p' w Hw. eapply started_planned; [done|exact I1|by eapply I2]. }
  assert (forall r, Finish p r ∈ ls -> Finish p r ∈ (ls ++ l)%list) as Hls by (intros r H; by apply elem_of_app; left).
  assert (forall p' w w' f f' s C b1 b', st = TState s (t_work st) C f b1 -> st' = TState s (<[p' := w']> (t_work st)) C f' b' ->
    t_work st !! p' = Some w -> wstep e Rs p' w f w' f' -> later p b n (ls ++ l)%list st') as Hwork.
  { intros p' w w' f f' s C b1 b' E E' Hw Hst.
    assert (t_fs st = f) as Ef by by rewrite E. assert (t_copies st = C) as EC by by rewrite E. clear E. subst f C. rewrite E'. clear E'.
    assert (in_plan j p') as Hp' by by eapply Hpl.
    assert (forall q, f' q <> t_fs st q -> touch p' q (t_fs st q) (f' q)) as Ht by (intros q; by eapply worker_touch).
    assert (p' <> p -> f' b = t_fs st b) as Hoth.
    { intros Hne. destruct (decide (f' b = t_fs st b)) as [|Hd]; [done|exfalso].
      eapply (other_tmp p p' b _ _ Hp Hp'); [congruence|by apply ball_in|by apply Ht]. }
    assert (forall r, Finish p r ∈ ls -> p' <> p) as Hfp. { intros r H ->. by apply (I2 p w Hw) in H. }
    destruct HL as [(v & V1 & V2 & V3)|[(r & R1 & R2)|[(R1 & R2 & R3)|(R1 & R2 & R3 & c & -> & R4)]]].
    - left. destruct (decide (p' = p)) as [->|Hne].
      + assert (v = w) as -> by congruence. exists w'. split; [cbn; apply lookup_insert|]. cbn.
        destruct V2 as [-> |V2].
        * inversion Hst; subst; [|exfalso].
          -- split; [by right|done].
          -- assert (b0 = b) as -> by congruence. unfold fs_exists in *. by rewrite V3 in *.
        * destruct (final_ball p w _ w' f' b Hp Eb Hst V2) as [-> ?]. split; [by right|done].
      + exists v. split; [cbn; by rewrite lookup_insert_ne|]. split; [done|]. cbn. by rewrite Hoth.
    - right. left. exists r. split; [by apply Hls|done].
    - right. right. left. split; [by apply Hls|]. split; [done|]. cbn. by rewrite Hoth by by eapply Hfp.
    - right. right. right. split; [by apply Hls|]. split; [done|]. cbn. split; [by rewrite Hoth by by eapply Hfp|].
      exists c. split; [done|]. by rewrite (worker_store p p' b w _ w' f' Hp Hp' Eb Hst). }
  destruct Hs as [s l s' W C f Hst Hpn|s p' s' W C f Hst|s p' r s' W C f code err b0 Hw Hr Hst|s p' w w' W C f f' Hw Hst|
                  s p' w W C f Hw Hst|s p' k c x x' W C f f' Hw Hc Hst|s p' ball ok W C1 C2 f f' Hst];
    cbn [t_sched t_work t_copies t_fs] in *.
  - destruct HL as [V|[(r & R1 & R2)|[(R1 & R2)|(R1 & R2)]]]; [by left|right; left; exists r; auto|right; right; left; auto|right; right; right; auto].
  - destruct HL as [(v & V1 & V2 & V3)|[(r & R1 & R2)|[(R1 & R2)|(R1 & R2)]]];
      [|right; left; exists r; auto|right; right; left; auto|right; right; right; auto].
    left. exists v. split; [|done]. cbn in *. rewrite lookup_insert_ne; [done|]. intros ->.
    assert (execution j (initial j) (ls ++ [Start p])%list s') as Hex by by econstructor.
    destruct (start_once j Hj _ _ ls [] p Hex eq_refl) as (K & _). apply K. by apply (I2 p v).
  - destruct HL as [(v & V1 & V2 & V3)|[(r' & R1 & R2)|[(R1 & R2 & R3)|(R1 & R2 & R3)]]].
    + destruct (decide (p' = p)) as [->|Hne].
      * assert (v = WEnd code err b0) as -> by (cbn in *; congruence). destruct V2 as [|V2]; [done|]. cbn in V2. destruct b0 as [ball|]; [|done].
        assert (ball = b) as -> by (apply I8 in Hw; congruence).
        destruct r as [[]|].
        -- right. right. left. split; [by apply elem_snoc; right|]. cbn. split; [|done]. apply elem_snoc. by right.
        -- right. left. exists (ROk false). split; [by apply elem_snoc; right|done].
        -- right. left. exists RFail. split; [by apply elem_snoc; right|done].
      * left. exists v. cbn in *. split; [by rewrite lookup_delete_ne|done].
    + right. left. exists r'. auto.
    + right. right. left. split; [auto|]. cbn in *. split; [by apply elem_of_app; left|done].
    + right. right. right. split; [auto|]. cbn in *. split; [|done]. intros b' ok' H. apply elem_of_app in H as [H|H]; [by apply R2 in H|].
      destruct r as [c|]; [|by apply elem_of_nil in H]. destruct b0 as [ball|]; [|by apply elem_of_nil in H].
      cbn in H. apply elem_of_list_singleton in H as [= <- <- <-]. by apply (I2 p _ Hw) in R1.
  - by eapply Hwork.
  - destruct HL as [V|[(r & R1 & R2)|[(R1 & R2)|(R1 & R2)]]]; [by left|right; left; exists r; auto|right; right; left; auto|right; right; right; auto].
  - eapply Hwork; [done..|]. by eapply orphan_step.
  - assert ((p', ball, ok) ∈ (C1 ++ (p', ball, ok) :: C2)%list) as Hin by (apply elem_of_app; right; by left).
    destruct (I3 p' ball ok Hin) as (Hp' & (r & Hr) & Eball). destruct (Y2 p' ball ok Hin) as (F & _).
    assert (forall q, f' q <> f q -> touch p' q (f q) (f' q)) as Ht by (intros q; by eapply copy_touch).
    assert (p' <> p -> f' b = f b) as Hoth.
    { intros Hne. destruct (decide (f' b = f b)) as [|Hd]; [done|exfalso].
      eapply (other_tmp p p' b _ _ Hp Hp'); [congruence|by apply ball_in|by apply Ht]. }
    destruct HL as [(v & V1 & V2 & V3)|[(r' & R1 & R2)|[(R1 & R2 & R3)|(R1 & R2 & R3 & c & -> & R4)]]].
    + left. exists v. cbn in *. split; [done|]. split; [done|]. rewrite Hoth; [done|]. intros ->. by apply (I2 p v V1) in Hr.
    + right. left. exists r'. auto.
    + right. right. destruct (decide (p' = p)) as [->|Hne].
      * right. split; [auto|]. cbn. assert (ball = b) as -> by congruence.
        assert (ROk ok = ROk true) as [= ->] by by eapply finish_unique.
        destruct (copy_own p b true f f' Hp Eb Hst eq_refl) as (c & K1 & K2 & K3).
        split; [|split; [done|]; exists c; split; [cbn in R3; congruence|done]].
        intros b' ok' H. rewrite !fmap_app in Y3. cbn in Y3. apply NoDup_app in Y3 as (_ & Y3 & Y3').
        apply NoDup_cons in Y3' as [Y3' _]. apply elem_of_app in H as [H|H].
        -- apply (Y3 p); [|by left]. apply elem_of_list_fmap. exists (p, b'). split; [done|]. apply elem_of_list_fmap. by exists (p, b', ok').
        -- apply Y3'. apply elem_of_list_fmap. exists (p, b'). split; [done|]. apply elem_of_list_fmap. by exists (p, b', ok').
      * left. split; [auto|]. cbn in *. split; [|by rewrite Hoth].
        rewrite elem_of_app in R2 |- *. rewrite elem_of_cons in R2. destruct R2 as [?|[?|?]]; [by left|congruence|by right].
    + right. right. right. assert (p' <> p) as Hne. { intros ->. by apply R2 in Hin. }
      split; [auto|]. cbn in *. split; [|split; [by rewrite Hoth|exists c; split; [done|]; by rewrite (copy_store p p' b ball ok f f') by (done || congruence)]].
      intros b' ok' H. apply (R2 b' ok'). rewrite elem_of_app in H |- *. destruct H; [by left|right; by right].
Qed.

Lemma built_later f0 ls st p n b : tree_ok f0 -> ball_for e p = Some b -> in_plan j p ->
  together e Rs j (tinitial _ j f0) ls st -> t_work st !! p = Some WBall -> t_fs st b = Some n ->
  forall ls2 st2, together e Rs j st ls2 st2 -> together e Rs j (tinitial _ j f0) (ls ++ ls2)%list st2 /\ later p b n (ls ++ ls2)%list st2.
Proof.
  intros T Eb Hp H Hw Hn ls2 st2 H2. induction H2 as [|ls2 s' l s'' H2 IH Hs].
  - rewrite app_nil_r. split; [done|]. left. exists WBall. auto.
  - destruct IH as [J1 J2]. rewrite app_assoc. split; [by eapply tg_snoc|].
    eapply (later_step f0); [done|done| | |exact J2|exact Hs]; [by eapply together_inv|by apply together_inv3].
Qed.

End store.

(** ** After downloading *)

Section linked.

Context (e : setting) (x : fetch_env) (ws : list wanted) (j : job) (name : list string -> string) (ds : list (list string)).
Context (f fd : fsys).
Hypothesis Hok : fetch_ok x ws.
Hypothesis Har : arranged e x j name ds.
Hypothesis Hcov : covers ws j.
Hypothesis Hf : fetched x ws f (e_downloads e) fd.
Hypothesis Hall : all_fetched ws (e_downloads e).

Lemma linked_dir p : in_plan j p -> in_dir (x_cache x) (binary_dir e p).
Proof.
  intros Hp. destruct (planned_wanted ws j Hcov p Hp) as (w & Hw & <-). unfold binary_dir.
  destruct (linked_path e x ws f fd Hok Hf Hall w Hw) as [-> _].
  rewrite join_file by by repeat split.
  destruct (place_eq x w (fk_sums _ _ Hok) (fk_os _ _ Hok) (fk_sensible _ _ Hok w Hw)) as (dir & n & E & _ & Hdir & _). rewrite E.
  destruct Hdir as [-> | ->]; cbn [app].
  - exists [repo_dir (x_md5 x) (w_repo w); "binary"].
    change ([repo_dir (x_md5 x) (w_repo w); "src"; n]) with ([repo_dir (x_md5 x) (w_repo w)] ++ ["src"] ++ [n])%list.
    rewrite !app_assoc, !removelast_last. by rewrite <- !app_assoc.
  - exists [repo_dir (x_md5 x) (w_repo w); "binary"; "binary"].
    change ([repo_dir (x_md5 x) (w_repo w); "binary"; rv_short (x_rv x); n]) with ([repo_dir (x_md5 x) (w_repo w); "binary"] ++ [rv_short (x_rv x)] ++ [n])%list.
    rewrite !app_assoc, !removelast_last. by rewrite <- !app_assoc.
Qed.

Lemma linked_store p b : in_plan j p -> ball_for e p = Some b -> version_name p /\ exists d y, store_for e p b = (d ++ [p +:+ "_" +:+ y])%list.
Proof.
  intros Hp Eb. pose proof (linked_setting e x ws j name ds f fd Hok Har Hcov Hf Hall) as Ho.
  destruct (ball_name e j name ds Ho p b Hp Eb) as (m & Hm & Em).
  destruct (planned_wanted ws j Hcov p Hp) as (w & Hw & <-). split; [by apply r_name_chars, (fk_sensible _ _ Hok w Hw)|].
  destruct (linked_ball e x ws j name ds f fd Hok Har Hf Hall w b Hw Hp Eb) as (d & y & E).
  unfold store_for. rewrite E in Em. apply app_inj_tail in Em as [_ Em]. subst m. rewrite E, base_snoc, (join_file _ _ Hm). by eexists _, _.
Qed.

Lemma linked_binaries : binaries_ok e j.
Proof.
  split.
  - intros p p' Hp Hp'. pose proof (linked_dir p Hp) as H. destruct (ar_cache_tmp _ _ _ _ _ Har p' Hp') as [A1 A2]. split; intros K.
    + apply A1. by eapply in_dir_trans.
    + destruct (in_dir_meet _ _ _ H K); done.
  - intros p p' b b' Hp Hp' Hne E E' Eq. destruct (linked_store p b Hp E) as (V & d & y & S1). destruct (linked_store p' b' Hp' E') as (V' & d' & y' & S2).
    rewrite S1, S2 in Eq. apply app_inj_tail in Eq as [_ Eq]. apply Hne. apply sep_split in Eq as [Eq _]; [done|by apply version_no_under..].
  - intros p p' b Hp Hp' E Eq. destruct (linked_store p b Hp E) as (V & d & y & S1). destruct (binary_dir_eq e p') as [d' S2].
    rewrite S1, S2 in Eq. apply app_inj_tail in Eq as [_ Eq].
    assert (all_chars (fun c => c <> "_"%char) (p +:+ "_" +:+ y)) as K. { rewrite Eq. vm_compute. repeat (split; [discriminate|]). done. }
    apply all_chars_app in K as [_ K]. cbn in K. by destruct K.
Qed.

Lemma linked_found w b : w ∈ ws -> in_plan j (w_pkg w) -> ~ means_binary (x_os x) (w_type w) ->
  contains "tar.gz" (w_pkg w +:+ "_" +:+ w_version w) = false -> ball_for e (w_pkg w) = Some b ->
  cache_path (surroundings_for e (w_pkg w)) (request_for e (w_pkg w)) = Some (store_for e (w_pkg w) b).
Proof.
  intros Hw Hp Ht Hc Eb. pose proof (fk_sensible _ _ Hok w Hw) as (P1 & P2 & _).
  destruct (linked_path e x ws f fd Hok Hf Hall w Hw) as [E1 E2].
  pose proof (linked_source e x ws j name ds f fd Hok Har Hf Hall w Hw) as Es.
  unfold ball_for in Eb. rewrite Es in Eb. destruct (binary_ext _ _ _) as [n|] eqn:Ex; [|done]. injection Eb as <-.
  set (s := surroundings_for e (w_pkg w)).
  pose proof (stored_found s (is_rhel (x_rel x)) w (path_text (place x w)) (e_library e) (e_pkgr e) (e_rversion e) (e_platform e) n) as K.
  cbn [s surroundings_for s_os s_md5 s_cache s_tmp] in K. rewrite (ar_os _ _ _ _ _ Har), (ar_md5 _ _ _ _ _ Har), (ar_cache _ _ _ _ _ Har), (ar_rv _ _ _ _ _ Har) in K.
  rewrite (ar_os _ _ _ _ _ Har) in Ex. fold (place x w) in K.
  unfold store_for, binary_dir. rewrite E1, (ar_rv _ _ _ _ _ Har). fold (store_path (place x w) (x_rv x) (join_path (e_tmp e (w_pkg w)) n)).
  rewrite <- (K Ht); [|apply version_no_slash, r_name_chars, P1|by apply version_no_slash|exact (ar_platform _ _ _ _ _ Har)|exact Hc|exact Ex].
  unfold cache_path, request_for, request_of. cbn [q_meta_pkg q_meta_version q_platform q_repo q_rversion]. rewrite E2, <- (ar_rv _ _ _ _ _ Har). done.
Qed.

End linked.
