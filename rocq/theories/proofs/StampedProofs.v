(** The DESCRIPTION files of packages that are installed concurrently. *)
From stdpp Require Import strings list gmap.
From Coq Require Import Ascii ZArith Lia.
From Verif.model Require Import GoStr Nexus RepoDb Graph Fs Stamp Yml Sched Install Download Tarballs Together.
From Verif.spec Require Import StrSpec SchedSpec LibSpec InstallSpec TarballSpec TogetherSpec StampSpec StampedSpec.
From Verif.proofs Require Import GoStrLemmas FsProofs ExtractProofs InstallProofs CacheProofs CleanProofs TarballProofs
  StampProofs SchedProofs SchedProps TogetherProofs.

Local Open Scope string_scope.

Lemma write_text l : text_of l (write_lines l).
Proof. induction l as [|x l IH]; [constructor|]. by constructor. Qed.

Lemma type_text_word os t ty : type_word os t ty <-> ty = type_text os t.
Proof.
  split.
  - destruct 1 as [os|os|os [-> | ->]|os H1 H2]; try done. by destruct os.
  - intros ->. destruct t, os; cbn; constructor; auto.
Qed.

Lemma write_says s r lib f t lines : r_name (q_pkg r) -> f (lib ++ [q_pkg r; "DESCRIPTION"])%list = Some (File t) ->
  s_read s t = Some lines ->
  says (write_description s r lib f) lib (q_pkg r) (q_pkgr r) (type_text (s_os s) (q_type r)) (ru_url (q_repo r)) (ru_name (q_repo r)).
Proof.
  intros Hn Hf Hr. assert (join_path (join_path lib (q_pkg r)) "DESCRIPTION" = (lib ++ [q_pkg r; "DESCRIPTION"])%list) as E.
  { rewrite (join_name _ _ Hn). unfold join_path. change (split_slash "DESCRIPTION") with ["DESCRIPTION"]. cbn. by rewrite <- app_assoc. }
  unfold write_description. rewrite E, Hf, Hr. eexists _, (stamp_loop (ru_name (q_repo r)) lines). split; [by rewrite bool_decide_eq_true_2|].
  split; [apply write_text|]. split; [apply loop_no_own|apply loop_repository].
Qed.

Lemma says_same f f' lib p v ty url repo : f' (lib ++ [p; "DESCRIPTION"])%list = f (lib ++ [p; "DESCRIPTION"])%list ->
  says f lib p v ty url repo -> says f' lib p v ty url repo.
Proof. intros E (t & body & H). exists t, body. by rewrite E. Qed.

Section stamped.

Context (e : setting) (Rs : rsystem) (j : job) (name : list string -> string) (ds : list (list string)) (f0 : fsys).
Hypothesis Hj : job_ok j.
Hypothesis Ho : setting_ok e j name ds.
Hypothesis HR : rs_only Rs name.
Hypothesis HI : rs_installs Rs name.
Hypothesis HD : rs_describes Rs name (s_read (e_where e)).
Hypothesis HT : tree_ok f0.
Hypothesis HF : files_ok e j f0.

Local Notation lib := (e_library e).
Local Notation tmp := (e_tmp e).
Local Notation bin p := (cache_path (surroundings_for e p) (request_for e p)).

Definition was_cached (p : string) : Prop := forall bp, bin p = Some bp -> own_place e j p bp -> f0 bp <> None.
Definition not_cached (p : string) : Prop := forall bp, bin p = Some bp -> f0 bp = None.
Definition stage_kind (p : string) (k : stage) : Prop := match k with Cached => was_cached p | _ => not_cached p end.

Definition told (p : string) (f : fsys) : Prop := exists ty,
  says f lib p (e_pkgr e) ty (ru_url (w_repo (d_wanted (download_of e p)))) (ru_name (w_repo (d_wanted (download_of e p)))) /\
  ((ty = "binary" /\ was_cached p) \/ (type_word (s_os (e_where e)) (w_type (d_wanted (download_of e p))) ty /\ not_cached p)).

Definition described (p : string) (f : fsys) : Prop := exists t lines,
  f (lib ++ [p; "DESCRIPTION"])%list = Some (File t) /\ s_read (e_where e) t = Some lines.

Definition wsays (p : string) (w : wstate (rs_state Rs)) (f : fsys) : Prop :=
  match w with
  | WLook => f (lib ++ [p])%list = f0 (lib ++ [p])%list
  | WCache => True
  | WTmp => not_cached p
  | WFile k | WRun k _ => stage_kind p k
  | WStamp k => stage_kind p k /\ (k <> Build -> described p f)
  | WClean _ _ | WBall => not_cached p
  | WEnd _ err _ => err = false -> f0 (lib ++ [p])%list = Some Dir \/ told p f
  end.

Record inv3 (ls : list label) (st : tstate (rs_state Rs)) : Prop := {
  v_work : forall p w, t_work st !! p = Some w -> wsays p w (t_fs st);
  v_done : forall p c, Finish p (ROk c) ∈ ls -> f0 (lib ++ [p])%list = Some Dir \/ told p (t_fs st);
  v_place : forall p bp, in_plan j p -> (forall r, Finish p r ∉ ls) -> bin p = Some bp -> own_place e j p bp -> t_fs st bp = f0 bp;
  v_fresh : forall p, in_plan j p -> ~ started ls p -> t_fs st (lib ++ [p])%list = f0 (lib ++ [p])%list
}.

(** Others do not change what is in the directory of a package. *)
Lemma other_slot (f f' : fsys) p p' s : in_plan j p -> in_plan j p' -> p <> p' ->
  (forall q, f' q <> f q -> touch e p' q (f q) (f' q)) -> f' (lib ++ p :: s)%list = f (lib ++ p :: s)%list.
Proof.
  intros Hp Hp' Hne Ht. destruct (decide (f' (lib ++ p :: s)%list = f (lib ++ p :: s)%list)) as [E|E]; [done|].
  exfalso. apply Hne. eapply (touch_slot e j name ds Ho p'); [exact Hp'|by apply (so_names _ _ _ _ Ho)|reflexivity|by apply Ht].
Qed.

Lemma told_same p f f' : f' (lib ++ [p; "DESCRIPTION"])%list = f (lib ++ [p; "DESCRIPTION"])%list -> told p f -> told p f'.
Proof. intros E (ty & H1 & H2). exists ty. split; [by eapply says_same|done]. Qed.

Lemma wsays_same p w f f' : (forall s, f' (lib ++ p :: s)%list = f (lib ++ p :: s)%list) -> wsays p w f -> wsays p w f'.
Proof.
  intros E. destruct w as [| | |k|k x|k|code err| |code err b]; cbn [wsays]; try done.
  - by rewrite E.
  - intros [H1 H2]. split; [done|]. intros Hk. destruct (H2 Hk) as (t & lines & H3 & H4). exists t, lines. by rewrite E.
  - intros H He. destruct (H He) as [H1|H1]; [by left|right]. apply (told_same p f); [apply E|done].
Qed.

(** A worker does nothing outside of the library and its temporary directory. *)
Lemma worker_keeps p w f w' f' q : in_plan j p -> wstep e Rs p w f w' f' -> ~ in_dir lib q -> ~ in_dir (tmp p) q -> ~ in_dir q (tmp p) -> f' q = f q.
Proof.
  intros Hp Hs H1 H2 H3. destruct (decide (f' q = f q)) as [|Hq]; [done|exfalso].
  destruct Hs as [| | | |f f' Hm| | |f k c x x' f' Hc Hr| | |f k c Hc|f code err inst| |]; try done.
  - destruct (mkdir_spec _ _ _ Hm) as (_ & K & _). by apply Hq, K.
  - destruct (HR _ _ _ _ _ Hr) as [K _]. specialize (K q Hq). destruct k; cbn [call_for] in Hc.
    + destruct (bin p); [|done]. injection Hc as <-. cbn in K. destruct K as [K|[K|[K _]]]; [by apply H1, (in_dir_left _ _ _ K)|by apply H1, (in_dir_left _ _ _ K)|done].
    + injection Hc as <-. cbn in K. destruct K as [K|[K|[_ K]]]; [by apply H2, (in_dir_left _ _ _ K)|by apply H2, (in_dir_left _ _ _ K)|done].
    + destruct (ball_for e p); [|done]. injection Hc as <-. cbn in K. destruct K as [K|[K|[K _]]]; [by apply H1, (in_dir_left _ _ _ K)|by apply H1, (in_dir_left _ _ _ K)|done].
  - apply write_description_frame in Hq; [|rewrite stage_pkg; by apply (so_names _ _ _ _ Ho)].
    apply in_dir_left in Hq. destruct k; cbn [call_for] in Hc.
    + destruct (bin p); [|done]. by injection Hc as <-.
    + by injection Hc as <-.
    + destruct (ball_for e p); [|done]. by injection Hc as <-.
  - destruct (fs_dir_exists f inst); [|done]. unfold inst in Hq. rewrite join_name in Hq by by apply (so_names _ _ _ _ Ho).
    destruct (remove_cases (tmp p ++ [p])%list f q) as [[H _]|[_ H]]; [|done]. by apply in_dir_left in H.
Qed.

Lemma place_worker p p' w f w' f' bp : in_plan j p -> in_plan j p' -> wstep e Rs p' w f w' f' -> bin p = Some bp -> own_place e j p bp -> f' bp = f bp.
Proof.
  intros Hp Hp' Hs Hb Hown. destruct (fo_cached _ _ _ HF p p' bp Hp Hp' Hb) as [F1 F2]. destruct (Hown p' Hp') as [F3 _].
  by eapply worker_keeps.
Qed.

Lemma place_copy p p' b ok f f' bp : in_plan j p -> in_plan j p' -> p' <> p -> ball_for e p' = Some b ->
  copy_step (binary_dir e p') (store_for e p' b) b ok f f' -> bin p = Some bp -> own_place e j p bp -> f' bp = f bp.
Proof.
  intros Hp Hp' Hne Hb Hs Hbp Hown. destruct (fo_cached _ _ _ HF p p' bp Hp Hp' Hbp) as [F1 F2]. destruct (Hown p' Hp') as (_ & F3 & F4).
  specialize (F4 b Hne Hb). destruct (ball_name e j name ds Ho p' b Hp' Hb) as (n & _ & Eb).
  assert (bp <> b) as F5 by (intros ->; apply F2; rewrite Eb; by eexists).
  assert (make_dir (binary_dir e p') f bp = f bp) as K.
  { destruct (decide (make_dir (binary_dir e p') f bp = f bp)) as [|E]; [done|]. apply make_dir_change in E as (-> & _). done. }
  destruct Hs as [f c _ _ _|f|f c r _ _ _]; cbn; rewrite ?(bool_decide_eq_false_2 (bp = b)), ?(bool_decide_eq_false_2 (bp = store_for e p' b)) by congruence; done.
Qed.

Lemma exit_described p k c x f : in_plan j p -> call_for e p k = Some c -> k <> Build -> rs_exit Rs c x f 0 -> described p f.
Proof.
  intros Hp Hc Hk Hx. apply HD in Hx. rewrite (so_files _ _ _ _ Ho p k c Hp Hc) in Hx.
  destruct k; cbn [call_for] in Hc; [|done|].
  - destruct (bin p); [|done]. by injection Hc as <-.
  - destruct (ball_for e p); [|done]. by injection Hc as <-.
Qed.

Lemma stamp_told p k c f : in_plan j p -> call_for e p k = Some c -> k <> Build -> stage_kind p k -> described p f ->
  told p (write_description (surroundings_for e p) (stage_request e p k) (rc_library c) f).
Proof.
  intros Hp Hc Hk Hs (t & lines & H1 & H2).
  assert (rc_library c = lib) as ->.
  { destruct k; cbn [call_for] in Hc; [|done|]; [destruct (bin p)|destruct (ball_for e p)]; try done; by injection Hc as <-. }
  pose proof (write_says (surroundings_for e p) (stage_request e p k) lib f t lines) as K. rewrite stage_pkg in K.
  specialize (K (so_names _ _ _ _ Ho p Hp) H1 H2). destruct k; [| done |].
  - exists "binary". split; [exact K|]. left. done.
  - eexists. split; [exact K|]. right. split; [by apply type_text_word|done].
Qed.

Lemma wsays_own p w f w' f' : in_plan j p -> wgood e Rs p w f -> (forall bp, bin p = Some bp -> own_place e j p bp -> f bp = f0 bp) ->
  (forall bp, bin p = Some bp -> f0 bp <> None -> f bp <> None) ->
  wstep e Rs p w f w' f' -> wsays p w f -> wsays p w' f'.
Proof.
  intros Hp Hg Hpl Hkeep Hs.
  destruct Hs as [f He|f He|f bp Eb He|f bp Eb He|f f' Hm|f k c Hc He|f k c Hc He|f k c x x' f' Hc Hr|f k c x Hc Hx|
    f k c x code Hc Hx Hne|f k c Hc|f code err inst|f b Eb He|f b Eb He]; cbn [wsays]; try done.
  - intros H _. left. rewrite join_name in He by by apply (so_names _ _ _ _ Ho). unfold fs_dir_exists in He.
    rewrite <- H. by destruct (f (lib ++ [p])%list) as [[]|].
  - intros _ bp' Eb' Hown. rewrite Eb in Eb'. injection Eb' as <-. rewrite <- (Hpl bp Eb Hown). by apply exists_some.
  - intros _ bp' Eb'. rewrite Eb in Eb'. injection Eb' as <-. destruct (f0 bp) as [n|] eqn:E; [|done]. exfalso.
    apply (Hkeep bp Eb); [congruence|]. unfold fs_exists in He. by destruct (f bp).
  - exfalso. destruct Hg as (c' & Hc' & H). rewrite Hc in Hc'. injection Hc' as <-. unfold fs_exists in He. by destruct (f (rc_source c)).
  - intros H. split; [done|]. intros Hk. by eapply exit_described.
  - intros H. by destruct k.
  - intros [H1 H2]. destruct k; cbn [after_install wsays].
    + intros _. right. apply stamp_told; auto.
    + done.
    + intros _. right. apply stamp_told; auto.
  - cbn [wgood] in Hg. intros H. destruct (negb err && (code =? 0)%Z) eqn:E; [done|]. cbn [wsays]. intros ->. rewrite Hg in E by done. done.
Qed.

Lemma started_snoc_sub ls l p : started ls p -> started (ls ++ l)%list p.
Proof. unfold started. rewrite elem_of_app. by left. Qed.

Lemma inv3_step ls st l st' : inv e Rs j f0 ls st -> inv2 e Rs j ls st ->
  (forall q, ~ in_dir lib q -> (forall p, in_plan j p -> ~ in_dir (tmp p) q) -> f0 q <> None -> t_fs st q <> None) ->
  inv3 ls st -> tstep e Rs j st l st' -> inv3 (ls ++ l)%list st'.
Proof.
  intros [I1 I2 I3 I4 I5 I6 I7 I8] [G1 G2 G3] Hkeep [V1 V2 V3 V4] Hs.
  assert (forall p, (exists r, Finish p r ∈ ls) -> in_plan j p) as Hfp.
  { intros p Hp. eapply started_planned; [done|exact I1|]. apply h_start_elem. apply h_fin_elem in Hp.
    pose proof (k_start _ _ _ (counts_run _ _ _ I1) p). lia. }
  assert (forall p w, t_work st !! p = Some w -> in_plan j p) as Hwp.
  { intros p w Hw. eapply started_planned; [done|exact I1|by eapply I2]. }
  assert (forall p w w' f f' s C b b', st = TState s (t_work st) C f b -> st' = TState s (<[p := w']> (t_work st)) C f' b' ->
    t_work st !! p = Some w -> wstep e Rs p w f w' f' -> inv3 ls st') as Hwork.
  { intros p w w' f f' s C b b' E E' Hw Hst. assert (t_fs st = f) as Ef by by rewrite E. clear E. subst st' f.
    pose proof (Hwp p w Hw) as Hp.
    assert (forall q, f' q <> t_fs st q -> touch e p q (t_fs st q) (f' q)) as Ht by (intros q; by eapply worker_touch).
    split; cbn.
    - intros p' v Hv. destruct (decide (p' = p)) as [-> |Hne].
      + rewrite lookup_insert in Hv. injection Hv as <-. eapply wsays_own; [done|by apply G2| | |exact Hst|by apply V1].
        * intros bp Hb Hown. apply (V3 p); [done|by apply (I2 p w)|done|done].
        * intros bp Hb. apply Hkeep; [by apply (fo_cached _ _ _ HF p p)|]. intros p' Hp'. by apply (fo_cached _ _ _ HF p p').
      + rewrite lookup_insert_ne in Hv by done. eapply wsays_same; [|by apply V1]. intros s0.
        eapply (other_slot _ _ p' p); [by eapply Hwp|done|done|done].
    - intros p' c Hc. destruct (V2 p' c Hc) as [H|H]; [by left|right]. eapply told_same; [|done].
      eapply (other_slot _ _ p' p); [|done| |done].
      + apply Hfp. by exists (ROk c).
      + intros ->. by apply (I2 p w Hw) in Hc.
    - intros p' bp Hp' Hn Hb Hown. rewrite <- (V3 p' bp Hp' Hn Hb Hown). by eapply (place_worker p' p).
    - intros p' Hp' Hn. rewrite <- (V4 p' Hp' Hn). eapply (other_slot _ _ p' p []); [done|done| |done].
      intros ->. apply Hn. by apply (I2 p w). }
  destruct Hs as [s l s' W C f Hst Hpl|s p s' W C f Hst|s p r s' W C f code err b Hw Hr Hst|s p w w' W C f f' Hw Hst|
                  s p w W C f Hw Hst|s p k c x x' W C f f' Hw Hc Hst|s p ball ok W C1 C2 f f' Hst];
    cbn [t_sched t_work t_copies t_fs] in *.
  - split; cbn; try done.
    + intros p c Hc. apply elem_snoc in Hc as [Hc|Hc]; [by eapply V2|]. by rewrite <- Hc in Hpl.
    + intros p bp Hp Hn. apply V3; [done|]. intros r Hr. apply (Hn r). apply elem_snoc. by left.
    + intros p Hp Hn. apply V4; [done|]. intros H. by apply Hn, started_snoc_sub.
  - assert (execution j (initial j) (ls ++ [Start p])%list s') as Hex by by econstructor.
    assert (~ started ls p) as Hns.
    { intros Hs. destruct (start_once j Hj _ _ ls [] p Hex eq_refl) as (K & _). by apply K. }
    assert (in_plan j p) as Hp.
    { eapply started_planned; [done|exact Hex|]. unfold started. apply elem_snoc. by right. }
    split; cbn; try done.
    + intros p' w Hw. destruct (decide (p' = p)) as [-> |Hne].
      * rewrite lookup_insert in Hw. injection Hw as <-. cbn. by apply V4.
      * rewrite lookup_insert_ne in Hw by done. by apply V1.
    + intros p' c Hc. apply elem_snoc in Hc as [Hc|Hc]; [by eapply V2|done].
    + intros p' bp Hp' Hn. apply V3; [done|]. intros r Hr. apply (Hn r). apply elem_snoc. by left.
    + intros p' Hp' Hn. apply V4; [done|]. intros H. by apply Hn, started_snoc_sub.
  - split; cbn; try done.
    + intros p' w Hw'. apply lookup_delete_Some in Hw' as [Hne Hw']. by apply V1.
    + intros p' c Hc. apply elem_snoc in Hc as [Hc|Hc]; [by eapply V2|]. injection Hc as -> <-.
      apply (V1 p) in Hw. cbn in Hw. apply Hw. by inversion Hr.
    + intros p' bp Hp' Hn. apply V3; [done|]. intros r' Hr'. apply (Hn r'). apply elem_snoc. by left.
    + intros p' Hp' Hn. apply V4; [done|]. intros H. by apply Hn, started_snoc_sub.
  - rewrite app_nil_r. by eapply Hwork.
  - rewrite app_nil_r. by split.
  - rewrite app_nil_r. eapply Hwork; [done..|]. by eapply orphan_step.
  - rewrite app_nil_r. destruct (I3 p ball ok) as (Hp & [r Hr] & Hb); [apply elem_of_app; right; by left|].
    assert (forall p' s0, f' (lib ++ p' :: s0)%list = f (lib ++ p' :: s0)%list) as Hl.
    { intros p' s0. eapply (copy_lib e j name ds Ho p ball); [done|done|exact Hst|by eexists]. }
    split; cbn.
    + intros p' w Hw. eapply wsays_same; [intros s0; apply Hl|by apply V1].
    + intros p' c Hc. destruct (V2 p' c Hc) as [H|H]; [by left|right]. eapply told_same; [apply Hl|done].
    + intros p' bp Hp' Hn Hbp Hown. rewrite <- (V3 p' bp Hp' Hn Hbp Hown). eapply (place_copy p' p); [done|done| |exact Hb|exact Hst|done|done].
      intros ->. by apply (Hn r).
    + intros p' Hp' Hn. rewrite <- (V4 p' Hp' Hn). apply Hl.
Qed.

Lemma together_inv3 ls st : together e Rs j (tinitial _ j f0) ls st -> inv3 ls st.
Proof.
  induction 1 as [|ls s' l s'' H IH Hs].
  - split; cbn; try done. intros p c Hc. by apply elem_of_nil in Hc.
  - eapply inv3_step; [| | |exact IH|exact Hs].
    + by eapply together_inv.
    + by eapply together_inv2.
    + intros q. by eapply together_keeps.
Qed.

End stamped.

Lemma told_tells e j f0 p g : told e j f0 p g -> tells e j f0 g p.
Proof.
  intros (ty & Hs & Hk). exists ty. split; [done|]. split; [destruct Hk as [[-> _]|[Hk _]]; [by left|by right]|].
  intros bp Hb. destruct Hk as [[-> Hk]|[Hk Hn]].
  - split; [done|]. intros Hf Hown. by destruct (Hk bp Hb Hown).
  - split; [|done]. intros Hf. by destruct Hf; apply Hn.
Qed.

(** ** Tarballs *)

Section balls.
Context (R : rprog) (name : list string -> string) (s : surroundings) (pkgr : string) (lib : list string).
Hypothesis HR : r_only R (fun _ => name).
Hypothesis HD : r_describes R name (s_read s).

Lemma additional_says l : forall f f' t, installable (fun _ => name) lib l -> (forall p a, (p, a) ∈ l -> f (ad_path a) <> None) ->
  install_additional R s pkgr lib l f = (false, f', t) -> forall p a, (p, a) ∈ l ->
  says f' lib p pkgr "source" (path_text (ad_path a)) "IndividualPackage".
Proof.
  induction l as [|[p a] l IH]; intros f f' t Hi Hs; cbn [install_additional]; [intros _ p a H; by apply elem_of_nil in H|].
  destruct (install _ _ _ _ _ _ _ f) as [[[code e] f1] t1] eqn:E.
  destruct (install_additional R s pkgr lib l f1) as [[es f2] t2] eqn:E2. intros [= He <- <-].
  apply orb_false_iff in He as [-> ->].
  pose proof (installable_tail _ _ _ _ _ Hi) as Ht. intros q b Hq. apply elem_of_cons in Hq as [[= -> ->]|Hq].
  2: { eapply (IH f1 f2 t2 Ht); [|exact E2|exact Hq]. intros q' b' Hq'.
       rewrite (source_kept R (fun _ => name) s pkgr lib HR _ _ _ _ _ _ _ _ _ _ Hi Hq' E). apply (Hs q' b'). by right. }
  destruct (in_names _ _ _ Hi p a) as [K1 K2]; [by left|].
  pose proof (Hs p a ltac:(by left)) as Hsrc. pose proof E as E0. unfold install, fs_exists in E0.
  destruct (f (ad_path a)) as [nd|]; [|done]. cbn [negb] in E0.
  destruct (R _ f) as [code' g] eqn:ER. destruct (Z.eqb_spec code' 0) as [->|]; [|congruence].
  apply HD in ER as (t & lines & D1 & D2). cbn [rc_library rc_source] in D1. rewrite (K2 f) in D1.
  pose proof (write_says s (additional_request lib pkgr p a) lib g t lines K1 D1 D2) as K.
  assert (write_description s (additional_request lib pkgr p a) lib g = f1) as Ef by congruence. rewrite Ef in K.
  eapply says_same; [|exact K].
  destruct (decide (f2 (lib ++ [p; "DESCRIPTION"])%list = f1 (lib ++ [p; "DESCRIPTION"])%list)) as [|Hne]; [done|exfalso].
  destruct (additional_frame R (fun _ => name) s pkgr lib HR l f1 _ f2 t2 _ Ht E2 Hne) as (q & b & Hq & [[z Hc]|[[z Hc]|Hc]]).
  - rewrite <- app_assoc in Hc. apply app_inv_head in Hc. injection Hc as -> _.
    pose proof (in_distinct _ _ _ Hi) as Hnd. cbn in Hnd. apply NoDup_cons_1_1 in Hnd.
    apply Hnd, elem_of_list_fmap. by exists (q, b).
  - rewrite <- app_assoc in Hc. apply app_inv_head in Hc. injection Hc as -> _. by apply (lock_not_name _ q) in K1.
  - destruct (in_library _ _ _ Hi q b ltac:(by right)) as [L1 L2].
    assert (in_dir lib (lib ++ [p; "DESCRIPTION"])%list) as Hl by (by exists [p; "DESCRIPTION"]).
    destruct (in_dir_meet _ _ _ Hc Hl); done.
Qed.
End balls.
