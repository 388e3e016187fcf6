(** Rollback, success, interruption. *)
From stdpp Require Import strings list gmap.
From Coq Require Import Ascii ZArith Lia.
From Verif.model Require Import GoStr Desc Pacman Graph Fs Rollback.
From Verif.spec Require Import LibSpec.
From Verif.proofs Require Import GoStrLemmas RepoProofs GraphProofs PlanProofs FsProofs RollbackProofs RunProofs.

Local Open Scope string_scope.

Section run.
  Context (c : run_config) (i : run_input) (sc : path -> Prop) (w : run_world) (f : fsys).
  Context (Hok : run_ok c i f) (Hw : world_ok c i sc w f) (Hc : ip_create_library (ri_plan i) = false).

  Notation lib := (rc_library c).
  Notation active p := (lib ++ [p])%list.
  Notation backup p := (lib ++ [backup_of p])%list.
  Notation Su := (staged_updates c i).
  Notation So := (staged_overwrites i).
  Notation all := (required i).
  Notation add := (ri_additional i).
  Notation f1 := (run_ops (prepare_ops c i) f).
  Notation f2 := (rw_install w f1).

  Lemma prep_ops : prepare_ops c i = stage lib (Su ++ So).
  Proof. rewrite (prepare_eq c i f Hok), Hc. done. Qed.

  Lemma lib_dir : f lib = Some Dir.
  Proof.
    destruct (f lib) as [[x|]|] eqn:E; [..|done|].
    - exfalso. assert (ip_create_library (ri_plan i) = true); [|congruence].
      apply (ro_create _ _ _ Hok). by rewrite E.
    - exfalso. assert (ip_create_library (ri_plan i) = true); [|congruence].
      apply (ro_create _ _ _ Hok). by rewrite E.
  Qed.

  Lemma f1_lib : f1 lib = Some Dir.
  Proof. rewrite prep_ops, stage_lib; [apply lib_dir|]. apply (names_replaced c i f Hok). Qed.

  Lemma replaced_name p : replaced c i p -> r_name p.
  Proof. intros H. apply (ro_names _ _ _ Hok). by eapply replaced_all. Qed.

  Lemma replaced_dir p : replaced c i p -> f (active p) = Some Dir.
  Proof. intros H. apply (ro_scan _ _ _ Hok). by eapply replaced_pre. Qed.

  Lemma kept_start p : replaced c i p -> f (backup p) = None -> kept lib f f p.
  Proof. intros H Hb. left. split; [done|]. apply tree_none; [apply (ro_tree _ _ _ Hok)|done]. Qed.

  Lemma f1_staged p : replaced c i p -> f (backup p) = None -> staged lib f f1 p.
  Proof.
    intros H Hb. rewrite prep_ops. apply stage_kept.
    - by apply replaced_name.
    - apply (names_replaced c i f Hok).
    - apply lib_dir.
    - by apply replaced_dir.
    - by apply kept_start.
    - by apply (replaced_elem c i f Hok).
  Qed.

  Lemma f1_other x s : ~ replaced c i x -> (forall p, replaced c i p -> x <> backup_of p) ->
    f1 (lib ++ x :: s)%list = f (lib ++ x :: s)%list.
  Proof.
    intros H1 H2. rewrite prep_ops. apply stage_other.
    - intros H. by apply H1, (replaced_elem c i f Hok).
    - intros p Hp. by apply H2, (replaced_elem c i f Hok).
  Qed.

  Lemma frame_slot g h x s : ~ sc (lib ++ x :: s)%list -> install_frame lib sc all add g h -> x ∉ all ->
    h (lib ++ x :: s)%list = g (lib ++ x :: s)%list.
  Proof.
    intros Hsc [H _] Hx. apply H; [done|]. intros p Hp [t E]. rewrite slot_eq in E. apply app_cons_inj in E as [-> _]. done.
  Qed.

  Lemma frame_lib g h : install_frame lib sc all add g h -> h lib = g lib.
  Proof.
    intros [H _]. apply H.
    - intros Hs. apply Hw in Hs as [Hs _]. apply Hs. exists []. by rewrite app_nil_r.
    - intros p Hp [t E]. rewrite slot_eq in E. by apply lib_neq in E.
  Qed.

  Lemma scratch_backup p s : ~ sc (lib ++ backup_of p :: s)%list.
  Proof. intros H. apply Hw in H as [_ H]. by destruct (H (backup_of p) s eq_refl) as [_ K]; destruct (K p). Qed.

  Lemma scratch_name p s : r_name p -> ~ sc (lib ++ p :: s)%list.
  Proof. intros Hp H. apply Hw in H as [_ H]. by destruct (H p s eq_refl). Qed.

  Lemma backup_not_all p : backup_of p ∉ all.
  Proof. intros H. apply (ro_names _ _ _ Hok) in H. by apply (name_not_backup _ p) in H. Qed.

  Lemma f2_lib : f2 lib = Some Dir.
  Proof. rewrite (frame_lib f1 f2); [apply f1_lib|]. apply Hw. Qed.

  (** ** Interruption before the outcome is known *)

  Lemma interrupted_safe f' p :
    interrupted lib sc all add (prepare_ops c i ++ [OInstall (rw_install w)]) f f' ->
    replaced c i p -> f (backup p) = None ->
    same_dir lib p f' p f \/ same_dir lib (backup_of p) f' p f.
  Proof.
    intros Hi Hp Hb. rewrite interrupted_app in Hi. destruct Hi as [Hi|Hi].
    - rewrite prep_ops in Hi. apply stage_interrupted in Hi as (l1 & l2 & El & ->).
      assert (kept lib f (run_ops (stage lib l1) f) p) as [[K _]|[_ K]]; [|by left|by right].
      apply stage_kept; [by apply replaced_name| |apply lib_dir|by apply replaced_dir|by apply kept_start].
      intros q Hq. apply (names_replaced c i f Hok). rewrite El. apply elem_of_app. by left.
    - right. destruct (f1_staged p Hp Hb) as [_ S].
      assert (forall h, install_frame lib sc all add f1 h -> same_dir lib (backup_of p) h p f) as K.
      { intros h Hh s. rewrite (frame_slot f1 h) by (done || apply backup_not_all || apply scratch_backup). apply S. }
      cbn [interrupted interrupted_op exec] in Hi.
      destruct Hi as [->|[Hi|[->|[]]]]; [done|by apply K|]. apply K, Hw.
  Qed.

  (** ** Rollback *)

  Section rollback.
    Context (Hstale : no_stale_backups c i f) (Hnew : new_are_absent c i f).
    Context (Hdisj : forall p, updated c i p -> ~ overwritten i p).

    Notation new := (rp_new (plan_of_run c i)).
    Notation f3 := (run_ops (removals lib new) f2).
    Notation rb1 := (rollback_changed f3 (atts lib Su)).
    Notation f4 := (run_ops rb1.1 f3).
    Notation rb2 := (rollback_changed f4 (atts lib So)).
    Notation f5 := (run_ops rb2.1 f4).

    Lemma nodup_replaced : NoDup (Su ++ So)%list.
    Proof.
      apply NoDup_app. split; [by eapply nodup_updates|]. split; [|by eapply nodup_overwrites].
      intros p H1 H2. apply (Hdisj p); [by apply (elem_updates c i)|by apply (elem_overwrites c i f Hok)].
    Qed.

    Lemma f1_tree : tree_ok f1.
    Proof.
      rewrite prep_ops. apply stage_tree.
      - apply (names_replaced c i f Hok).
      - apply lib_dir.
      - apply (ro_tree _ _ _ Hok).
      - apply nodup_replaced.
      - intros p Hp. apply (replaced_elem c i f Hok) in Hp. split; [by apply replaced_dir|by apply Hstale].
    Qed.

    Lemma f2_backup p s : replaced c i p -> f2 (lib ++ backup_of p :: s)%list = f (lib ++ p :: s)%list.
    Proof.
      intros Hp. rewrite (frame_slot f1 f2); [|apply scratch_backup|apply Hw|apply backup_not_all].
      destruct (f1_staged p Hp (Hstale p Hp)) as [_ S]. apply S.
    Qed.

    Lemma f3_slot x s : f3 (lib ++ x :: s)%list = if decide (x ∈ new) then None else f2 (lib ++ x :: s)%list.
    Proof. apply removals_spec. Qed.

    Lemma f3_backup p s : replaced c i p -> f3 (lib ++ backup_of p :: s)%list = f (lib ++ p :: s)%list.
    Proof.
      intros Hp. rewrite f3_slot. destruct (decide _) as [H|_].
      - apply new_elem in H as [H _]. by apply backup_not_all in H.
      - by apply f2_backup.
    Qed.

    Lemma f3_tree : tree_ok f3.
    Proof. apply removals_tree. apply Hw, f1_tree. Qed.

    Lemma f3_lib : f3 lib = Some Dir.
    Proof.
      rewrite (touch_run lib (fun x => x ∈ new)); [apply f2_lib|apply removals_touches|]. intros x s _. apply lib_neq.
    Qed.

    Lemma restore1 :
      rb1.2 = false /\ tree_ok f4 /\ (forall p, p ∈ Su -> restored lib f3 f4 p) /\
      (forall f', interrupted lib sc all add rb1.1 f3 f' -> forall p, p ∈ Su ->
         same_dir lib p f' (backup_of p) f3 \/ same_dir lib (backup_of p) f' (backup_of p) f3).
    Proof.
      destruct (restore_spec lib Su f3) as (R1 & R2 & R3 & R4).
      - by eapply names_updates.
      - apply f3_tree.
      - apply f3_lib.
      - by eapply nodup_updates.
      - intros p Hp. rewrite f3_backup; [|by eapply upd_replaced]. apply replaced_dir. by eapply upd_replaced.
      - split; [done|]. split; [done|]. split; [done|]. intros f'. apply R4.
    Qed.

    Lemma f4_other x s : x ∉ Su -> (forall p, p ∈ Su -> x <> backup_of p) ->
      f4 (lib ++ x :: s)%list = f3 (lib ++ x :: s)%list.
    Proof. intros. by apply restore_other. Qed.

    Lemma f4_over p s : p ∈ So -> f4 (lib ++ backup_of p :: s)%list = f (lib ++ p :: s)%list.
    Proof.
      intros Hp. rewrite f4_other.
      - apply f3_backup. by eapply over_replaced.
      - intros H. apply (names_updates c i f Hok) in H. by apply (name_not_backup _ p) in H.
      - intros q Hq E. apply backup_inj in E as <-. apply (Hdisj p); [by apply (elem_updates c i)|].
        by apply (elem_overwrites c i f Hok).
    Qed.

    Lemma restore2 :
      rb2.2 = false /\ tree_ok f5 /\ (forall p, p ∈ So -> restored lib f4 f5 p) /\
      (forall f', interrupted lib sc all add rb2.1 f4 f' -> forall p, p ∈ So ->
         same_dir lib p f' (backup_of p) f4 \/ same_dir lib (backup_of p) f' (backup_of p) f4).
    Proof.
      destruct (restore_spec lib So f4) as (R1 & R2 & R3 & R4).
      - by eapply names_overwrites.
      - apply restore1.
      - rewrite restore_lib. apply f3_lib.
      - by eapply nodup_overwrites.
      - intros p Hp. rewrite f4_over by done. apply replaced_dir. by eapply over_replaced.
      - split; [done|]. split; [done|]. split; [done|]. intros f'. apply R4.
    Qed.

    Lemma f5_other x s : x ∉ So -> (forall p, p ∈ So -> x <> backup_of p) ->
      f5 (lib ++ x :: s)%list = f4 (lib ++ x :: s)%list.
    Proof. intros. by apply restore_other. Qed.

    Lemma disjoint_lists p : p ∈ Su -> p ∉ So.
    Proof.
      intros H1 H2. apply (Hdisj p); [by apply (elem_updates c i)|by apply (elem_overwrites c i f Hok)].
    Qed.

    (** After rollback everything is as before. *)
    Lemma f5_replaced p : replaced c i p -> same_dir lib p f5 p f /\ no_dir lib (backup_of p) f5.
    Proof.
      intros Hp. pose proof (replaced_name p Hp) as Hn.
      apply (replaced_elem c i f Hok), elem_of_app in Hp as [Hp|Hp].
      - assert (p ∉ So) as Ho by by apply disjoint_lists.
        destruct restore1 as (_ & _ & R & _). destruct (R p Hp) as [R1 R2]. split; intros s.
        + rewrite f5_other; [|done|intros q Hq; by apply name_not_backup]. rewrite (R1 s).
          apply f3_backup. by eapply upd_replaced.
        + rewrite f5_other; [by apply R2| |].
          * intros H. apply (names_overwrites c i f Hok) in H. by apply (name_not_backup _ p) in H.
          * intros q Hq E. apply backup_inj in E as ->. done.
      - destruct restore2 as (_ & _ & R & _). destruct (R p Hp) as [R1 R2]. split; intros s.
        + rewrite (R1 s). by apply f4_over.
        + apply R2.
    Qed.

    Lemma rolled_back q : ~ sc q -> f5 q = f q.
    Proof.
      intros Hsc. destruct (slot_case lib q) as [(x & s & ->)|Hq].
      - destruct (decide (x ∈ (Su ++ So)%list)) as [Hx|Hx].
        { apply (replaced_elem c i f Hok) in Hx. by apply f5_replaced. }
        assert (~ replaced c i x) as Hx'.
        { intros H. by apply Hx, (replaced_elem c i f Hok). }
        destruct (decide (x ∈ backup_of <$> (Su ++ So)%list)) as [Hb|Hb].
        { apply elem_of_list_fmap in Hb as (p & -> & Hp). apply (replaced_elem c i f Hok) in Hp. destruct (f5_replaced p Hp) as [_ R]. rewrite (R s).
          symmetry. apply tree_none; [apply (ro_tree _ _ _ Hok)|]. by apply Hstale. }
        assert (forall p, replaced c i p -> x <> backup_of p) as Hb'.
        { intros p Hp E. apply Hb, elem_of_list_fmap. exists p. split; [done|]. by apply (replaced_elem c i f Hok). }
        rewrite elem_of_app in Hx.
        rewrite f5_other; [|naive_solver|intros p Hp; apply Hb'; by eapply over_replaced].
        rewrite f4_other; [|naive_solver|intros p Hp; apply Hb'; by eapply upd_replaced].
        rewrite f3_slot. destruct (decide (x ∈ new)) as [Hn|Hn].
        { apply new_elem in Hn as [Hn1 Hn2]. symmetry. apply tree_none; [apply (ro_tree _ _ _ Hok)|].
          by apply Hnew. }
        destruct (decide (x ∈ all)) as [Ha|Ha].
        + rewrite new_elem in Hn.
          assert (is_Some (ri_preinstalled i !! x)) as Hpre.
          { destruct (ri_preinstalled i !! x) eqn:E; [by eexists|]. naive_solver. }
          assert (x ∉ add) as Hadd. { intros H. apply Hx'. right. by split. }
          destruct Hw as (_ & [_ Hskip] & _). rewrite (Hskip x Ha Hadd).
          * by apply f1_other.
          * rewrite f1_other by done. by apply (ro_scan _ _ _ Hok).
        + rewrite (frame_slot f1 f2); [|done|apply Hw|done]. by apply f1_other.
      - rewrite (restore_frame lib So f4) by (intros; apply Hq).
        rewrite (restore_frame lib Su f3) by (intros; apply Hq).
        rewrite (touch_run lib (fun x => x ∈ new)); [|apply removals_touches|intros x s _; apply Hq].
        rewrite (install_untouched c i sc add f1 f2); [|done|intros x s _; apply Hq|apply Hw].
        rewrite prep_ops. apply stage_frame; intros; apply Hq.
    Qed.

    Context (Hroll : rc_no_rollback c = false) (Hfail : failed w) (Hdl : rw_download_fails w = false).

    Lemma rollback_ops_eq : rollback_ops c i w f2 = (removals lib new ++ rb1.1 ++ rb2.1)%list.
    Proof.
      unfold rollback_ops. rewrite Hroll, Hc. cbn [negb andb].
      replace (rw_plan_error w || rw_additional_error w) with true
        by (symmetry; apply orb_true_iff; exact Hfail).
      rewrite (rollback_eq c i f Hok) by done. cbv zeta.
      destruct restore1 as [-> _]. done.
    Qed.

    Lemma run_rolled_back :
      (forall q, ~ sc q -> run_final c i w f q = f q) /\ rt_outcome (r_install c i w f) = Exit 0.
    Proof.
      unfold run_final, r_install. rewrite Hc, Hdl. cbn [andb rt_outcome].
      split; [|done]. unfold run_changes. cbn [rt_prepare rt_install rt_rollback rt_cleanup].
      rewrite !run_ops_app. cbn [run_ops fold_left exec]. fold (run_ops (prepare_ops c i) f).
      rewrite rollback_ops_eq, !run_ops_app.
      assert (cleanup_ops c i f5 = []) as ->; [|apply rolled_back].
      unfold cleanup_ops. rewrite (plan_updates c i f Hok), (plan_additional c i f Hok).
      rewrite (delete_none lib Su).
      - cbn. apply delete_none. intros p Hp.
        destruct (f5_replaced p) as [_ R]; [by eapply over_replaced|]. apply R.
      - intros p Hp. destruct (f5_replaced p) as [_ R]; [by eapply upd_replaced|]. apply R.
    Qed.

    (** Interruption during rollback. *)
    Lemma rollback_safe f' p :
      interrupted lib sc all add (rollback_ops c i w f2) f2 f' -> replaced c i p ->
      same_dir lib p f' p f \/ same_dir lib (backup_of p) f' p f.
    Proof.
      rewrite rollback_ops_eq. intros Hi Hp. pose proof (replaced_name p Hp) as Hn.
      assert (Sn : p ∉ new).
      { intros H. apply new_elem in H as [_ H]. apply (replaced_pre c i f Hok) in Hp. rewrite H in Hp. by destruct Hp. }
      assert (Sb : backup_of p ∉ new).
      { intros H. apply new_elem in H as [H _]. by apply backup_not_all in H. }
      assert (Dec : p ∈ Su \/ p ∈ So).
      { by apply (replaced_elem c i f Hok), elem_of_app in Hp. }
      rewrite interrupted_app in Hi. destruct Hi as [Hi|Hi].
      { right. intros s. rewrite (touch_interrupted lib (fun x => x ∈ new) sc all add _ _ _ _ (removals_touches lib new)
          ltac:(intros x t Hx E; apply app_cons_inj in E as [<- _]; done) Hi). by apply f2_backup. }
      rewrite interrupted_app in Hi. destruct Hi as [Hi|Hi].
      - destruct Dec as [Hu|Ho].
        + destruct restore1 as (_ & _ & _ & R). destruct (R f' Hi p Hu) as [K|K]; [left|right];
            intros s; rewrite (K s); by apply f3_backup.
        + assert (p ∉ Su) as Hu by (intros H; by apply disjoint_lists in H).
          right. intros s. rewrite (touch_interrupted lib (of_list Su) sc all add rb1.1 f3 f').
          * by apply f3_backup.
          * apply restore_touches.
          * intros x t (q & Hq & [->| ->]) E; apply app_cons_inj in E as [E _].
            -- subst q. apply (names_updates c i f Hok) in Hq. by apply (name_not_backup _ p) in Hq.
            -- apply backup_inj in E as ->. done.
          * done.
      - destruct Dec as [Hu|Ho].
        + left. intros s. assert (p ∉ So) as Ho by by apply disjoint_lists.
          rewrite (touch_interrupted lib (of_list So) sc all add rb2.1 f4 f').
          * destruct restore1 as (_ & _ & R & _). destruct (R p Hu) as [R1 _]. rewrite (R1 s). by apply f3_backup.
          * apply restore_touches.
          * intros x t (q & Hq & [->| ->]) E; apply app_cons_inj in E as [E _].
            -- by subst q.
            -- by apply name_not_backup in E.
          * done.
        + destruct restore2 as (_ & _ & _ & R). destruct (R f' Hi p Ho) as [K|K]; [left|right];
            intros s; rewrite (K s); by apply f4_over.
    Qed.
  End rollback.
End run.
