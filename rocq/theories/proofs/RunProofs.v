(** Whole runs on a library. *)
From stdpp Require Import strings list gmap.
From Coq Require Import Ascii ZArith Lia.
From Verif.model Require Import GoStr Desc Pacman Graph Fs Rollback.
From Verif.spec Require Import LibSpec.
From Verif.proofs Require Import GoStrLemmas RepoProofs GraphProofs PlanProofs FsProofs RollbackProofs.

Local Open Scope string_scope.

Section more.
  Context (lib : list string).
  Notation active p := (lib ++ [p])%list.
  Notation backup p := (lib ++ [backup_of p])%list.

  (** A package is in place, or it is in its backup directory. *)
  Definition kept (f g : fsys) (p : string) : Prop :=
    (same_dir lib p g p f /\ no_dir lib (backup_of p) g) \/ staged lib f g p.

  Lemma stage_gone l g p : r_name p -> names l -> no_dir lib p g ->
    no_dir lib p (run_ops (stage lib l) g) /\
    forall s, run_ops (stage lib l) g (lib ++ backup_of p :: s)%list = g (lib ++ backup_of p :: s)%list.
  Proof.
    intros Hp. revert g. induction l as [|r l IH]; intros g Hl S; [done|].
    apply names_cons in Hl as [Hr Hl].
    change (run_ops (stage lib (r :: l)) g) with (run_ops (stage lib l) (exec (ORename (active r) (backup r)) g)).
    assert (forall x s, x = p \/ x = backup_of p ->
      exec (ORename (active r) (backup r)) g (lib ++ x :: s)%list = g (lib ++ x :: s)%list) as G.
    { intros x s Hx. cbn [exec]. destruct (decide (r = p)) as [->|Hn].
      - by rewrite rename_missing by apply S.
      - apply rename_out; intros t E; apply app_cons_inj in E as [E _]; destruct Hx as [-> | ->].
        + done.
        + symmetry in E. by apply name_not_backup in E.
        + by apply name_not_backup in E.
        + apply backup_inj in E. done. }
    destruct (IH (exec (ORename (active r) (backup r)) g) Hl) as [I1 I2].
    { intros s. rewrite G by auto. apply S. }
    split; [done|]. intros s. rewrite I2. apply G. auto.
  Qed.

  Lemma stage_kept l f g p : r_name p -> names l -> g lib = Some Dir ->
    f (active p) = Some Dir -> kept f g p ->
    kept f (run_ops (stage lib l) g) p /\ (p ∈ l -> staged lib f (run_ops (stage lib l) g) p).
  Proof.
    intros Hp Hl Hg Hf. revert g Hg. induction l as [|q l IH]; intros g Hg Hk.
    { split; [done|]. intros H. by apply elem_of_nil in H. }
    apply names_cons in Hl as [Hq Hl]. specialize (IH Hl).
    change (run_ops (stage lib (q :: l)) g) with (run_ops (stage lib l) (exec (ORename (active q) (backup q)) g)).
    set (g1 := exec (ORename (active q) (backup q)) g).
    assert (g1 lib = Some Dir) as Hg1.
    { unfold g1. cbn [exec]. rewrite rename_out; [done|..]; intros s; apply lib_neq. }
    assert (staged lib f g1 p -> staged lib f (run_ops (stage lib l) g1) p) as St.
    { intros [S1 S2]. destruct (stage_gone l g1 p Hp Hl S1) as [G1 G2]. split; [done|].
      intros s. by rewrite G2. }
    destruct (decide (q = p)) as [->|Hn].
    - assert (staged lib f g1 p) as S1; [|split; [right|intros _]; by apply St].
      unfold g1. destruct Hk as [[K1 K2]|K].
      + rewrite exec_stage; [|done|done|by rewrite (K1 [])|apply K2]. split; intros s; rewrite move_slot.
        * destruct (decide _) as [E|_]; [by apply name_not_backup in E|]. by destruct (decide _).
        * destruct (decide _); [|done]. apply K1.
      + cbn [exec]. rewrite rename_missing by apply K. done.
    - assert (forall x s, x = p \/ x = backup_of p -> g1 (lib ++ x :: s)%list = g (lib ++ x :: s)%list) as G.
      { intros x s Hx. unfold g1. cbn [exec].
        apply rename_out; intros t E; apply app_cons_inj in E as [E _]; destruct Hx as [-> | ->].
        - done.
        - symmetry in E. by apply name_not_backup in E.
        - by apply name_not_backup in E.
        - apply backup_inj in E. done. }
      destruct (IH g1 Hg1) as [I1 I2].
      { destruct Hk as [[K1 K2]|[K1 K2]]; [left|right]; (split; intros s; rewrite G by auto; auto). }
      split; [done|]. intros H. apply elem_of_cons in H as [->|H]; [done|]. by apply I2.
  Qed.

  Lemma stage_interrupted sc all add l f f' : interrupted lib sc all add (stage lib l) f f' ->
    exists l1 l2, l = (l1 ++ l2)%list /\ f' = run_ops (stage lib l1) f.
  Proof.
    revert f. induction l as [|p l IH]; intros f; cbn [stage map interrupted].
    - intros [->|[]]. by exists [], [].
    - intros [->|[[]|H]]; [by exists [], (p :: l)|].
      destruct (IH _ H) as (l1 & l2 & -> & ->). by exists (p :: l1), l2.
  Qed.

  Lemma stage_tree l f : names l -> f lib = Some Dir -> tree_ok f -> NoDup l ->
    (forall p, p ∈ l -> f (active p) = Some Dir /\ f (backup p) = None) -> tree_ok (run_ops (stage lib l) f).
  Proof.
    revert f. induction l as [|p l IH]; intros f Hn Hl T Hd Hf; [done|].
    apply names_cons in Hn as [Hp Hn]. apply NoDup_cons in Hd as [Hd1 Hd2].
    change (run_ops (stage lib (p :: l)) f) with (run_ops (stage lib l) (exec (ORename (active p) (backup p)) f)).
    destruct (Hf p) as [Ha Hb]; [by left|]. rewrite exec_stage by done. apply IH; try done.
    - rewrite move_out; [done|..]; intros s; apply lib_neq.
    - apply move_tree; [done|by rewrite removelast_last|].
      rewrite removelast_last. intros [s E]. rewrite slot_eq in E. by apply lib_neq in E.
    - intros q Hq. assert (q <> p) by (intros ->; done). destruct (Hf q) as [Qa Qb]; [by right|].
      assert (r_name q) by by apply Hn. rewrite !move_slot.
      destruct (decide (q = backup_of p)) as [E|_]; [by apply name_not_backup in E|].
      destruct (decide (q = p)); [done|].
      destruct (decide (backup_of q = backup_of p)) as [E|_]; [by apply backup_inj in E|].
      destruct (decide (backup_of q = p)) as [E|_]; [symmetry in E; by apply name_not_backup in E|]. done.
  Qed.

  (** ** Removing new packages *)

  Definition removals (l : list string) : list op := map (fun p => ORemoveAll (active p)) l.

  Lemma removals_spec l f x s :
    run_ops (removals l) f (lib ++ x :: s)%list = if decide (x ∈ l) then None else f (lib ++ x :: s)%list.
  Proof.
    revert f. induction l as [|p l IH]; intros f.
    { cbn. destruct (decide _) as [H|_]; [by apply elem_of_nil in H|done]. }
    change (run_ops (removals (p :: l)) f) with (run_ops (removals l) (remove_all (active p) f)).
    rewrite IH, remove_slot. destruct (decide (x ∈ l)), (decide (x ∈ p :: l)), (decide (p = x)); set_solver.
  Qed.

  Lemma removals_tree l f : tree_ok f -> tree_ok (run_ops (removals l) f).
  Proof.
    revert f. induction l as [|p l IH]; intros f T; [done|].
    change (run_ops (removals (p :: l)) f) with (run_ops (removals l) (remove_all (active p) f)).
    by apply IH, remove_tree.
  Qed.

  Lemma removals_touches l : Forall (touches lib (fun x => x ∈ l)) (removals l).
  Proof.
    apply Forall_forall. intros o Ho. unfold removals in Ho. apply elem_of_list_fmap in Ho as (p & -> & Hp).
    by exists p.
  Qed.

  (** ** Cleaning up *)

  Lemma delete_spec l f :
    Forall (touches lib (of_list l)) (delete_backups f (atts lib l)) /\
    (tree_ok f -> forall p, p ∈ l -> no_dir lib (backup_of p) (run_ops (delete_backups f (atts lib l)) f)) /\
    (forall q, (forall p s, p ∈ l -> q <> (lib ++ backup_of p :: s)%list) ->
       run_ops (delete_backups f (atts lib l)) f q = f q).
  Proof.
    revert f. induction l as [|p l IH]; intros f.
    { split; [constructor|]. split; [intros _ p H; by apply elem_of_nil in H|done]. }
    cbn [atts map delete_backups ua_backup]. fold (atts lib l).
    assert (forall x, of_list l x -> of_list (p :: l) x) as M.
    { intros x (r & Hr & Hx). exists r. split; [by right|done]. }
    destruct (fs_exists f (backup p)) eqn:E.
    - destruct (IH (remove_all (backup p) f)) as (I1 & I2 & I3).
      change (run_ops (ORemoveAll (backup p) :: delete_backups (remove_all (backup p) f) (atts lib l)) f)
        with (run_ops (delete_backups (remove_all (backup p) f) (atts lib l)) (remove_all (backup p) f)).
      split; [|split].
      + constructor; [|eapply Forall_impl; [exact I1|intros o; by apply touches_mono]].
        exists (backup_of p). split; [done|]. exists p. split; [by left|by right].
      + intros T q Hq. destruct (decide (q ∈ l)) as [Hql|Hql]; [apply I2; [by apply remove_tree|done]|].
        apply elem_of_cons in Hq as [->|?]; [|done].
        intros s. rewrite I3.
        * rewrite remove_slot. by destruct (decide _).
        * intros r t Hr E'. apply app_cons_inj in E' as [E' _]. apply backup_inj in E' as ->. done.
      + intros q Hq. rewrite I3; [|intros; apply Hq; by right]. apply remove_out. intros s. apply Hq. by left.
    - destruct (IH f) as (I1 & I2 & I3). split; [|split].
      + eapply Forall_impl; [exact I1|intros o; by apply touches_mono].
      + intros T q Hq. destruct (decide (q ∈ l)) as [Hql|Hql]; [by apply I2|].
        apply elem_of_cons in Hq as [->|?]; [|done]. intros s. rewrite I3.
        * apply tree_none; [done|]. unfold fs_exists in E. by destruct (f (backup p)).
        * intros r t Hr E'. apply app_cons_inj in E' as [E' _]. apply backup_inj in E' as ->. done.
      + intros q Hq. apply I3. intros. apply Hq. by right.
  Qed.

  Lemma delete_none l f : (forall p, p ∈ l -> f (backup p) = None) -> delete_backups f (atts lib l) = [].
  Proof.
    induction l as [|p l IH]; intros H; [done|]. cbn [atts map delete_backups ua_backup].
    unfold fs_exists. rewrite (H p) by (by left). apply IH. intros q Hq. apply H. by right.
  Qed.
End more.

(** ** Runs *)

Lemma fold_filter_elem {A} (P : A -> bool) (l : list A) x : x ∈ List.filter P l <-> x ∈ l /\ P x = true.
Proof. rewrite !elem_of_list_In. apply filter_In. Qed.

Section run.
  Context (c : run_config) (i : run_input) (f : fsys).
  Context (Hok : run_ok c i f).

  Notation lib := (rc_library c).
  Notation Su := (staged_updates c i).
  Notation So := (staged_overwrites i).

  Lemma elem_updates p : p ∈ Su <-> updated c i p.
  Proof.
    unfold staged_updates, updated, updates_of. destruct (rc_no_update c).
    - split; [intros H; by apply elem_of_nil in H|intros [? _]; done].
    - rewrite elem_of_list_In, in_map_iff. split.
      + intros (x & <- & Hx). apply elem_of_list_In, fold_filter_elem in Hx as [H1 H2]. apply existsb_elem in H2.
        split; [done|]. split; [done|]. by exists x.
      + intros (_ & H1 & x & H2 & <-). exists x. split; [done|]. apply elem_of_list_In, fold_filter_elem.
        split; [done|]. by apply existsb_elem.
  Qed.

  Lemma elem_overwrites p : p ∈ So <-> overwritten i p.
  Proof.
    unfold staged_overwrites, overwrites_of, overwritten. rewrite fold_filter_elem, (ro_additional _ _ _ Hok).
    destruct (ri_preinstalled i !! p); split; intros [? H]; split; try done. by destruct H.
  Qed.

  Lemma additional_all p : p ∈ ri_additional i -> p ∈ required i.
  Proof. unfold required. intros H. rewrite !elem_of_app. auto. Qed.

  Lemma names_updates : names Su.
  Proof. intros p H. apply elem_updates in H as (_ & H & _). by apply (ro_names _ _ _ Hok). Qed.

  Lemma names_overwrites : names So.
  Proof. intros p H. apply elem_overwrites in H as (H & _). by apply (ro_names _ _ _ Hok), additional_all. Qed.

  Lemma names_replaced : names (Su ++ So)%list.
  Proof. intros p H. apply elem_of_app in H as [H|H]; [by apply names_updates|by apply names_overwrites]. Qed.

  Lemma replaced_elem p : p ∈ (Su ++ So)%list <-> replaced c i p.
  Proof. rewrite elem_of_app, elem_updates, elem_overwrites. done. Qed.

  Lemma replaced_pre p : replaced c i p -> is_Some (ri_preinstalled i !! p).
  Proof. intros [(_ & _ & x & Hx & <-)|[_ H]]; [by apply (ro_outdated _ _ _ Hok)|done]. Qed.

  Lemma replaced_all p : replaced c i p -> p ∈ required i.
  Proof. intros [(_ & H & _)|[H _]]; [done|by apply additional_all]. Qed.

  Lemma nodup_updates : NoDup Su.
  Proof.
    unfold staged_updates, updates_of. destruct (rc_no_update c); [constructor|].
    pose proof (ro_outdated_nodup _ _ _ Hok) as H. revert H.
    induction (ip_outdated (ri_plan i)) as [|x l IH]; [done|]. cbn [map List.filter].
    intros H. apply NoDup_cons in H as [H1 H2]. destruct (existsb _ _); [|by apply IH].
    cbn [map]. apply NoDup_cons. split; [|by apply IH]. intros H. apply H1. revert H.
    rewrite !elem_of_list_In, !in_map_iff. intros (y & Hy & Hin). exists y. split; [done|].
    by apply filter_In in Hin as [? _].
  Qed.

  Lemma nodup_overwrites : NoDup So.
  Proof.
    unfold staged_overwrites, overwrites_of. apply filter_bool_nodup.
    rewrite (ro_additional _ _ _ Hok). apply (ro_additional_nodup _ _ _ Hok).
  Qed.

  Lemma tag_ops l : names l -> map (fun p => (tag_old lib p).1) l = stage lib l.
  Proof.
    intros H. apply map_ext_in. intros p Hp. apply elem_of_list_In, H in Hp. cbn [tag_old fst].
    by rewrite join_name, join_backup.
  Qed.

  Lemma tag_atts l : names l -> map (fun p => (tag_old lib p).2) l = atts lib l.
  Proof.
    intros H. apply map_ext_in. intros p Hp. apply elem_of_list_In, H in Hp. cbn [tag_old snd].
    by rewrite join_name, join_backup.
  Qed.

  Lemma prepare_eq : prepare_ops c i =
    ((if ip_create_library (ri_plan i) then [OMkdirAll lib] else []) ++ stage lib (Su ++ So))%list.
  Proof.
    unfold prepare_ops. f_equal. rewrite tag_ops by apply names_updates. rewrite tag_ops by apply names_overwrites.
    unfold stage. by rewrite map_app.
  Qed.

  Lemma plan_updates : rp_updates (plan_of_run c i) = atts lib Su.
  Proof. apply tag_atts, names_updates. Qed.

  Lemma plan_additional : rp_additional (plan_of_run c i) = atts lib So.
  Proof. apply tag_atts, names_overwrites. Qed.

  Lemma new_elem p : p ∈ rp_new (plan_of_run c i) <-> p ∈ required i /\ ri_preinstalled i !! p = None.
  Proof.
    cbn [plan_of_run rp_new]. unfold new_packages. rewrite fold_filter_elem.
    destruct (ri_preinstalled i !! p); split; intros [? ?]; done.
  Qed.

  Lemma new_removals :
    map (fun p => ORemoveAll (join_path lib p)) (rp_new (plan_of_run c i)) = removals lib (rp_new (plan_of_run c i)).
  Proof.
    apply map_ext_in. intros p Hp. apply elem_of_list_In, new_elem in Hp as [Hp _].
    rewrite join_name; [done|]. by apply (ro_names _ _ _ Hok).
  Qed.

  (** Nothing is replaced in a library that is to be created. *)
  Lemma create_nothing : ip_create_library (ri_plan i) = true -> Su = [] /\ So = [] /\ ri_preinstalled i = ∅.
  Proof.
    intros Hc. apply (ro_create _ _ _ Hok) in Hc.
    assert (forall p, ri_preinstalled i !! p = None) as N.
    { intros p. apply eq_None_not_Some. intros H. apply (ro_scan _ _ _ Hok) in H.
      apply Hc, (ro_tree _ _ _ Hok _ p). congruence. }
    assert (forall p, ~ replaced c i p) as R.
    { intros p H. apply replaced_pre in H. rewrite N in H. by destruct H. }
    split; [|split].
    - apply elem_of_nil_inv. intros p Hp. apply (R p), replaced_elem, elem_of_app. by left.
    - apply elem_of_nil_inv. intros p Hp. apply (R p), replaced_elem, elem_of_app. by right.
    - by apply map_eq.
  Qed.

  (** The names a run works on. *)
  Definition involved (x : string) : Prop :=
    x ∈ required i \/ exists p, replaced c i p /\ x = backup_of p.

  Lemma of_list_involved l x : (forall p, p ∈ l -> replaced c i p) -> of_list l x -> involved x.
  Proof.
    intros H (p & Hp & [->| ->]); [left; by apply replaced_all, H|right]. exists p. split; [by apply H|done].
  Qed.

  Lemma upd_replaced p : p ∈ Su -> replaced c i p.
  Proof. intros H. apply replaced_elem, elem_of_app. by left. Qed.

  Lemma over_replaced p : p ∈ So -> replaced c i p.
  Proof. intros H. apply replaced_elem, elem_of_app. by right. Qed.

  Lemma stage_touches l : (forall p, p ∈ l -> replaced c i p) -> Forall (touches lib involved) (stage lib l).
  Proof.
    intros H. apply Forall_forall. intros o Ho. unfold stage in Ho. apply elem_of_list_fmap in Ho as (p & -> & Hp).
    exists p, (backup_of p). split; [done|]. split; [done|].
    split; apply (of_list_involved l _ H); exists p; auto.
  Qed.

  Lemma rollback_eq g : ip_create_library (ri_plan i) = false ->
    (rollback g lib false (plan_of_run c i)).1 =
    let ops1 := removals lib (rp_new (plan_of_run c i)) in
    let f1 := run_ops ops1 g in
    let r2 := rollback_changed f1 (atts lib Su) in
    if r2.2 then (ops1 ++ r2.1)%list
    else (ops1 ++ r2.1 ++ (rollback_changed (run_ops r2.1 f1) (atts lib So)).1)%list.
  Proof.
    intros _. unfold rollback. rewrite plan_updates, plan_additional, new_removals. cbv zeta.
    destruct (rollback_changed _ (atts lib Su)) as [ops2 e2]. cbn [fst snd].
    destruct e2; [done|]. by destruct (rollback_changed _ (atts lib So)).
  Qed.

  Lemma rollback_touches w g : ip_create_library (ri_plan i) = false ->
    Forall (touches lib involved) (rollback_ops c i w g).
  Proof.
    intros Hc. unfold rollback_ops. destruct (negb _ && _); [|constructor]. rewrite Hc, rollback_eq by done. cbv zeta.
    assert (Forall (touches lib involved) (removals lib (rp_new (plan_of_run c i)))) as F1.
    { eapply Forall_impl; [apply removals_touches|]. intros o. apply touches_mono.
      intros x Hx. apply new_elem in Hx as [Hx _]. by left. }
    assert (forall h l, (forall p, p ∈ l -> replaced c i p) ->
      Forall (touches lib involved) (rollback_changed h (atts lib l)).1) as F2.
    { intros h l Hl. eapply Forall_impl; [apply restore_touches|]. intros o. apply touches_mono.
      intros x. by apply of_list_involved. }
    destruct (rollback_changed _ (atts lib Su)).2.
    - apply Forall_app. split; [done|]. apply F2, upd_replaced.
    - apply Forall_app. split; [done|]. apply Forall_app. split; [apply F2, upd_replaced|apply F2, over_replaced].
  Qed.

  Lemma cleanup_touches g : Forall (touches lib involved) (cleanup_ops c i g).
  Proof.
    unfold cleanup_ops. rewrite plan_updates, plan_additional. apply Forall_app. split.
    - eapply Forall_impl; [apply delete_spec|]. intros o. apply touches_mono. intros x.
      apply of_list_involved, upd_replaced.
    - eapply Forall_impl; [apply delete_spec|]. intros o. apply touches_mono. intros x.
      apply of_list_involved, over_replaced.
  Qed.

  (** Paths outside the directories a run works on. *)
  Definition untouched (q : list string) : Prop := forall x s, involved x -> q <> (lib ++ x :: s)%list.

  Lemma install_untouched sc add g h q : ~ sc q -> untouched q -> install_frame lib sc (required i) add g h -> h q = g q.
  Proof.
    intros Hsc Hq [H _]. apply H; [done|]. intros p Hp [s E]. rewrite slot_eq in E. apply (Hq p s); [by left|done].
  Qed.

  (** Frame: nothing else changes, at no time. *)
  Lemma run_frame sc w f' q : world_ok c i sc w f -> ~ sc q -> ip_create_library (ri_plan i) = false -> untouched q ->
    interrupted lib sc (required i) (ri_additional i) (run_changes (r_install c i w f)) f f' -> f' q = f q.
  Proof.
    intros Hw Hsc Hc Hq. unfold r_install. rewrite Hc. cbn [andb].
    assert (Forall (touches lib involved) (prepare_ops c i)) as Fp.
    { rewrite prepare_eq, Hc. apply stage_touches. intros p. apply replaced_elem. }
    destruct (rw_download_fails w); unfold run_changes; cbn [rt_prepare rt_install rt_rollback rt_cleanup].
    - rewrite app_nil_r. by apply touch_interrupted with (T := involved).
    - set (f1 := run_ops (prepare_ops c i) f).
      assert (f1 q = f q) as E1 by (by apply touch_run with (lib := lib) (T := involved)).
      rewrite interrupted_app. intros [H|H]; [by eapply touch_interrupted|].
      fold f1 in H. rewrite interrupted_app in H. destruct H as [H|H].
      { cbn [interrupted interrupted_op exec] in H. destruct H as [->|[H|[->|[]]]]; [done| |].
        - rewrite <- E1. by eapply install_untouched.
        - rewrite <- E1. eapply install_untouched; [exact Hsc|done|]. apply Hw. }
      cbn [run_ops fold_left exec] in H. set (f2 := rw_install w f1) in *.
      assert (f2 q = f q) as E2.
      { rewrite <- E1. eapply install_untouched; [exact Hsc|done|]. apply Hw. }
      rewrite interrupted_app in H. destruct H as [H|H].
      { rewrite <- E2. eapply touch_interrupted; [by apply rollback_touches|done|done]. }
      rewrite <- E2. transitivity (run_ops (rollback_ops c i w f2) f2 q).
      + eapply touch_interrupted; [apply cleanup_touches|done|done].
      + eapply touch_run; [by apply rollback_touches|done].
  Qed.
End run.
