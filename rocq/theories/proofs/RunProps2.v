(** Packages that are left alone, successful runs, libraries made by the run. *)
From stdpp Require Import strings list gmap.
From Coq Require Import Ascii ZArith Lia.
From Verif.model Require Import GoStr Desc Pacman Graph Fs Rollback.
From Verif.spec Require Import LibSpec.
From Verif.proofs Require Import GoStrLemmas RepoProofs GraphProofs PlanProofs FsProofs RollbackProofs RunProofs RunProps.

Local Open Scope string_scope.

Section run.
  Context (c : run_config) (i : run_input) (sc : path -> Prop) (w : run_world) (f : fsys).
  Context (Hok : run_ok c i f) (Hw : world_ok c i sc w f).

  Notation lib := (rc_library c).
  Notation active p := (lib ++ [p])%list.
  Notation backup p := (lib ++ [backup_of p])%list.
  Notation Su := (staged_updates c i).
  Notation So := (staged_overwrites i).
  Notation all := (required i).
  Notation add := (ri_additional i).
  Notation f1 := (run_ops (prepare_ops c i) f).
  Notation f2 := (rw_install w f1).

  Lemma touch_slot T g l x s : Forall (touches lib T) l -> ~ T x ->
    run_ops l g (lib ++ x :: s)%list = g (lib ++ x :: s)%list.
  Proof.
    intros H Hx. eapply touch_run; [done|]. intros y t Hy E. apply app_cons_inj in E as [<- _]. done.
  Qed.

  Lemma touch_slot_interrupted T g h l x s : Forall (touches lib T) l -> ~ T x ->
    interrupted lib sc all add l g h -> h (lib ++ x :: s)%list = g (lib ++ x :: s)%list.
  Proof.
    intros H Hx. eapply touch_interrupted; [done|]. intros y t Hy E. apply app_cons_inj in E as [<- _]. done.
  Qed.

  Section existing.
    Context (Hc : ip_create_library (ri_plan i) = false).

    (** ** Packages that are not replaced *)

    Definition changed (x : string) : Prop :=
      (x ∈ all /\ ri_preinstalled i !! x = None) \/ of_list (Su ++ So) x.

    Lemma rollback_changes g : Forall (touches lib changed) (rollback_ops c i w g).
    Proof.
      unfold rollback_ops. destruct (negb _ && _); [|constructor].
      rewrite Hc, (rollback_eq c i f Hok) by done. cbv zeta.
      assert (Forall (touches lib changed) (removals lib (rp_new (plan_of_run c i)))) as F1.
      { eapply Forall_impl; [apply removals_touches|]. intros o. apply touches_mono.
        intros x Hx. apply new_elem in Hx. by left. }
      assert (forall h l, (forall p, p ∈ l -> p ∈ (Su ++ So)%list) ->
        Forall (touches lib changed) (rollback_changed h (atts lib l)).1) as F2.
      { intros h l Hl. eapply Forall_impl; [apply restore_touches|]. intros o. apply touches_mono.
        intros x (p & Hp & Hx). right. exists p. auto. }
      destruct (rollback_changed _ (atts lib Su)).2; repeat (apply Forall_app; split); try done;
        apply F2; intros p Hp; apply elem_of_app; auto.
    Qed.

    Lemma cleanup_changes g : Forall (touches lib changed) (cleanup_ops c i g).
    Proof.
      unfold cleanup_ops. rewrite (plan_updates c i f Hok), (plan_additional c i f Hok). apply Forall_app. split.
      - eapply Forall_impl; [apply delete_spec|]. intros o. apply touches_mono. intros x (p & Hp & Hx).
        right. exists p. rewrite elem_of_app. auto.
      - eapply Forall_impl; [apply delete_spec|]. intros o. apply touches_mono. intros x (p & Hp & Hx).
        right. exists p. rewrite elem_of_app. auto.
    Qed.

    Lemma unchanged_name p : r_name p -> is_Some (ri_preinstalled i !! p) -> ~ replaced c i p -> ~ changed p.
    Proof.
      intros Hn Hp Hr [[_ H]|(q & Hq & [->| ->])].
      - rewrite H in Hp. by destruct Hp.
      - by apply Hr, (replaced_elem c i f Hok).
      - by apply (name_not_backup _ q) in Hn.
    Qed.

    Lemma left_alone f' p : r_name p -> is_Some (ri_preinstalled i !! p) -> ~ replaced c i p ->
      interrupted lib sc all add (run_changes (r_install c i w f)) f f' -> same_dir lib p f' p f.
    Proof.
      intros Hn Hp Hr Hi s. pose proof (unchanged_name p Hn Hp Hr) as Hch.
      assert (Forall (touches lib changed) (prepare_ops c i)) as Fp.
      { rewrite (prep_ops c i f Hok Hc). apply Forall_forall. intros o Ho. unfold stage in Ho.
        apply elem_of_list_fmap in Ho as (q & -> & Hq). exists q, (backup_of q).
        split; [done|]. split; [done|]. split; right; exists q; auto. }
      assert (p ∉ add) as Hadd. { intros H. apply Hr. right. by split. }
      assert (forall t, f1 (lib ++ p :: t)%list = f (lib ++ p :: t)%list) as E1.
      { intros t. by apply (touch_slot changed). }
      assert (forall h, install_frame lib sc all add f1 h -> h (lib ++ p :: s)%list = f (lib ++ p :: s)%list) as E2.
      { intros h Hh. rewrite <- E1. destruct (decide (p ∈ all)) as [Ha|Ha].
        - destruct Hh as [_ Hh]. apply Hh; [done..|]. rewrite E1. by apply (ro_scan _ _ _ Hok).
        - eapply (frame_slot c i sc); [by eapply scratch_name|done|done]. }
      unfold r_install in Hi. rewrite Hc in Hi. cbn [andb] in Hi.
      destruct (rw_download_fails w); unfold run_changes in Hi; cbn [rt_prepare rt_install rt_rollback rt_cleanup] in Hi.
      { rewrite app_nil_r in Hi. by apply (touch_slot_interrupted changed f f' (prepare_ops c i)). }
      rewrite interrupted_app in Hi. destruct Hi as [Hi|Hi].
      { by apply (touch_slot_interrupted changed f f' (prepare_ops c i)). }
      rewrite interrupted_app in Hi. destruct Hi as [Hi|Hi].
      { cbn [interrupted interrupted_op exec] in Hi. destruct Hi as [->|[Hi|[->|[]]]]; [done|by apply E2|].
        apply E2, Hw. }
      cbn [run_ops fold_left exec] in Hi. fold (run_ops (prepare_ops c i) f) in Hi.
      assert (f2 (lib ++ p :: s)%list = f (lib ++ p :: s)%list) as E3 by (apply E2, Hw).
      rewrite interrupted_app in Hi. destruct Hi as [Hi|Hi].
      - rewrite <- E3. eapply (touch_slot_interrupted changed); [apply rollback_changes|done|done].
      - rewrite <- E3. transitivity (run_ops (rollback_ops c i w f2) f2 (lib ++ p :: s)%list).
        + eapply (touch_slot_interrupted changed); [apply cleanup_changes|done|done].
        + apply (touch_slot changed); [apply rollback_changes|done].
    Qed.
  End existing.

  Lemma interrupted_end l g : interrupted lib sc all add l g (run_ops l g).
  Proof.
    revert g. induction l as [|o l IH]; intros g; cbn [interrupted]; [by left|]. right. right.
    change (run_ops (o :: l) g) with (run_ops l (exec o g)). apply IH.
  Qed.

  (** ** Successful runs *)

  Lemma mkdir_tree p g h : tree_ok g -> mkdir_all p g = Some h -> tree_ok h.
  Proof.
    unfold mkdir_all. intros T. destruct (existsb _ _); [done|]. intros [= <-] q x H.
    destruct (below q p) eqn:E; [done|].
    destruct (below (q ++ [x]) p) eqn:E2; [|by apply T in H].
    exfalso. apply not_true_iff_false in E. apply E. apply below_spec in E2 as [s ->]. apply below_spec.
    exists (x :: s). by rewrite <- app_assoc.
  Qed.

  Lemma f1_tree_ok : tree_ok f1.
  Proof.
    rewrite (prepare_eq c i f Hok), run_ops_app.
    assert (forall l g, tree_ok g -> tree_ok (run_ops (stage lib l) g)) as St.
    { induction l as [|p l IH]; intros g T; [done|].
      change (run_ops (stage lib (p :: l)) g) with (run_ops (stage lib l) (exec (ORename (active p) (backup p)) g)).
      apply IH. cbn [exec]. by apply rename_tree. }
    apply St. destruct (ip_create_library _); [|apply (ro_tree _ _ _ Hok)]. cbn.
    destruct (mkdir_all lib f) eqn:E; [|apply (ro_tree _ _ _ Hok)]. cbn. eapply mkdir_tree; [|done].
    apply (ro_tree _ _ _ Hok).
  Qed.

  Lemma success_final : ~ failed w -> rt_outcome (r_install c i w f) = Exit 0 ->
    run_final c i w f = run_ops (cleanup_ops c i f2) f2.
  Proof.
    intros Hs Ho. unfold run_final. unfold r_install in *.
    destruct (_ && rc_strict c); [done|]. destruct (_ && match mkdir_all lib f with _ => _ end); [done|].
    destruct (rw_download_fails w); [done|]. unfold run_changes. cbn [rt_prepare rt_install rt_rollback rt_cleanup].
    assert (rollback_ops c i w (run_ops [OInstall (rw_install w)] f1) = []) as ->.
    { unfold rollback_ops. destruct (rw_plan_error w) eqn:E1; [by destruct Hs; left|].
      destruct (rw_additional_error w) eqn:E2; [by destruct Hs; right|]. by rewrite andb_false_r. }
    rewrite !run_ops_app. done.
  Qed.

  Lemma success : ~ failed w -> rt_outcome (r_install c i w f) = Exit 0 ->
    (forall p, p ∈ all -> same_dir lib p (run_final c i w f) p f2) /\
    (forall p, replaced c i p -> no_dir lib (backup_of p) (run_final c i w f)) /\
    (forall p, replaced c i p -> f (backup p) = None -> no_dir lib p f1).
  Proof.
    intros Hs Ho. rewrite success_final by done. unfold cleanup_ops.
    rewrite (plan_updates c i f Hok), (plan_additional c i f Hok). rewrite run_ops_app.
    set (g := run_ops (delete_backups f2 (atts lib Su)) f2).
    destruct (delete_spec lib Su f2) as (D1 & D2 & D3). destruct (delete_spec lib So g) as (E1 & E2 & E3).
    fold g in D2, D3.
    assert (tree_ok f2) as T2 by (apply Hw, f1_tree_ok).
    assert (tree_ok g) as T3.
    { unfold g. clear -T2. revert T2. generalize f2 as h. induction Su as [|p l IH]; intros h T; [done|].
      cbn [atts map delete_backups ua_backup]. destruct (fs_exists _ _).
      - change (run_ops (ORemoveAll ?b :: ?o) h) with (run_ops o (remove_all b h)). by apply IH, remove_tree.
      - by apply IH. }
    split; [|split].
    - intros p Hp s. apply (ro_names _ _ _ Hok) in Hp. rewrite E3, D3; [done|..];
        intros q t _ E; apply app_cons_inj in E as [E _]; by apply (name_not_backup _ q) in Hp.
    - intros p Hp. destruct (decide (p ∈ So)) as [Ho'|Ho']; [by apply E2|].
      apply (replaced_elem c i f Hok), elem_of_app in Hp as [Hp|?]; [|done].
      intros s. rewrite E3; [by apply D2|]. intros q t Hq E. apply app_cons_inj in E as [E _].
      apply backup_inj in E as ->. done.
    - intros p Hp Hb. destruct (ip_create_library (ri_plan i)) eqn:Hc.
      + destruct (create_nothing c i f Hok Hc) as (_ & _ & N). apply (replaced_pre c i f Hok) in Hp.
        rewrite N, lookup_empty in Hp. by destruct Hp.
      + by apply (f1_staged c i f Hok Hc).
  Qed.

  (** ** Libraries made by the run *)

  Lemma prefixes_spec q p : q ∈ prefixes p <-> in_dir q p.
  Proof.
    revert q. induction p as [|x p IH]; intros q; cbn [prefixes].
    - rewrite elem_of_list_singleton. split; [intros ->; by exists []|]. intros [s E].
      symmetry in E. by apply app_eq_nil in E as [-> _].
    - rewrite elem_of_cons, elem_of_list_In, in_map_iff. split.
      + intros [->|(r & <- & Hr)]; [by exists (x :: p)|].
        apply elem_of_list_In, IH in Hr as [s ->]. by exists s.
      + intros [s E]. destruct q as [|y q]; [by left|]. right. cbn in E. injection E as -> ->.
        exists q. split; [done|]. apply elem_of_list_In, IH. by exists s.
  Qed.

  Lemma mkdir_none g p : mkdir_all p g = None <-> exists q x, in_dir q p /\ g q = Some (File x).
  Proof.
    unfold mkdir_all. split.
    - destruct (existsb _ _) eqn:E; [|done]. intros _. apply existsb_exists in E as (q & Hq & E).
      apply elem_of_list_In, prefixes_spec in Hq. destruct (g q) as [[x|]|] eqn:E'; try done. by exists q, x.
    - intros (q & x & Hq & E).
      assert (existsb (fun a => match g a with Some (File _) => true | _ => false end) (prefixes p) = true) as ->; [|done].
      apply existsb_exists. exists q. split; [by apply elem_of_list_In, prefixes_spec|]. by rewrite E.
  Qed.

  Lemma mkdir_some g p h : mkdir_all p g = Some h ->
    (forall q, h q = if below q p then Some Dir else g q) /\ (forall q, in_dir q p -> g q = None \/ g q = Some Dir).
  Proof.
    intros E. split.
    - unfold mkdir_all in E. destruct (existsb _ _); [done|]. by injection E as <-.
    - intros q Hq. destruct (g q) as [[x|]|] eqn:Eq; [|by right|by left]. exfalso.
      assert (mkdir_all p g = None); [|congruence]. apply mkdir_none. by exists q, x.
  Qed.

  Lemma created_removed : ip_create_library (ri_plan i) = true -> rc_no_rollback c = false -> failed w ->
    rt_outcome (r_install c i w f) = Exit 0 ->
    (forall s, run_final c i w f (lib ++ s)%list = None) /\
    (forall q, ~ sc q -> ~ in_dir lib q -> run_final c i w f q = f q \/
       (in_dir q lib /\ f q = None /\ run_final c i w f q = Some Dir)) /\
    (lib <> [] -> f (removelast lib) = Some Dir -> forall q, ~ sc q -> run_final c i w f q = f q).
  Proof.
    intros Hc Hr Hf Ho. destruct (create_nothing c i f Hok Hc) as (Nu & No & _).
    unfold run_final. unfold r_install in *. rewrite Hc in *. cbn [andb] in *.
    destruct (rc_strict c); [done|]. destruct (mkdir_all lib f) as [g|] eqn:Em; [|done].
    destruct (rw_download_fails w); [done|].
    unfold run_changes. cbn [rt_prepare rt_install rt_rollback rt_cleanup].
    assert (f1 = g) as F1.
    { rewrite (prepare_eq c i f Hok), Hc, Nu, No. cbn. by rewrite Em. }
    rewrite !run_ops_app. rewrite F1. cbn [run_ops fold_left exec].
    assert (forall h, rollback_ops c i w h = [ORemoveAll lib]) as R.
    { intros h. unfold rollback_ops. rewrite Hr, Hc. cbn [negb andb].
      replace (rw_plan_error w || rw_additional_error w) with true by (symmetry; apply orb_true_iff; exact Hf).
      done. }
    rewrite R. cbn [run_ops fold_left exec].
    assert (forall h, cleanup_ops c i h = []) as C.
    { intros h. unfold cleanup_ops. rewrite (plan_updates c i f Hok), (plan_additional c i f Hok), Nu, No. done. }
    rewrite C. cbn [run_ops fold_left]. destruct (mkdir_some _ _ _ Em) as [G1 G2].
    assert (forall q, ~ sc q -> ~ in_dir lib q -> remove_all lib (rw_install w g) q = g q) as K.
    { intros q Hsc Hq. unfold remove_all. destruct (below lib q) eqn:E; [by apply below_spec in E|].
      destruct Hw as (_ & [H _] & _). rewrite F1 in H. apply H; [done|]. intros p _ [s ->]. apply Hq. exists (p :: s). by rewrite slot_eq. }
    assert (forall s, remove_all lib (rw_install w g) (lib ++ s)%list = None) as K2.
    { intros s. unfold remove_all. rewrite (proj2 (below_spec lib (lib ++ s))); [done|]. by exists s. }
    split; [done|]. split.
    - intros q Hsc Hq. rewrite K by done. rewrite G1. destruct (below q lib) eqn:E; [|by left].
      apply below_spec in E. destruct (G2 q E) as [->| ->]; [by right|by left].
    - intros Nl Hd q Hsc. destruct (below lib q) eqn:E.
      + apply below_spec in E as [s ->]. rewrite K2. symmetry.
        assert (f lib = None) as Hl.
        { destruct (G2 lib) as [?|H]; [exists []; by rewrite app_nil_r|done|].
          by apply (ro_create _ _ _ Hok) in Hc. }
        destruct (f (lib ++ s)%list) eqn:Es; [|done]. destruct (decide (s = [])) as [->|Hs].
        { rewrite app_nil_r in Es. congruence. }
        assert (f lib = Some Dir); [|congruence]. eapply tree_prefix; [apply (ro_tree _ _ _ Hok)|done|]. by rewrite Es.
      + assert (~ in_dir lib q) as Hq. { intros H. apply below_spec in H. congruence. }
        rewrite K by done. rewrite G1. destruct (below q lib) eqn:E2; [|done].
        apply below_spec in E2 as [s Es]. destruct s as [|x s _] using rev_ind.
        { rewrite app_nil_r in Es. exfalso. apply Hq. exists []. rewrite app_nil_r. done. }
        rewrite app_assoc in Es. rewrite Es, removelast_last in Hd. symmetry.
        destruct (decide (s = [])) as [->|Hs]; [by rewrite app_nil_r in Hd|].
        eapply tree_prefix; [apply (ro_tree _ _ _ Hok)|exact Hs|]. by rewrite Hd.
  Qed.

  (** ** Strict mode *)
  Lemma strict_untouched : rc_strict c = true -> ip_create_library (ri_plan i) = true ->
    run_changes (r_install c i w f) = [] /\ rt_outcome (r_install c i w f) = Fatal.
  Proof. intros H1 H2. unfold r_install. by rewrite H1, H2. Qed.
End run.
