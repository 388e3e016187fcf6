(** Runs on a library: what each phase does. *)
From stdpp Require Import strings list gmap.
From Coq Require Import Ascii ZArith Lia.
From Verif.model Require Import GoStr Desc Pacman Graph Fs Rollback.
From Verif.spec Require Import LibSpec.
From Verif.proofs Require Import GoStrLemmas FsProofs.

Local Open Scope string_scope.

Lemma run_ops_app l k f : run_ops (l ++ k) f = run_ops k (run_ops l f).
Proof. apply fold_left_app. Qed.

Lemma interrupted_app lib sc all add l k f f' :
  interrupted lib sc all add (l ++ k) f f' <->
  interrupted lib sc all add l f f' \/ interrupted lib sc all add k (run_ops l f) f'.
Proof.
  revert f. induction l as [|o l IH]; intros f; cbn [app interrupted].
  - cbn. split; [by right|]. intros [[->|[]]|H]; [|done]. destruct k; cbn; by left.
  - rewrite IH. change (run_ops (o :: l) f) with (run_ops l (exec o f)). tauto.
Qed.

Section lib.
  Context (lib : list string).

  Notation active p := (lib ++ [p])%list.
  Notation backup p := (lib ++ [backup_of p])%list.

  (** ** Frames *)

  (** The change is made in directories of the library with property [T]. *)
  Definition touches (T : string -> Prop) (o : op) : Prop :=
    match o with
    | ORename a b => exists x y, a = active x /\ b = active y /\ T x /\ T y
    | ORemoveAll a => exists x, a = active x /\ T x
    | _ => False
    end.

  Lemma touch_exec T o f q : touches T o -> (forall x s, T x -> q <> (lib ++ x :: s)%list) -> exec o f q = f q.
  Proof.
    intros Ht Hq. destruct o; cbn in Ht; try done.
    - destruct Ht as (x & y & -> & -> & Hx & Hy). cbn [exec]. apply rename_out; auto.
    - destruct Ht as (x & -> & Hx). cbn [exec]. apply remove_out; auto.
  Qed.

  Lemma touch_run T ops f q : Forall (touches T) ops -> (forall x s, T x -> q <> (lib ++ x :: s)%list) ->
    run_ops ops f q = f q.
  Proof.
    intros Hf Hq. revert f. induction Hf as [|o ops Ho Hf IH]; intros f; [done|].
    change (run_ops (o :: ops) f) with (run_ops ops (exec o f)). rewrite IH. by eapply touch_exec.
  Qed.

  Lemma touch_interrupted T sc all add ops f f' q : Forall (touches T) ops ->
    (forall x s, T x -> q <> (lib ++ x :: s)%list) -> interrupted lib sc all add ops f f' -> f' q = f q.
  Proof.
    intros Hf Hq. revert f. induction Hf as [|o ops Ho Hf IH]; intros f; cbn [interrupted].
    - by intros [->|[]].
    - intros [->|[H|H]]; [done| |].
      + destruct o; cbn in Ho, H; try done. destruct Ho as (x & -> & Hx).
        destruct (H q) as [?|[[t E] _]]; [done|]. rewrite slot_eq in E. by apply Hq in E.
      + rewrite (IH _ H). by eapply touch_exec.
  Qed.

  Lemma touches_mono (T T' : string -> Prop) o : (forall x, T x -> T' x) -> touches T o -> touches T' o.
  Proof. destruct o; cbn; naive_solver. Qed.

  Definition of_list (l : list string) (x : string) : Prop := exists p, p ∈ l /\ (x = p \/ x = backup_of p).

  Lemma restore_touches f l :
    Forall (touches (of_list l)) (rollback_changed f (map (fun p => Attempt p (active p) (backup p)) l)).1.
  Proof.
    revert f. induction l as [|p l IH]; intros f; [constructor|].
    cbn [map rollback_changed ua_active ua_backup].
    assert (of_list (p :: l) p /\ of_list (p :: l) (backup_of p)) as [P1 P2].
    { split; exists p; (split; [by left|]); auto. }
    assert (Forall (touches (of_list (p :: l))) (if fs_exists f (active p) then [ORemoveAll (active p)] else [])) as F.
    { destruct (fs_exists _ _); repeat constructor. exists p. done. }
    destruct (rename _ _ _) as [f2|]; [|done].
    specialize (IH f2). destruct (rollback_changed f2 _) as [ops e]. cbn [fst] in *.
    apply Forall_app. split; [done|]. constructor.
    - exists (backup_of p), p. done.
    - eapply Forall_impl; [done|]. intros o. apply touches_mono. intros x (r & Hr & Hx). exists r. split; [by right|done].
  Qed.

  (** ** Staging *)

  Definition stage (l : list string) : list op := map (fun p => ORename (active p) (backup p)) l.
  Definition atts (l : list string) : list attempt := map (fun p => Attempt p (active p) (backup p)) l.

  Definition names (l : list string) : Prop := forall p, p ∈ l -> r_name p.

  Lemma names_cons p l : names (p :: l) -> r_name p /\ names l.
  Proof. intros H. split; [apply H; by left|]. intros q Hq. apply H. by right. Qed.

  Lemma stage_lib l f : names l -> run_ops (stage l) f lib = f lib.
  Proof.
    revert f. induction l as [|p l IH]; intros f H; [done|]. apply names_cons in H as [_ H].
    change (run_ops (stage (p :: l)) f) with (run_ops (stage l) (exec (ORename (active p) (backup p)) f)).
    rewrite IH by done. cbn [exec]. apply rename_out; intros s; apply lib_neq.
  Qed.

  (** Directories that are not involved keep their contents, whatever happens. *)
  Lemma stage_frame l f q : (forall p s, p ∈ l -> q <> (lib ++ p :: s)%list) ->
    (forall p s, p ∈ l -> q <> (lib ++ backup_of p :: s)%list) -> run_ops (stage l) f q = f q.
  Proof.
    revert f. induction l as [|p l IH]; intros f H1 H2; [done|].
    change (run_ops (stage (p :: l)) f) with (run_ops (stage l) (exec (ORename (active p) (backup p)) f)).
    rewrite IH; [|intros; apply H1; by right|intros; apply H2; by right].
    cbn [exec]. apply rename_out; intros s; [apply H1|apply H2]; by left.
  Qed.

  Lemma stage_other l f x s : x ∉ l -> (forall p, p ∈ l -> x <> backup_of p) ->
    run_ops (stage l) f (lib ++ x :: s)%list = f (lib ++ x :: s)%list.
  Proof.
    intros H1 H2. apply stage_frame.
    - intros p t Hp E. apply app_cons_inj in E as [-> _]. done.
    - intros p t Hp E. apply app_cons_inj in E as [-> _]. by apply (H2 p).
  Qed.

  (** A rename that works. *)
  Lemma exec_stage p f : r_name p -> f lib = Some Dir -> f (active p) = Some Dir -> f (backup p) = None ->
    exec (ORename (active p) (backup p)) f = move (active p) (backup p) f.
  Proof.
    intros Hp H1 H2 H3. cbn [exec]. rewrite rename_slot; [done| |done..]. by apply name_not_backup.
  Qed.

  (** A package is staged: its directory is gone, the backup has its contents. *)
  Definition staged (f g : fsys) (p : string) : Prop :=
    no_dir lib p g /\ same_dir lib (backup_of p) g p f.

  Lemma stage_spec l f : names l -> f lib = Some Dir ->
    (forall p, p ∈ l -> f (active p) = Some Dir /\ f (backup p) = None) -> NoDup l ->
    forall p, p ∈ l -> staged f (run_ops (stage l) f) p.
  Proof.
    revert f. induction l as [|p l IH]; intros f Hn Hl Hf Hd q Hq; [by apply elem_of_nil in Hq|].
    apply names_cons in Hn as [Hp Hn]. apply NoDup_cons in Hd as [Hd1 Hd2].
    destruct (Hf p) as [Ha Hb]; [by left|].
    change (run_ops (stage (p :: l)) f) with (run_ops (stage l) (exec (ORename (active p) (backup p)) f)).
    rewrite exec_stage by done. set (f1 := move (active p) (backup p) f).
    assert (forall x s, x <> p -> x <> backup_of p -> f1 (lib ++ x :: s)%list = f (lib ++ x :: s)%list) as Fo.
    { intros x s H1 H2. unfold f1. rewrite move_slot. destruct (decide _); [done|]. by destruct (decide _). }
    apply elem_of_cons in Hq as [->|Hq].
    - assert (forall x, x ∈ l -> p <> backup_of x) as N by (intros; by apply name_not_backup).
      assert (backup_of p ∉ l) as N1.
      { intros H. apply Hn in H. by apply (name_not_backup _ p) in H. }
      assert (forall x, x ∈ l -> backup_of p <> backup_of x) as N2.
      { intros x Hx E. apply backup_inj in E as ->. done. }
      split; intros s.
      + rewrite stage_other by done. unfold f1. rewrite move_slot.
        destruct (decide _) as [E|_]; [by apply name_not_backup in E|]. by destruct (decide _).
      + rewrite stage_other by done. unfold f1. rewrite move_slot. by destruct (decide _).
    - assert (q <> p) as Hqp by (intros ->; done). assert (r_name q) as Hqn by by apply Hn.
      destruct (IH f1 Hn) with (p := q) as [S1 S2]; try done.
      + unfold f1. unfold move. destruct (strip _ _) as [t|] eqn:E.
        { apply strip_spec in E. rewrite slot_eq in E. by apply lib_neq in E. }
        by rewrite not_below_self.
      + intros x Hx. assert (x <> p) by (intros ->; done).
        rewrite !Fo; [apply Hf; by right|..]; try done.
        * intros E. symmetry in E. apply name_not_backup in E; done.
        * intros E. apply backup_inj in E. done.
        * apply name_not_backup. by apply Hn.
      + split; [done|]. intros s. rewrite (S2 s). apply Fo; [done|]. by apply name_not_backup.
  Qed.

  (** Staging twice: the second rename fails and changes nothing. *)
  Lemma stage_absent l f : names l -> (forall p, p ∈ l -> f (active p) = None) -> run_ops (stage l) f = f.
  Proof.
    revert f. induction l as [|p l IH]; intros f Hn Hf; [done|]. apply names_cons in Hn as [Hp Hn].
    change (run_ops (stage (p :: l)) f) with (run_ops (stage l) (exec (ORename (active p) (backup p)) f)).
    cbn [exec]. rewrite rename_missing by (apply Hf; by left). cbn. apply IH; [done|].
    intros q Hq. apply Hf. by right.
  Qed.

  (** ** Restoring *)

  Definition restored (f g : fsys) (p : string) : Prop :=
    same_dir lib p g (backup_of p) f /\ no_dir lib (backup_of p) g.

  Lemma restore_frame l f q : (forall p s, p ∈ l -> q <> (lib ++ p :: s)%list) ->
    (forall p s, p ∈ l -> q <> (lib ++ backup_of p :: s)%list) ->
    run_ops (rollback_changed f (atts l)).1 f q = f q.
  Proof.
    revert f. induction l as [|p l IH]; intros f H1 H2; [done|].
    cbn [atts map rollback_changed ua_active ua_backup].
    set (ops1 := if fs_exists f (active p) then [ORemoveAll (active p)] else []).
    assert (run_ops ops1 f q = f q) as E1.
    { unfold ops1. destruct (fs_exists f (active p)); [|done]. cbn. apply remove_out. intros s. apply H1. by left. }
    destruct (rename (backup p) (active p) (run_ops ops1 f)) as [f2|] eqn:R; [|done].
    fold (atts l).
    destruct (rollback_changed f2 (atts l)) as [ops e] eqn:E2. cbn [fst].
    rewrite run_ops_app. change (run_ops (ORename (backup p) (active p) :: ops) (run_ops ops1 f))
      with (run_ops ops (default (run_ops ops1 f) (rename (backup p) (active p) (run_ops ops1 f)))).
    rewrite R. cbn [default from_option id].
    replace ops with (rollback_changed f2 (atts l)).1 by (by rewrite E2).
    rewrite IH; [|intros; apply H1; by right|intros; apply H2; by right].
    rewrite <- E1. replace f2 with (default (run_ops ops1 f) (rename (backup p) (active p) (run_ops ops1 f)))
      by (by rewrite R).
    apply rename_out; intros s; [apply H2|apply H1]; by left.
  Qed.

  Lemma restore_other l f x s : x ∉ l -> (forall p, p ∈ l -> x <> backup_of p) ->
    run_ops (rollback_changed f (atts l)).1 f (lib ++ x :: s)%list = f (lib ++ x :: s)%list.
  Proof.
    intros H1 H2. apply restore_frame.
    - intros p t Hp E. apply app_cons_inj in E as [-> _]. done.
    - intros p t Hp E. apply app_cons_inj in E as [-> _]. by apply (H2 p).
  Qed.

  Lemma restore_lib l f : run_ops (rollback_changed f (atts l)).1 f lib = f lib.
  Proof. apply restore_frame; intros p s _; apply lib_neq. Qed.

  (** One attempt that works. *)
  Lemma restore_one p f : r_name p -> tree_ok f -> f lib = Some Dir -> f (backup p) = Some Dir ->
    let ops1 := if fs_exists f (active p) then [ORemoveAll (active p)] else [] in
    rename (backup p) (active p) (run_ops ops1 f) = Some (move (backup p) (active p) (run_ops ops1 f)) /\
    (forall x s, run_ops ops1 f (lib ++ x :: s)%list = if decide (x = p) then None else f (lib ++ x :: s)%list) /\
    (forall q, (forall s, q <> (lib ++ p :: s)%list) -> run_ops ops1 f q = f q).
  Proof.
    intros Hp T Hl Hb ops1.
    assert (forall q, (forall s, q <> (lib ++ p :: s)%list) -> run_ops ops1 f q = f q) as O.
    { intros q H. unfold ops1. destruct (fs_exists f (active p)); [|done]. cbn. by apply remove_out. }
    assert (forall x s, run_ops ops1 f (lib ++ x :: s)%list = if decide (x = p) then None else f (lib ++ x :: s)%list)
      as O'.
    { intros x s. unfold ops1. destruct (fs_exists f (active p)) eqn:E.
      - cbn. rewrite remove_slot. destruct (decide (p = x)), (decide (x = p)); congruence.
      - cbn. destruct (decide (x = p)) as [->|]; [|done]. apply (tree_none lib f p T).
        unfold fs_exists in E. by destruct (f (active p)). }
    split; [|done]. apply rename_slot.
    - intros E. symmetry in E. by apply name_not_backup in E.
    - rewrite O; [done|]. intros s. apply lib_neq.
    - rewrite O'. destruct (decide (backup_of p = p)) as [E|_]; [|done].
      symmetry in E. by apply name_not_backup in E.
    - rewrite O'. by destruct (decide (p = p)).
  Qed.

  Lemma move_tree a b f : tree_ok f -> f (removelast b) = Some Dir -> ~ in_dir a (removelast b) ->
    tree_ok (move a b f).
  Proof.
    intros T Hp Hd q x H. unfold move in *.
    destruct (strip b (q ++ [x])) as [s|] eqn:E.
    - apply strip_spec in E. destruct s as [|y s _] using rev_ind.
      + rewrite app_nil_r in E. subst b.
        rewrite removelast_last in Hp, Hd.
        destruct (strip (q ++ [x]) q) as [t|] eqn:E2.
        { apply strip_spec in E2. apply (f_equal length) in E2. rewrite !app_length in E2. cbn in E2. lia. }
        destruct (below a q) eqn:E3; [by apply below_spec in E3|]. done.
      + rewrite app_assoc in E. apply app_inj_tail in E as [-> ->].
        rewrite (proj2 (strip_spec b (b ++ s) s)) by done. rewrite app_assoc in H. by apply T in H.
    - destruct (below a (q ++ [x])) eqn:E1; [done|].
      pose proof (T _ _ H) as Hq. destruct (strip b q) as [t|] eqn:E2.
      + apply strip_spec in E2. subst q. rewrite <- app_assoc in E.
        by rewrite (proj2 (strip_spec b (b ++ t ++ [x]) (t ++ [x]))) in E.
      + destruct (below a q) eqn:E3; [|done]. apply below_spec in E3 as [t ->].
        apply not_true_iff_false in E1. exfalso. apply E1, below_spec. exists (t ++ [x])%list. by rewrite app_assoc.
  Qed.

  Lemma remove_tree p f : tree_ok f -> tree_ok (remove_all p f).
  Proof.
    intros T q x H. unfold remove_all in *. destruct (below p (q ++ [x])) eqn:E; [done|].
    destruct (below p q) eqn:E2; [|by apply T in H].
    exfalso. apply not_true_iff_false in E. apply E. apply below_spec in E2 as [s ->].
    apply below_spec. exists (s ++ [x])%list. by rewrite app_assoc.
  Qed.

  Lemma restore_one_tree p f : r_name p -> tree_ok f -> f lib = Some Dir -> f (backup p) = Some Dir ->
    tree_ok (move (backup p) (active p)
      (run_ops (if fs_exists f (active p) then [ORemoveAll (active p)] else []) f)).
  Proof.
    intros Hp T Hl Hb. destruct (restore_one p f Hp T Hl Hb) as (_ & O' & O).
    apply move_tree.
    - destruct (fs_exists f (active p)); [|done]. by apply remove_tree.
    - rewrite removelast_last. rewrite O; [done|]. intros s. apply lib_neq.
    - rewrite removelast_last. intros [s E]. rewrite slot_eq in E. by apply lib_neq in E.
  Qed.

  Lemma tree_prefix f q s : tree_ok f -> s <> [] -> f (q ++ s)%list <> None -> f q = Some Dir.
  Proof.
    intros T. induction s as [|x s IH] using rev_ind; [done|]. intros _ H. rewrite app_assoc in H.
    apply T in H. destruct (decide (s = [])) as [->|Hs]; [by rewrite app_nil_r in H|].
    apply IH; [done|]. by rewrite H.
  Qed.

  Lemma rename_tree a b f : tree_ok f -> tree_ok (default f (rename a b f)).
  Proof.
    intros T. unfold rename. destruct (f a) as [n|] eqn:Ea; [|done].
    destruct (fs_dir_exists f (removelast b)) eqn:E1; [|done]. cbn [negb].
    destruct (fs_dir_exists f b) eqn:E2; [done|].
    destruct (is_dir n && (fs_exists f b || below a b)) eqn:E3; [done|]. cbn.
    assert (f (removelast b) = Some Dir) as Hb.
    { unfold fs_dir_exists in E1. by destruct (f (removelast b)) as [[]|]. }
    assert (b <> []) as Nb. { intros ->. cbn in E1. congruence. }
    apply move_tree; [done..|]. intros [s Hs]. destruct n as [x|].
    - rewrite Hs in Hb. destruct (decide (s = [])) as [->|Hn]; [rewrite app_nil_r in Hb; congruence|].
      assert (f a = Some Dir); [|congruence]. apply (tree_prefix f a s); [done..|]. by rewrite Hb.
    - cbn in E3. apply orb_false_iff in E3 as [_ E3]. apply not_true_iff_false in E3. apply E3, below_spec.
      exists (s ++ [List.last b ""])%list. rewrite app_assoc, <- Hs. by apply app_removelast_last.
  Qed.

  Lemma restore_spec l f : names l -> tree_ok f -> f lib = Some Dir -> NoDup l ->
    (forall p, p ∈ l -> f (backup p) = Some Dir) ->
    (rollback_changed f (atts l)).2 = false /\
    tree_ok (run_ops (rollback_changed f (atts l)).1 f) /\
    (forall p, p ∈ l -> restored f (run_ops (rollback_changed f (atts l)).1 f) p) /\
    (forall sc all add f', interrupted lib sc all add (rollback_changed f (atts l)).1 f f' ->
       forall p, p ∈ l -> same_dir lib p f' (backup_of p) f \/ same_dir lib (backup_of p) f' (backup_of p) f).
  Proof.
    revert f. induction l as [|p l IH]; intros f Hn T Hl Hd Hb.
    { split; [done|]. split; [done|]. split; intros; set_solver. }
    apply names_cons in Hn as [Hp Hn]. apply NoDup_cons in Hd as [Hd1 Hd2].
    assert (f (backup p) = Some Dir) as Hbp by (apply Hb; by left).
    destruct (restore_one p f Hp T Hl Hbp) as (R & O' & O).
    pose proof (restore_one_tree p f Hp T Hl Hbp) as T2.
    cbn [atts map rollback_changed ua_active ua_backup].
    set (ops1 := if fs_exists f (active p) then [ORemoveAll (active p)] else []) in *.
    fold (atts l). rewrite R. set (f2 := move (backup p) (active p) (run_ops ops1 f)) in *.
    assert (forall x s, f2 (lib ++ x :: s)%list =
      if decide (x = p) then f (lib ++ backup_of p :: s)%list
      else if decide (x = backup_of p) then None else f (lib ++ x :: s)%list) as F2.
    { intros x s. unfold f2. rewrite move_slot, !O'.
      destruct (decide (backup_of p = p)) as [E|_]; [symmetry in E; by apply name_not_backup in E|].
      destruct (decide (x = p)); [done|]. done. }
    assert (f2 lib = Some Dir) as L2.
    { unfold f2. rewrite move_out by (intros s; apply lib_neq). rewrite O; [done|]. intros s; apply lib_neq. }
    destruct (IH f2 Hn T2 L2 Hd2) as (I1 & I2 & I3 & I4).
    { intros q Hq. rewrite F2. destruct (decide _) as [E|_].
      - symmetry in E. by apply name_not_backup in E.
      - destruct (decide _) as [E|_]; [apply backup_inj in E as ->; done|]. apply Hb. by right. }
    pose proof (restore_other l f2) as OT. pose proof (restore_lib l f2) as OL.
    destruct (rollback_changed f2 (atts l)) as [ops e] eqn:E2. cbn [fst snd] in *.
    assert (run_ops (ops1 ++ ORename (backup p) (active p) :: ops) f = run_ops ops f2) as RO.
    { rewrite run_ops_app.
      change (run_ops (ORename (backup p) (active p) :: ops) (run_ops ops1 f))
        with (run_ops ops (default (run_ops ops1 f) (rename (backup p) (active p) (run_ops ops1 f)))).
      by rewrite R. }
    rewrite RO. split; [done|]. split; [done|].
    assert (backup_of p ∉ l) as N1.
    { intros H. apply Hn in H. by apply (name_not_backup _ p) in H. }
    assert (forall x, x ∈ l -> backup_of p <> backup_of x) as N2.
    { intros x Hx E. apply backup_inj in E as ->. done. }
    assert (forall x, x ∈ l -> p <> backup_of x) as N3 by (intros; by apply name_not_backup).
    assert (forall q s, q ∈ l -> f2 (lib ++ backup_of q :: s)%list = f (lib ++ backup_of q :: s)%list) as F3.
    { intros q s Hq. rewrite F2. destruct (decide _) as [E|_]; [symmetry in E; by apply name_not_backup in E|].
      destruct (decide _) as [E|_]; [apply backup_inj in E as ->; done|]. done. }
    split.
    - intros q Hq. apply elem_of_cons in Hq as [->|Hq].
      + split; intros s.
        * rewrite OT by done. rewrite F2. by destruct (decide _).
        * rewrite OT by done. rewrite F2.
          destruct (decide _) as [E|_]; [symmetry in E; by apply name_not_backup in E|]. by destruct (decide _).
      + destruct (I3 q Hq) as [J1 J2]. split; [|done]. intros s. rewrite (J1 s). by apply F3.
    - intros sc all add f' Hi q Hq.
      apply interrupted_app in Hi as [Hi|Hi].
      { (* interrupted while removing *)
        right. intros s. assert (q ∈ p :: l) as Hq' by done.
        assert (r_name q) by (apply elem_of_cons in Hq as [->|?]; [done|by apply Hn]).
        unfold ops1 in Hi. destruct (fs_exists f (active p)); cbn [interrupted] in Hi.
        - destruct Hi as [->|[Hi|[->|[]]]]; [done| |].
          + cbn [interrupted_op] in Hi. destruct (Hi (lib ++ backup_of q :: s)%list) as [?|[[t E] _]]; [done|].
            rewrite slot_eq in E. apply app_cons_inj in E as [E _]. symmetry in E. by apply name_not_backup in E.
          + cbn [exec]. rewrite remove_slot. destruct (decide _) as [E|_]; [|done]. by apply name_not_backup in E.
        - destruct Hi as [->|[]]. done. }
      cbn [interrupted interrupted_op] in Hi. destruct Hi as [->|[[]|Hi]].
      { right. intros s. rewrite O'. destruct (decide _) as [E|_]; [|done].
        symmetry in E. by apply name_not_backup in E. }
      cbn [exec] in Hi. rewrite R in Hi. cbn [default from_option id] in Hi.
      apply elem_of_cons in Hq as [->|Hq].
      + (* restored, the others may be in progress *)
        left.
        assert (forall x s, x ∉ l -> (forall y, y ∈ l -> x <> backup_of y) ->
          f' (lib ++ x :: s)%list = f2 (lib ++ x :: s)%list) as K; cycle 1.
        { intros s. rewrite K by done. rewrite F2. by destruct (decide _). }
        intros x s H1 H2. eapply (touch_interrupted (of_list l)); [|..|exact Hi].
        -- replace ops with (rollback_changed f2 (atts l)).1 by (by rewrite E2). apply restore_touches.
        -- intros y t (r & Hr & [->| ->]) E; apply app_cons_inj in E as [-> _]; [done|]. by apply (H2 r).
      + destruct (I4 sc all add f' Hi q Hq) as [J|J]; [left|right]; intros s; rewrite (J s); by apply F3.
  Qed.
End lib.
