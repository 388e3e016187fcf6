(** Rolling back in all cases: left-over backups, packages listed twice, directories in
    the way of new packages. *)
From stdpp Require Import strings list gmap.
From Coq Require Import Ascii ZArith Lia.
From Verif.model Require Import GoStr Desc Pacman Graph Fs Rollback.
From Verif.spec Require Import LibSpec RollbackSpec.
From Verif.proofs Require Import GoStrLemmas RepoProofs GraphProofs PlanProofs FsProofs RollbackProofs RunProofs RunProps RunProps2.

Local Open Scope string_scope.

Section lib.
  Context (lib : list string).

  Notation active p := (lib ++ [p])%list.
  Notation backup p := (lib ++ [backup_of p])%list.

  (** Renaming a file or a directory. *)
  Lemma rename_any x y f : x <> y -> f lib = Some Dir -> f (lib ++ [x])%list <> None -> f (lib ++ [y])%list = None ->
    rename (lib ++ [x]) (lib ++ [y]) f = Some (move (lib ++ [x]) (lib ++ [y]) f).
  Proof.
    intros Hn Hl Hx Hy. unfold rename. destruct (f (lib ++ [x])%list) as [n|]; [|done]. rewrite removelast_slot.
    unfold fs_dir_exists at 1. rewrite Hl. cbn [negb]. unfold fs_dir_exists. rewrite Hy.
    unfold fs_exists. rewrite Hy. cbn [orb].
    rewrite below_slot. destruct (String.eqb_spec x y); [done|]. by destruct n.
  Qed.

  Lemma rename_taken x y f : f (lib ++ [x])%list = Some Dir -> f (lib ++ [y])%list <> None ->
    rename (lib ++ [x]) (lib ++ [y]) f = None.
  Proof.
    intros Hx Hy. unfold rename. rewrite Hx. destruct (negb _); [done|]. destruct (fs_dir_exists f _); [done|].
    unfold fs_exists. by destruct (f (lib ++ [y])%list).
  Qed.

  (** A backup in the way: nothing is moved. *)
  Lemma stage_stale l f p : r_name p -> names l -> f (active p) = Some Dir -> f (backup p) <> None ->
    same_dir lib p (run_ops (stage lib l) f) p f /\ same_dir lib (backup_of p) (run_ops (stage lib l) f) (backup_of p) f.
  Proof.
    intros Hp Hl. revert f. induction l as [|q l IH]; intros f Ha Hb; [done|].
    apply names_cons in Hl as [Hq Hl].
    change (run_ops (stage lib (q :: l)) f) with (run_ops (stage lib l) (exec (ORename (active q) (backup q)) f)).
    set (g := exec (ORename (active q) (backup q)) f).
    assert (forall x s, x = p \/ x = backup_of p -> g (lib ++ x :: s)%list = f (lib ++ x :: s)%list) as G.
    { intros x s Hx. unfold g. cbn [exec]. destruct (decide (q = p)) as [->|Hn].
      - by rewrite rename_taken.
      - apply rename_out; intros t E; apply app_cons_inj in E as [E _]; destruct Hx as [-> | ->].
        + done.
        + symmetry in E. by apply name_not_backup in E.
        + by apply name_not_backup in E.
        + apply backup_inj in E. done. }
    destruct (IH Hl g) as [I1 I2].
    - rewrite (G p []) by auto. done.
    - rewrite (G (backup_of p) []) by auto. done.
    - split; intros s; [rewrite (I1 s)|rewrite (I2 s)]; apply G; auto.
  Qed.

  (** Restoring stops at the first package without backup. *)
  Definition reached (l : list string) (f : fsys) (p : string) : Prop :=
    exists l1 l2, l = (l1 ++ p :: l2)%list /\ forall q, q ∈ l1 -> f (backup q) <> None.

  Lemma restore_step p f : r_name p -> tree_ok f -> f lib = Some Dir ->
    let ops1 := if fs_exists f (active p) then [ORemoveAll (active p)] else [] in
    (forall x s, run_ops ops1 f (lib ++ x :: s)%list = if decide (x = p) then None else f (lib ++ x :: s)%list) /\
    (forall q, (forall s, q <> (lib ++ p :: s)%list) -> run_ops ops1 f q = f q) /\
    tree_ok (run_ops ops1 f) /\
    (f (backup p) <> None ->
       rename (backup p) (active p) (run_ops ops1 f) = Some (move (backup p) (active p) (run_ops ops1 f))) /\
    (f (backup p) = None -> rename (backup p) (active p) (run_ops ops1 f) = None).
  Proof.
    intros Hp T Hl ops1.
    assert (forall q, (forall s, q <> (lib ++ p :: s)%list) -> run_ops ops1 f q = f q) as O.
    { intros q H. unfold ops1. destruct (fs_exists f (active p)); [|done]. cbn. by apply remove_out. }
    assert (forall x s, run_ops ops1 f (lib ++ x :: s)%list = if decide (x = p) then None else f (lib ++ x :: s)%list)
      as O'.
    { intros x s. unfold ops1. destruct (fs_exists f (active p)) eqn:E.
      - cbn. rewrite remove_slot. destruct (decide (p = x)), (decide (x = p)); congruence.
      - cbn. destruct (decide (x = p)) as [->|]; [|done]. apply (tree_none lib f p T).
        unfold fs_exists in E. by destruct (f (active p)). }
    assert (backup_of p <> p) as N by (intros E; symmetry in E; by apply name_not_backup in E).
    split; [done|]. split; [done|]. split; [|split].
    - unfold ops1. destruct (fs_exists f (active p)); [|done]. by apply remove_tree.
    - intros Hb. apply rename_any; [done|..].
      + rewrite O; [done|]. intros s. apply lib_neq.
      + rewrite O'. by destruct (decide (backup_of p = p)).
      + rewrite O'. by destruct (decide (p = p)).
    - intros Hb. apply rename_missing. rewrite O'. by destruct (decide (backup_of p = p)).
  Qed.

  Lemma restore_any l f : names l -> tree_ok f -> f lib = Some Dir -> NoDup l ->
    let g := run_ops (rollback_changed f (atts lib l)).1 f in
    tree_ok g /\
    ((rollback_changed f (atts lib l)).2 = true <-> exists p, p ∈ l /\ f (backup p) = None) /\
    (forall p, reached l f p -> f (backup p) <> None -> restored lib f g p) /\
    (forall p, reached l f p -> f (backup p) = None -> no_dir lib p g) /\
    (forall p s, p ∈ l -> ~ reached l f p -> g (lib ++ p :: s)%list = f (lib ++ p :: s)%list /\
       g (lib ++ backup_of p :: s)%list = f (lib ++ backup_of p :: s)%list).
  Proof.
    revert f. induction l as [|p l IH]; intros f Hn T Hl Hd.
    { cbv zeta. split; [done|]. split; [|split; [|split]].
      - split; [done|]. intros (p & H & _). by apply elem_of_nil in H.
      - intros p (l1 & l2 & E & _). by destruct l1.
      - intros p (l1 & l2 & E & _). by destruct l1.
      - intros p s H. by apply elem_of_nil in H. }
    apply names_cons in Hn as [Hp Hn]. apply NoDup_cons in Hd as [Hd1 Hd2].
    destruct (restore_step p f Hp T Hl) as (O' & O & T1 & R1 & R2).
    assert (backup_of p <> p) as Np by (intros E; symmetry in E; by apply name_not_backup in E).
    cbn [atts map rollback_changed ua_active ua_backup].
    set (ops1 := if fs_exists f (active p) then [ORemoveAll (active p)] else []) in *. fold (atts lib l).
    assert (reached (p :: l) f p) as Hr by (exists [], l; split; [done|]; intros q Hq; by apply elem_of_nil in Hq).
    destruct (f (backup p)) as [n|] eqn:Hb.
    - assert (Some n <> None) as Hb' by done. rewrite (R1 Hb'). clear R1 R2.
      set (f2 := move (backup p) (active p) (run_ops ops1 f)).
      assert (forall x s, f2 (lib ++ x :: s)%list =
        if decide (x = p) then f (lib ++ backup_of p :: s)%list
        else if decide (x = backup_of p) then None else f (lib ++ x :: s)%list) as F2.
      { intros x s. unfold f2. rewrite move_slot, !O'.
        destruct (decide (backup_of p = p)); [done|]. destruct (decide (x = p)); [done|]. done. }
      assert (f2 lib = Some Dir) as L2.
      { unfold f2. rewrite move_out by (intros s; apply lib_neq). rewrite O; [done|]. intros s; apply lib_neq. }
      assert (tree_ok f2) as T2.
      { apply move_tree; [done|..]; rewrite removelast_last.
        - rewrite O; [done|]. intros s. apply lib_neq.
        - intros [s E]. rewrite slot_eq in E. by apply lib_neq in E. }
      destruct (IH f2 Hn T2 L2 Hd2) as (I1 & I2 & I3 & I4 & I5).
      assert (forall q s, q ∈ l -> f2 (lib ++ backup_of q :: s)%list = f (lib ++ backup_of q :: s)%list) as F3.
      { intros q s Hq. rewrite F2. destruct (decide _) as [E|_]; [symmetry in E; by apply name_not_backup in E|].
        destruct (decide _) as [E|_]; [apply backup_inj in E as ->; done|]. done. }
      assert (forall q s, q ∈ l -> f2 (lib ++ q :: s)%list = f (lib ++ q :: s)%list) as F4.
      { intros q s Hq. rewrite F2. destruct (decide _) as [E|_]; [by subst q|].
        destruct (decide _) as [E|_]; [|done]. apply Hn in Hq. by apply (name_not_backup _ p) in Hq. }
      assert (forall q, q ∈ l -> reached (p :: l) f q <-> reached l f2 q) as Re.
      { intros q Hq. split.
        - intros (l1 & l2 & E & H). destruct l1 as [|y l1]; cbn [app] in E; injection E as <- E; [done|].
          exists l1, l2. split; [done|]. intros z Hz. rewrite (F3 z []); [apply H; by right|]. rewrite E. set_solver.
        - intros (l1 & l2 & E & H). exists (p :: l1), l2. split; [by rewrite E|]. intros z Hz.
          apply elem_of_cons in Hz as [->|Hz]; [by rewrite Hb|]. rewrite <- (F3 z []); [by apply H|]. rewrite E. set_solver. }
      pose proof (restore_other lib l f2) as OT.
      destruct (rollback_changed f2 (atts lib l)) as [ops e] eqn:E2. cbn [fst snd] in *.
      assert (run_ops (ops1 ++ ORename (backup p) (active p) :: ops) f = run_ops ops f2) as RO.
      { rewrite run_ops_app.
        change (run_ops (ORename (backup p) (active p) :: ops) (run_ops ops1 f))
          with (run_ops ops (default (run_ops ops1 f) (rename (backup p) (active p) (run_ops ops1 f)))).
        unfold f2. rewrite rename_any; [done|done|..].
        - rewrite O; [done|]. intros s. apply lib_neq.
        - rewrite O'. destruct (decide (backup_of p = p)); [done|]. by rewrite Hb.
        - rewrite O'. by destruct (decide (p = p)). }
      rewrite RO.
      assert (p ∉ l /\ (forall y, y ∈ l -> p <> backup_of y)) as [N1 N2] by (split; [done|]; intros; by apply name_not_backup).
      assert (backup_of p ∉ l) as N3 by (intros H; apply Hn in H; by apply (name_not_backup _ p) in H).
      assert (forall y, y ∈ l -> backup_of p <> backup_of y) as N4 by (intros y Hy E; apply backup_inj in E as ->; done).
      split; [done|]. split; [|split; [|split]].
      + rewrite I2. split.
        * intros (q & Hq & E). exists q. split; [by right|]. by rewrite <- (F3 q []).
        * intros (q & Hq & E). apply elem_of_cons in Hq as [->|Hq]; [congruence|]. exists q. split; [done|]. by rewrite (F3 q []).
      + intros q Hq Hbq. assert (q ∈ p :: l) as Hm by (destruct Hq as (l1 & l2 & -> & _); set_solver).
        apply elem_of_cons in Hm as [->|Hm].
        * split; intros s; rewrite OT by done; rewrite F2; [by destruct (decide (p = p))|].
          destruct (decide (backup_of p = p)); [done|]. by destruct (decide (backup_of p = backup_of p)).
        * apply Re in Hq; [|done]. destruct (I3 q Hq) as [J1 J2]; [by rewrite (F3 q [])|]. split; [|done].
          intros s. rewrite (J1 s). by apply F3.
      + intros q Hq Hbq. assert (q ∈ p :: l) as Hm by (destruct Hq as (l1 & l2 & -> & _); set_solver).
        apply elem_of_cons in Hm as [->|Hm]; [congruence|]. apply Re in Hq; [|done]. apply I4; [done|]. by rewrite (F3 q []).
      + intros q s Hm Hq. apply elem_of_cons in Hm as [->|Hm]; [done|].
        assert (~ reached l f2 q) as Hq' by (intros X; by apply Hq, Re).
        destruct (I5 q s Hm Hq') as [-> ->]. split; [by apply F4|by apply F3].
    - rewrite R2 by done. cbn [fst snd].
      assert (forall q, reached (p :: l) f q -> q = p) as Re.
      { intros q (l1 & l2 & E & H). destruct l1 as [|y l1]; cbn [app] in E; injection E as <- E; [done|].
        exfalso. apply (H p); [by left|done]. }
      split; [done|]. split; [|split; [|split]].
      + split; [|done]. intros _. exists p. split; [by left|done].
      + intros q Hq Hbq. apply Re in Hq as ->. congruence.
      + intros q Hq _ s. apply Re in Hq as ->. rewrite O'. by destruct (decide (p = p)).
      + intros q s Hm Hq. apply elem_of_cons in Hm as [->|Hm]; [done|]. rewrite !O'.
        destruct (decide (q = p)) as [->|_]; [done|]. split; [done|].
        destruct (decide (backup_of q = p)) as [E|_]; [|done]. symmetry in E. by apply name_not_backup in E.
  Qed.
End lib.

Section run.
  Context (c : run_config) (i : run_input) (sc : path -> Prop) (w : run_world) (f : fsys).
  Context (Hok : run_ok c i f) (Hw : world_ok c i sc w f) (Hc : ip_create_library (ri_plan i) = false).

  Notation lib := (rc_library c).
  Notation active p := (lib ++ [p])%list.
  Notation backup p := (lib ++ [backup_of p])%list.
  Notation Su := (staged_updates c i).
  Notation So := (staged_overwrites i).
  Notation all := (required i).
  Notation add := (ri_additional i).
  Notation f1 := (run_ops (prepare_ops c i) f).
  Notation f2 := (rw_install w f1).

  Lemma f1_stale p : replaced c i p -> f (backup p) <> None ->
    same_dir lib p f1 p f /\ same_dir lib (backup_of p) f1 (backup_of p) f.
  Proof.
    intros Hp Hb. rewrite (prep_ops c i f Hok Hc). apply stage_stale.
    - by eapply (replaced_name c i f Hok).
    - apply (names_replaced c i f Hok).
    - by eapply (replaced_dir c i f Hok).
    - done.
  Qed.

  (** The backups hold the old contents. *)
  Lemma f1_copy p x : replaced c i p -> old_copy c f p x -> same_dir lib (backup_of p) f1 x f.
  Proof.
    intros Hp [[Hb ->]|[Hb ->]].
    - by apply (f1_staged c i f Hok Hc).
    - by apply f1_stale.
  Qed.

  Lemma copy_there p x : replaced c i p -> old_copy c f p x -> f (active x) <> None.
  Proof.
    intros Hp [[Hb ->]|[Hb ->]]; [|done]. by rewrite (replaced_dir c i f Hok p Hp).
  Qed.

  Lemma copy_ex p : exists x, old_copy c f p x.
  Proof. destruct (f (backup p)) eqn:E; [exists (backup_of p); right|exists p; left]; rewrite ?E; done. Qed.

  Notation new := (rp_new (plan_of_run c i)).
  Notation f3 := (run_ops (removals lib new) f2).
  Notation rb1 := (rollback_changed f3 (atts lib Su)).
  Notation f4 := (run_ops rb1.1 f3).
  Notation rb2 := (rollback_changed f4 (atts lib So)).
  Notation f5 := (run_ops rb2.1 f4).

  Lemma g3_slot x s : f3 (lib ++ x :: s)%list = if decide (x ∈ new) then None else f2 (lib ++ x :: s)%list.
  Proof. apply removals_spec. Qed.

  Lemma g3_copy p x : replaced c i p -> old_copy c f p x -> same_dir lib (backup_of p) f3 x f.
  Proof.
    intros Hp Hx s. rewrite g3_slot. destruct (decide _) as [H|_].
    - apply new_elem in H as [H _]. by apply (backup_not_all c i f Hok) in H.
    - rewrite (frame_slot c i sc f1 f2);
        [|by apply (scratch_backup c i sc w f Hw)|apply Hw|by apply (backup_not_all c i f Hok)].
      by apply f1_copy.
  Qed.

  Lemma g3_backup p : replaced c i p -> f3 (backup p) <> None.
  Proof.
    intros Hp. destruct (copy_ex p) as [x Hx]. rewrite (g3_copy p x Hp Hx []). by eapply copy_there.
  Qed.

  Lemma g3_tree : tree_ok f3.
  Proof. apply removals_tree. apply Hw. by apply f1_tree_ok. Qed.

  Lemma g3_lib : f3 lib = Some Dir.
  Proof.
    rewrite (touch_run lib (fun x => x ∈ new)); [|apply removals_touches|intros x s _; apply lib_neq].
    by apply (f2_lib c i sc w f Hok Hw Hc).
  Qed.

  Lemma all_reached l (g : fsys) : (forall p, p ∈ l -> g (backup p) <> None) -> forall p, p ∈ l -> reached lib l g p.
  Proof.
    intros H p Hp. apply elem_of_list_split in Hp as (l1 & l2 & ->). exists l1, l2. split; [done|].
    intros q Hq. apply H. set_solver.
  Qed.

  Lemma g4_spec : rb1.2 = false /\ tree_ok f4 /\ (forall p, p ∈ Su -> restored lib f3 f4 p).
  Proof.
    destruct (restore_any lib Su f3) as (R1 & R2 & R3 & _).
    - by eapply names_updates.
    - apply g3_tree.
    - apply g3_lib.
    - by eapply nodup_updates.
    - assert (forall p, p ∈ Su -> f3 (backup p) <> None) as B.
      { intros p Hp. apply g3_backup. left. by apply (elem_updates c i). }
      split; [|split; [done|]].
      + apply not_true_iff_false. intros E. apply R2 in E as (p & Hp & E). by apply (B p).
      + intros p Hp. apply R3; [by apply all_reached|by apply B].
  Qed.

  Lemma g4_other x s : x ∉ Su -> (forall p, p ∈ Su -> x <> backup_of p) ->
    f4 (lib ++ x :: s)%list = f3 (lib ++ x :: s)%list.
  Proof. intros. by apply restore_other. Qed.

  Lemma g4_none p : p ∈ So -> f4 (backup p) = None <-> p ∈ Su.
  Proof.
    intros Hp. split.
    - intros E. destruct (decide (p ∈ Su)) as [?|N]; [done|]. exfalso. revert E.
      assert (replaced c i p) as Hr by (right; by apply (elem_overwrites c i f Hok)).
      rewrite (g4_other (backup_of p) []); [by apply g3_backup|..].
      + intros H. apply (names_updates c i f Hok) in H. by apply (name_not_backup _ p) in H.
      + intros q Hq E. apply backup_inj in E as ->. done.
    - intros H. destruct g4_spec as (_ & _ & R). destruct (R p H) as [_ R2]. apply R2.
  Qed.

  Lemma g5_spec :
    tree_ok f5 /\
    (forall p, reached lib So f4 p -> p ∉ Su -> restored lib f4 f5 p) /\
    (forall p, reached lib So f4 p -> p ∈ Su -> no_dir lib p f5) /\
    (forall p s, p ∈ So -> ~ reached lib So f4 p -> f5 (lib ++ p :: s)%list = f4 (lib ++ p :: s)%list).
  Proof.
    destruct (restore_any lib So f4) as (R1 & R2 & R3 & R4 & R5).
    - by eapply names_overwrites.
    - apply g4_spec.
    - rewrite restore_lib. apply g3_lib.
    - by eapply nodup_overwrites.
    - assert (forall p, reached lib So f4 p -> p ∈ So) as M by (intros p (l1 & l2 & -> & _); set_solver).
      split; [done|]. split; [|split].
      + intros p Hp N. apply R3; [done|]. intros E. by apply N, (g4_none p (M p Hp)).
      + intros p Hp N. apply R4; [done|]. by apply (g4_none p (M p Hp)).
      + intros p s Hp N. by apply R5.
  Qed.

  Lemma nodup_add' : NoDup (ri_additional' i).
  Proof. rewrite (ro_additional _ _ _ Hok). apply (ro_additional_nodup _ _ _ Hok). Qed.

  Lemma filter_split {A} (P : A -> bool) (l : list A) l1 x l2 : List.filter P l = (l1 ++ x :: l2)%list ->
    exists k1 k2, l = (k1 ++ x :: k2)%list /\ List.filter P k1 = l1 /\ P x = true.
  Proof.
    revert l1. induction l as [|y l IH]; intros l1 E; cbn [List.filter] in E; [by destruct l1|].
    destruct (P y) eqn:Py.
    - destruct l1 as [|z l1]; cbn [app] in E; injection E as <- E.
      + exists [], l. done.
      + destruct (IH l1 E) as (k1 & k2 & -> & F & Px). exists (y :: k1), k2. cbn [app List.filter]. rewrite Py, F. done.
    - destruct (IH l1 E) as (k1 & k2 & -> & F & Px). exists (y :: k1), k2. cbn [app List.filter]. rewrite Py, F. done.
  Qed.

  Lemma reached_cut p : p ∈ So -> reached lib So f4 p <-> ~ cut_off c i p.
  Proof.
    intros Hp. unfold staged_overwrites, overwrites_of in *. set (P := fun q => match ri_preinstalled i !! q with Some _ => true | None => false end) in *.
    assert (forall q, q ∈ List.filter P (ri_additional' i) -> f4 (backup q) = None <-> q ∈ Su) as N.
    { intros q Hq. apply g4_none. exact Hq. }
    split.
    - intros (l1 & l2 & E & H) (q & a & b & d & Ea & Hu & Hov).
      apply filter_split in E as (k1 & k2 & Ek & F & _).
      assert (k1 = (a ++ q :: b)%list) as Hk.
      { pose proof nodup_add' as ND. rewrite Ek in Ea.
        replace (a ++ q :: b ++ p :: d)%list with ((a ++ q :: b) ++ p :: d)%list in Ea by (by rewrite <- app_assoc).
        rewrite Ek in ND. clear -Ea ND. revert Ea ND. generalize (a ++ q :: b)%list as k. intros k. revert k.
        induction k1 as [|x k1 IH]; intros k Ea ND.
        - destruct k as [|y k]; [done|]. cbn [app] in Ea. injection Ea as <- Ea. cbn [app] in ND.
          apply NoDup_cons in ND as [ND _]. destruct ND. rewrite Ea. set_solver.
        - cbn [app] in ND. apply NoDup_cons in ND as [ND1 ND2]. destruct k as [|y k]; cbn [app] in Ea; injection Ea as -> Ea.
          + destruct ND1. set_solver.
          + f_equal. by apply IH. }
      assert (q ∈ l1) as Hq.
      { rewrite <- F, Hk. apply fold_filter_elem. split; [set_solver|]. unfold P. destruct Hov as [_ [? ->]]. done. }
      apply (H q Hq). apply N; [|by apply (elem_updates c i)].
      rewrite Ek, Hk. apply fold_filter_elem. split; [set_solver|]. unfold P. destruct Hov as [_ [? ->]]. done.
    - intros Hn. apply elem_of_list_split in Hp as (l1 & l2 & E). exists l1, l2. split; [done|].
      intros q Hq E0. apply Hn.
      assert (q ∈ List.filter P (ri_additional' i)) as Hq' by (rewrite E; set_solver).
      pose proof E as E'. apply filter_split in E' as (k1 & k2 & Ek & F & _).
      rewrite <- F in Hq. apply fold_filter_elem in Hq as [Hq Pq].
      apply elem_of_list_split in Hq as (a & b & ->). exists q, a, b, k2.
      split; [rewrite Ek, <- app_assoc; done|]. split.
      + apply (elem_updates c i). by apply N.
      + split; [rewrite <- (ro_additional _ _ _ Hok), Ek; set_solver|]. unfold P in Pq. by destruct (ri_preinstalled i !! q).
  Qed.

  Context (Hroll : rc_no_rollback c = false) (Hfail : failed w) (Hdl : rw_download_fails w = false).

  Lemma final_eq : run_final c i w f = run_ops (cleanup_ops c i f5) f5.
  Proof.
    assert (rollback_ops c i w f2 = (removals lib new ++ rb1.1 ++ rb2.1)%list) as RB.
    { unfold rollback_ops. rewrite Hroll, Hc. cbn [negb andb].
      replace (rw_plan_error w || rw_additional_error w) with true
        by (symmetry; apply orb_true_iff; exact Hfail).
      rewrite (rollback_eq c i f Hok) by done. cbv zeta.
      destruct g4_spec as [-> _]. done. }
    unfold run_final, r_install. rewrite Hc, Hdl. cbn [andb rt_outcome].
    unfold run_changes. cbn [rt_prepare rt_install rt_rollback rt_cleanup].
    rewrite !run_ops_app. cbn [run_ops fold_left exec]. fold (run_ops (prepare_ops c i) f).
    by rewrite RB, !run_ops_app.
  Qed.

  (** Deleting the backups. *)
  Lemma final_spec :
    (forall p, replaced c i p -> no_dir lib (backup_of p) (run_final c i w f)) /\
    (forall q, (forall p s, replaced c i p -> q <> (lib ++ backup_of p :: s)%list) -> run_final c i w f q = f5 q).
  Proof.
    rewrite final_eq. unfold cleanup_ops. rewrite (plan_updates c i f Hok), (plan_additional c i f Hok), run_ops_app.
    set (g := run_ops (delete_backups f5 (atts lib Su)) f5).
    destruct (delete_spec lib Su f5) as (D1 & D2 & D3). destruct (delete_spec lib So g) as (E1 & E2 & E3).
    fold g in D2, D3. destruct g5_spec as (T5 & _).
    assert (tree_ok g) as T6.
    { unfold g. clear -T5. revert T5. generalize f5 as h. induction Su as [|p l IH]; intros h T; [done|].
      cbn [atts map delete_backups ua_backup]. destruct (fs_exists _ _).
      - change (run_ops (ORemoveAll ?b :: ?o) h) with (run_ops o (remove_all b h)). by apply IH, remove_tree.
      - by apply IH. }
    split.
    - intros p Hp. destruct (decide (p ∈ So)) as [Ho'|Ho']; [by apply E2|].
      apply (replaced_elem c i f Hok), elem_of_app in Hp as [Hp|?]; [|done].
      intros s. rewrite E3; [by apply D2|]. intros q t Hq E. apply app_cons_inj in E as [E _].
      apply backup_inj in E as ->. done.
    - intros q Hq. rewrite E3, D3; [done|..]; intros p s Hp; apply Hq; apply (replaced_elem c i f Hok), elem_of_app; auto.
  Qed.

  Lemma final_name p s : r_name p -> run_final c i w f (lib ++ p :: s)%list = f5 (lib ++ p :: s)%list.
  Proof.
    intros Hp. apply final_spec. intros q t Hq E. apply app_cons_inj in E as [E _]. by apply (name_not_backup _ q) in Hp.
  Qed.

  Lemma rolled_back_exact : let g := run_final c i w f in
    (forall p, replaced c i p -> no_dir lib (backup_of p) g) /\
    (forall p, lost c i p -> no_dir lib p g) /\
    (forall p, left_new c i p -> same_dir lib p g p f2) /\
    (forall p x, replaced c i p -> ~ lost c i p -> ~ left_new c i p -> old_copy c f p x -> same_dir lib p g x f) /\
    (forall p, p ∈ all -> ri_preinstalled i !! p = None -> no_dir lib p g) /\
    (forall q, ~ sc q ->
       (forall p, replaced c i p -> ~ in_dir (lib ++ [p]) q /\ ~ in_dir (lib ++ [backup_of p]) q) ->
       (forall p, p ∈ all -> ri_preinstalled i !! p = None -> ~ in_dir (lib ++ [p]) q) -> g q = f q).
  Proof.
    cbv zeta. destruct final_spec as [F1 F2]. destruct g5_spec as (_ & G1 & G2 & G3). destruct g4_spec as (_ & _ & G4).
    assert (forall p, overwritten i p <-> p ∈ So) as Eo by (intros; symmetry; by apply (elem_overwrites c i f Hok)).
    assert (forall p, updated c i p <-> p ∈ Su) as Eu by (intros; symmetry; by apply (elem_updates c i)).
    assert (forall p, p ∈ Su -> r_name p) as Nu by (intros; by apply (names_updates c i f Hok)).
    assert (forall p, p ∈ So -> r_name p) as No by (intros; by apply (names_overwrites c i f Hok)).
    split; [done|]. split; [|split; [|split; [|split]]].
    - intros p [[Hu Ho] Hn] s. apply Eu in Hu. apply Eo in Ho. rewrite final_name by auto. apply G2; [|done].
      by apply reached_cut.
    - intros p (Ho & Hu & Hcut) s. apply Eo in Ho. rewrite Eu in Hu. rewrite final_name by auto.
      rewrite G3; [|done|by rewrite reached_cut by done; auto].
      rewrite g4_other; [|done|intros q Hq; apply name_not_backup; by apply No].
      rewrite g3_slot. destruct (decide _) as [H|_]; [|done].
      apply new_elem in H as [_ H]. apply (elem_overwrites c i f Hok) in Ho as [_ Ho]. rewrite H in Ho. by destruct Ho.
    - intros p x Hp Hl Hn Hx s. pose proof (replaced_name c i f Hok p Hp) as Hr. rewrite final_name by done.
      destruct (decide (p ∈ Su)) as [Hu|Hu].
      + assert (f5 (lib ++ p :: s)%list = f4 (lib ++ p :: s)%list) as ->.
        { destruct (decide (p ∈ So)) as [Ho|Ho].
          - apply G3; [done|]. rewrite reached_cut by done. intros Hcut. apply Hl. split; [|done]. split; [by apply Eu|by apply Eo].
          - apply restore_other; [done|]. intros q Hq. by apply name_not_backup. }
        destruct (G4 p Hu) as [R1 _]. rewrite (R1 s). by apply g3_copy.
      + assert (p ∈ So) as Ho. { apply (replaced_elem c i f Hok), elem_of_app in Hp as [?|?]; done. }
        assert (reached lib So f4 p) as Re.
        { apply reached_cut; [done|]. intros Hcut. apply Hn. split; [by apply Eo|]. split; [by rewrite Eu|done]. }
        destruct (G1 p Re Hu) as [R1 _]. rewrite (R1 s). rewrite g4_other; [by apply g3_copy|..].
        * intros H. apply Nu in H. by apply (name_not_backup _ p) in H.
        * intros q Hq E. apply backup_inj in E as ->. done.
    - intros p Hp Hpre s. rewrite final_name by (by apply (ro_names _ _ _ Hok)).
      assert (p ∈ new) as Hnew by (by apply new_elem).
      assert (~ replaced c i p) as Hr. { intros H. apply (replaced_pre c i f Hok) in H. rewrite Hpre in H. by destruct H. }
      pose proof (ro_names _ _ _ Hok p Hp) as Hnm.
      rewrite restore_other; [rewrite g4_other; [rewrite g3_slot; by destruct (decide _)|..]|..].
      + intros H. apply Hr. left. by apply Eu.
      + intros q Hq. by apply name_not_backup.
      + intros H. apply Hr. right. by apply Eo.
      + intros q Hq. by apply name_not_backup.
    - intros q Hsc Hq1 Hq2.
      assert (forall p s, replaced c i p -> q <> (lib ++ p :: s)%list /\ q <> (lib ++ backup_of p :: s)%list) as K.
      { intros p s Hp. destruct (Hq1 p Hp) as [N1 N2]. split; intros ->; [apply N1|apply N2]; exists s; by rewrite slot_eq. }
      rewrite F2 by (intros p s Hp; by apply K).
      assert (forall p, p ∈ Su -> replaced c i p) as Ru by (intros p Hp; left; by apply Eu).
      assert (forall p, p ∈ So -> replaced c i p) as Ro by (intros p Hp; right; by apply Eo).
      rewrite (restore_frame lib So f4) by (intros p s Hp; by apply K, Ro).
      rewrite (restore_frame lib Su f3) by (intros p s Hp; by apply K, Ru).
      rewrite (touch_run lib (fun x => x ∈ new)); [|apply removals_touches|].
      2:{ intros x s Hx ->. apply new_elem in Hx as [X1 X2]. apply (Hq2 x X1 X2). exists s. by rewrite slot_eq. }
      assert (f1 q = f q) as E1.
      { rewrite (prep_ops c i f Hok Hc). apply stage_frame; intros p s Hp;
          apply K, (replaced_elem c i f Hok); done. }
      destruct (slot_case lib q) as [(x & s & ->)|Hq].
      + destruct (decide (x ∈ all)) as [Ha|Ha].
        * assert (is_Some (ri_preinstalled i !! x)) as Hpre.
          { destruct (ri_preinstalled i !! x) eqn:E; [by eexists|]. exfalso. apply (Hq2 x Ha E). exists s. by rewrite slot_eq. }
          assert (~ replaced c i x) as Hx. { intros H. by destruct (K x s H) as [[] _]. }
          assert (x ∉ add) as Hadd. { intros H. apply Hx. right. by split. }
          assert (r_name x) as Hnx by (by apply (ro_names _ _ _ Hok)).
          destruct Hw as (_ & [_ Hskip] & _). rewrite (Hskip x Ha Hadd); [done|].
          rewrite (f1_other c i f Hok Hc x []); [by apply (ro_scan _ _ _ Hok)|done|].
          intros p _. by apply name_not_backup.
        * rewrite (frame_slot c i sc f1 f2); [done|done|apply Hw|done].
      + rewrite (install_untouched c i sc add f1 f2); [done|done|intros x s _; apply Hq|apply Hw].
  Qed.
End run.
