(** Several runs with one library. *)
From stdpp Require Import strings list gmap relations.
From Coq Require Import Ascii Lia.
From Verif.model Require Import GoStr Fs Rollback Runs.
From Verif.spec Require Import LibSpec RunsSpec.
From Verif.proofs Require Import FsProofs.

Local Open Scope string_scope.

Section runs.
Context (lib : list string).

Lemma tags_about r p : p ∈ rn_tags r -> about r p.
Proof. unfold rn_tags, about. rewrite elem_of_app. tauto. Qed.

Lemma own_lib r : ~ own lib r lib.
Proof. intros (p & s & _ & [E|E]); by apply lib_neq in E. Qed.

(** ** Each change *)

Lemma put_slot p t f x s : r_name p -> put lib p t f (lib ++ x :: s)%list = if decide (p = x) then t s else f (lib ++ x :: s)%list.
Proof.
  intros Hp. unfold put. rewrite join_name by done. destruct (decide (p = x)) as [-> |Hn].
  - assert (strip (lib ++ [x]) (lib ++ x :: s) = Some s) as -> by by apply strip_spec; rewrite slot_eq. done.
  - destruct (strip (lib ++ [p]) (lib ++ x :: s)) as [u|] eqn:E; [|done]. apply strip_spec in E. rewrite slot_eq in E.
    apply app_cons_inj in E as [E _]. by destruct Hn.
Qed.

Lemma put_out p t f q : r_name p -> (forall s, q <> (lib ++ p :: s)%list) -> put lib p t f q = f q.
Proof.
  intros Hp H. unfold put. rewrite join_name by done. destruct (strip (lib ++ [p]) q) as [u|] eqn:E; [|done].
  apply strip_spec in E. rewrite slot_eq in E. by destruct (H u).
Qed.

(** What is done to [q] depends on some places only. *)
Definition agree (S : list string -> Prop) (f g : fsys) : Prop := forall q, S q -> g q = f q.

Lemma remove_agree S p f g : agree S f g -> agree S (remove_all p f) (remove_all p g).
Proof. intros H q Hq. unfold remove_all. destruct (below p q); [done|]. by apply H. Qed.

Lemma put_agree S p t f g : agree S f g -> agree S (put lib p t f) (put lib p t g).
Proof. intros H q Hq. unfold put. destruct (strip _ q); [done|]. by apply H. Qed.

Lemma rename_agree (S : list string -> Prop) x y f g : (forall s, S (lib ++ x :: s)%list) -> (forall s, S (lib ++ y :: s)%list) -> S lib -> agree S f g ->
  match rename (lib ++ [x]) (lib ++ [y]) f, rename (lib ++ [x]) (lib ++ [y]) g with
  | Some f', Some g' => agree S f' g' | None, None => True | _, _ => False end.
Proof.
  intros Hx Hy Hl H. unfold rename, fs_dir_exists, fs_exists. rewrite removelast_slot.
  rewrite (H (lib ++ [x])%list), (H (lib ++ [y])%list), (H lib) by done.
  destruct (f (lib ++ [x])%list) as [n|]; [|done]. destruct (negb _); [done|].
  destruct (match f (lib ++ [y])%list with Some Dir => true | _ => false end); [done|].
  destruct (is_dir n && _); [done|]. intros q Hq. unfold move. destruct (strip (lib ++ [y]) q) as [s|] eqn:E.
  - apply strip_spec in E as ->. rewrite slot_eq. by apply H.
  - destruct (below (lib ++ [x]) q); [done|]. by apply H.
Qed.

(** ** Frames *)

Definition in_phase (r : run) (a : phase) : Prop :=
  match a with
  | RMake | RDone _ | RStop => True
  | RUndo => rn_create r = true
  | RTag l | RRemove l | RRestore l | RDelete l _ => forall p, p ∈ l -> about r p
  | RRename p l => about r p /\ forall p', p' ∈ l -> about r p'
  | RInstall todo busy _ => forall j, j ∈ todo \/ j ∈ busy -> about r (jb_name j)
  end.

Definition outside (r : run) (f f' : fsys) : Prop := forall q, ~ own lib r q -> f' q = f q.

Definition region (r : run) (q : list string) : Prop := own lib r q \/ q = lib.

Lemma own_name r p s : about r p -> own lib r (lib ++ p :: s)%list.
Proof. intros H. exists p, s. tauto. Qed.

Lemma own_backup r p s : about r p -> own lib r (lib ++ backup_of p :: s)%list.
Proof. intros H. exists p, s. tauto. Qed.

Lemma remove_outside r x f : (forall s, own lib r (lib ++ x :: s)%list) -> outside r f (remove_all (lib ++ [x]) f).
Proof. intros H q Hq. apply remove_out. intros s ->. by apply Hq. Qed.

Lemma rename_outside r x y f f' : (forall s, own lib r (lib ++ x :: s)%list) -> (forall s, own lib r (lib ++ y :: s)%list) ->
  rename (lib ++ [x]) (lib ++ [y]) f = Some f' -> outside r f f'.
Proof.
  intros Hx Hy E q Hq. pose proof (rename_out lib x y f q) as K. rewrite E in K. cbn [default] in K. apply K; intros s ->; by apply Hq.
Qed.

Lemma step_frame r a f a' f' : (forall p, about r p -> r_name p) -> rn_create r = false -> in_phase r a -> run_step lib r (a, f) (a', f') ->
  in_phase r a' /\ outside r f f' /\
  forall g, agree (region r) f g -> exists g', run_step lib r (a, g) (a', g') /\ agree (region r) f' g'.
Proof.
  intros Hn Hc Hi Hs.
  assert (forall q, outside r q q) as Hrefl by (intros q ? ?; done).
  assert (forall p s, about r p -> region r (lib ++ p :: s)%list) as Rn by (intros; left; by apply own_name).
  assert (forall p s, about r p -> region r (lib ++ backup_of p :: s)%list) as Rb by (intros; left; by apply own_backup).
  assert (region r lib) as Rl by by right.
  inversion Hs as [f1 f2 Hm|f1 Hc' Hm|p l f1|f1|f1|l1 j l2 busy bad f1 Ht Hd|l1 j l2 busy bad f1 Hd|todo l1 j l2 bad f1 Hd|todo l1 j l2 bad f1|
    todo bad f1 Hd|f1|p l f1|f1|p l f1|p l f1 f2 Hr|p l f1 Hr|f1|p l bad f1|bad f1]; clear Hs; subst; cbn [in_phase] in *.
  - rewrite Hc in Hm. subst f'. split; [intros p; apply tags_about|]. split; [done|]. intros g Hg. exists g. split; [|done]. constructor. by rewrite Hc.
  - congruence.
  - assert (about r p) as Hp by (apply Hi; left). cbn [tag_old fst exec]. rewrite join_name, join_backup by auto.
    split; [intros p' ?; apply Hi; by right|]. split.
    + destruct (rename _ _ f) as [f'|] eqn:E; [|exact (Hrefl f)]. cbn [default]. eapply rename_outside; [..|exact E]; intros s; [by apply own_name|by apply own_backup].
    + intros g Hg. eexists. split; [apply step_tag|]. cbn [tag_old fst exec]. rewrite join_name, join_backup by auto.
      pose proof (rename_agree (region r) p (backup_of p) f g ltac:(auto) ltac:(auto) Rl Hg) as K.
      destruct (rename _ _ f), (rename _ _ g); done.
  - split; [|split; [done|]]. { intros j [Hj|Hj]; [|by apply elem_of_nil in Hj]. right. right. right. by exists j. }
    intros g Hg. exists g. split; [constructor|done].
  - split; [done|]. split; [done|]. intros g Hg. exists g. split; [constructor|done].
  - assert (about r (jb_name j)) as Hp. { apply Hi. left. rewrite elem_of_app, elem_of_cons. tauto. }
    split; [|split; [done|]]. { intros j' Hj. apply Hi. revert Hj. rewrite !elem_of_app, elem_of_cons. tauto. }
    intros g Hg. exists g. split; [|done]. constructor; [done|]. revert Hd. unfold fs_dir_exists. rewrite join_name by auto. by rewrite Hg by auto.
  - assert (about r (jb_name j)) as Hp. { apply Hi. left. rewrite elem_of_app, elem_of_cons. tauto. }
    split; [|split; [done|]]. { intros j' Hj. apply Hi. revert Hj. rewrite !elem_of_app, !elem_of_cons. tauto. }
    intros g Hg. exists g. split; [|done]. constructor. revert Hd. unfold fs_dir_exists. rewrite join_name by auto. by rewrite Hg by auto.
  - assert (about r (jb_name j)) as Hp. { apply Hi. right. rewrite elem_of_app, elem_of_cons. tauto. }
    split; [|split]. { intros j' Hj. apply Hi. revert Hj. rewrite !elem_of_app, elem_of_cons. tauto. }
    + intros q Hq. apply put_out; [auto|]. intros s ->. apply Hq. by apply own_name.
    + intros g Hg. eexists. split; [constructor|by apply put_agree]. revert Hd. unfold fs_dir_exists. by rewrite Hg by auto.
  - split; [|split; [done|]]. { intros j' Hj. apply Hi. revert Hj. rewrite !elem_of_app, elem_of_cons. tauto. }
    intros g Hg. exists g. split; [constructor|done].
  - split; [|split; [done|]].
    { unfold after_install. rewrite Hc. destruct (bad && rn_rollback r); cbn [in_phase]; intros p Hp; [by left|by apply tags_about]. }
    intros g Hg. exists g. split; [by constructor|done].
  - congruence.
  - assert (about r p) as Hp by (apply Hi; left). rewrite join_name by auto. split; [intros p' ?; apply Hi; by right|].
    split; [apply remove_outside; intros s; by apply own_name|]. intros g Hg. eexists. split; [constructor|]. rewrite join_name by auto. by apply remove_agree.
  - split; [intros p; apply tags_about|]. split; [done|]. intros g Hg. exists g. split; [constructor|done].
  - assert (about r p) as Hp by (apply Hi; left). rewrite join_name by auto. split; [split; [done|]; intros p' ?; apply Hi; by right|].
    split; [apply remove_outside; intros s; by apply own_name|]. intros g Hg. eexists. split; [constructor|]. rewrite join_name by auto. by apply remove_agree.
  - destruct Hi as [Hp Hi]. rewrite (join_name lib p), (join_backup lib p) in Hr by auto. split; [done|].
    split; [eapply rename_outside; [..|exact Hr]; intros s; [by apply own_backup|by apply own_name]|].
    intros g Hg. pose proof (rename_agree (region r) (backup_of p) p f g ltac:(auto) ltac:(auto) Rl Hg) as K. rewrite Hr in K.
    destruct (rename _ _ g) as [g'|] eqn:E; [|done]. exists g'. split; [|done]. constructor. by rewrite (join_name lib p), (join_backup lib p) by auto.
  - destruct Hi as [Hp Hi]. rewrite (join_name lib p), (join_backup lib p) in Hr by auto. split; [intros p'; apply tags_about|]. split; [done|].
    intros g Hg. pose proof (rename_agree (region r) (backup_of p) p f' g ltac:(auto) ltac:(auto) Rl Hg) as K. rewrite Hr in K.
    destruct (rename _ _ g) as [g'|] eqn:E; [done|]. exists g. split; [|done]. apply step_not_renamed. by rewrite (join_name lib p), (join_backup lib p) by auto.
  - split; [intros p; apply tags_about|]. split; [done|]. intros g Hg. exists g. split; [constructor|done].
  - assert (about r p) as Hp by (apply Hi; left). rewrite join_backup by auto. split; [intros p' ?; apply Hi; by right|].
    split; [apply remove_outside; intros s; by apply own_backup|]. intros g Hg. eexists. split; [constructor|]. rewrite join_backup by auto. by apply remove_agree.
  - split; [done|]. split; [done|]. intros g Hg. exists g. split; [constructor|done].
Qed.

(** ** Runs about different packages *)

Lemma own_apart r r' q : (forall p, about r p -> r_name p) -> (forall p, about r' p -> r_name p) -> (forall p, about r p -> ~ about r' p) ->
  own lib r q -> ~ own lib r' q.
Proof.
  intros Hn Hn' Hd (p & s & Hp & Hq) (p' & s' & Hp' & Hq'). destruct Hq as [-> | ->], Hq' as [E|E]; apply app_cons_inj in E as [E _].
  - subst. by apply (Hd p').
  - by apply (name_not_backup p p') in E; [|apply Hn].
  - symmetry in E. by apply (name_not_backup p' p) in E; [|apply Hn'].
  - apply backup_inj in E. subst. by apply (Hd p').
Qed.

Lemma runs_ind rs f (P : runs_state -> Prop) : P (runs_started rs f) ->
  (forall x y, runs_happen lib rs f x -> P x -> runs_step lib rs x y -> P y) -> forall x, runs_happen lib rs f x -> P x.
Proof.
  intros H1 H2 x H. unfold runs_happen in H. revert x H. apply (rtc_ind_r P); [done|]. intros x y Hx Hxy Px. by apply (H2 x y).
Qed.

Lemma alone_ind r f (P : phase -> fsys -> Prop) : P RMake f ->
  (forall a g a' g', alone lib r f a g -> P a g -> run_step lib r (a, g) (a', g') -> P a' g') -> forall a g, alone lib r f a g -> P a g.
Proof.
  intros H1 H2 a g H. unfold alone in H. change (P (a, g).1 (a, g).2). revert H. generalize (a, g).
  apply (rtc_ind_r (fun y => P y.1 y.2)); [done|]. intros [b h] [b' h'] Hx Hxy Px. by apply (H2 b h b' h').
Qed.

Lemma runs_length rs f x : runs_happen lib rs f x -> length (rs_each x) = length rs.
Proof.
  revert x. apply (runs_ind rs f); [cbn; by rewrite map_length|]. intros x y _ IH Hxy.
  destruct Hxy. cbn [rs_each] in *. by rewrite insert_length.
Qed.

Lemma started_at rs f i a : run_at (runs_started rs f) i a -> a = RMake.
Proof. unfold run_at, runs_started. cbn [rs_each]. rewrite list_lookup_fmap. destruct (rs !! i); [|done]. cbn. by intros [= <-]. Qed.

Lemma runs_outside rs f x : plain_runs rs -> no_creation rs -> runs_happen lib rs f x ->
  (forall i r a, rs !! i = Some r -> run_at x i a -> in_phase r a) /\
  (forall q, (forall r, r ∈ rs -> ~ own lib r q) -> rs_fs x q = f q).
Proof.
  intros Hp Hc. revert x. apply (runs_ind rs f); [|intros x y Hx [IH1 IH2] Hxy].
  { split; [|done]. intros i r a _ Ha. by rewrite (started_at _ _ _ _ Ha). }
  destruct Hxy as [k r a a' g g' x Hk Ha Hs]. cbn [rs_fs rs_each] in *.
  assert (r ∈ rs) as Hr by by eapply elem_of_list_lookup_2.
  destruct (step_frame r a g a' g') as (F1 & F2 & _); [by intros; eapply Hp|by apply Hc|by eapply IH1|done|].
  split.
  - intros i r' b Hi Hb. unfold run_at in Hb. cbn [rs_each] in Hb. destruct (decide (i = k)) as [-> |Hne].
    + rewrite list_lookup_insert in Hb by (by eapply lookup_lt_Some). congruence.
    + rewrite list_lookup_insert_ne in Hb by done. by eapply IH1.
  - intros q Hq. rewrite F2 by by apply Hq. by apply IH2.
Qed.

Lemma runs_alone rs f x : plain_runs rs -> no_creation rs -> disjoint_runs rs -> runs_happen lib rs f x ->
  forall i r a, rs !! i = Some r -> run_at x i a -> exists g, alone lib r f a g /\ agree (region r) (rs_fs x) g.
Proof.
  intros Hp Hc Hd H. pattern x. apply (runs_ind rs f); [| |exact H]; clear x H; [|intros x y Hx IH Hxy].
  { intros i r a _ Ha. rewrite (started_at _ _ _ _ Ha). exists f. split; [apply rtc_refl|done]. }
  pose proof (runs_outside _ _ _ Hp Hc Hx) as [Hin _].
  destruct Hxy as [k r a a' g g' x Hk Ha Hs]. cbn [rs_fs rs_each] in *.
  assert (forall i r', rs !! i = Some r' -> forall p, about r' p -> r_name p) as Hn. { intros i r' Hi p. eapply Hp. by eapply elem_of_list_lookup_2. }
  destruct (step_frame r a g a' g') as (F1 & F2 & F3); [by eapply Hn|eapply Hc; by eapply elem_of_list_lookup_2|by eapply Hin|done|].
  intros i r' b Hi Hb. unfold run_at in Hb. cbn [rs_each] in Hb. destruct (decide (i = k)) as [-> |Hne].
  - rewrite list_lookup_insert in Hb by (by eapply lookup_lt_Some). injection Hb as <-. rewrite Hk in Hi. injection Hi as <-.
    destruct (IH k r a Hk Ha) as (h & A1 & A2). destruct (F3 h A2) as (h' & S1 & S2). exists h'. split; [|done].
    unfold alone. by eapply rtc_r.
  - rewrite list_lookup_insert_ne in Hb by done. destruct (IH i r' b Hi Hb) as (h & A1 & A2). exists h. split; [done|].
    intros q Hq. rewrite (A2 q Hq). symmetry. apply F2. destruct Hq as [Hq| ->]; [|apply own_lib].
    eapply own_apart; [by eapply Hn|by eapply Hn| |exact Hq]. intros p Hp'. by eapply Hd.
Qed.

(** ** One run alone *)

Definition same_at (x : string) (f f' : fsys) : Prop := forall s, f' (lib ++ x :: s)%list = f (lib ++ x :: s)%list.

Lemma same_at_none x f f' : same_at x f f' -> no_dir lib x f -> no_dir lib x f'.
Proof. intros H1 H2 s. by rewrite H1. Qed.

Lemma same_at_same x f f' y f0 : same_at x f f' -> same_dir lib x f y f0 -> same_dir lib x f' y f0.
Proof. intros H1 H2 s. by rewrite H1. Qed.

Lemma same_at_holds j f f' : same_at (jb_name j) f f' -> holds lib f j -> holds lib f' j.
Proof. intros H1 H2 s. by rewrite H1. Qed.

Lemma remove_same x y f : x <> y -> same_at y f (remove_all (lib ++ [x]) f).
Proof. intros H s. rewrite remove_slot. by destruct (decide (x = y)). Qed.

Lemma remove_none x f : no_dir lib x (remove_all (lib ++ [x]) f).
Proof. intros s. rewrite remove_slot. by destruct (decide (x = x)). Qed.

Lemma put_same p t x f : r_name p -> p <> x -> same_at x f (put lib p t f).
Proof. intros Hp H s. rewrite put_slot by done. by destruct (decide (p = x)). Qed.

Lemma put_holds j f : r_name (jb_name j) -> holds lib (put lib (jb_name j) (jb_tree j) f) j.
Proof. intros Hp s. rewrite put_slot by done. by destruct (decide (jb_name j = jb_name j)). Qed.

Lemma rename_some x y f f' : rename (lib ++ [x]) (lib ++ [y]) f = Some f' -> f' = move (lib ++ [x]) (lib ++ [y]) f.
Proof.
  unfold rename. destruct (f _) as [n|]; [|done]. destruct (negb _); [done|]. destruct (fs_dir_exists f (lib ++ [y])); [done|].
  destruct (is_dir n && _); [done|]. congruence.
Qed.

Lemma move_same x y z f : z <> x -> z <> y -> same_at z f (move (lib ++ [x]) (lib ++ [y]) f).
Proof. intros H1 H2 s. rewrite move_slot. destruct (decide (z = y)); [done|]. by destruct (decide (z = x)). Qed.

Lemma move_gone x y f : x <> y -> no_dir lib x (move (lib ++ [x]) (lib ++ [y]) f).
Proof. intros H s. rewrite move_slot. destruct (decide (x = y)); [done|]. by destruct (decide (x = x)). Qed.

Lemma move_there x y f : same_dir lib y (move (lib ++ [x]) (lib ++ [y]) f) x f.
Proof. intros s. rewrite move_slot. by destruct (decide (y = y)). Qed.

Lemma rename_same x y z f f' : rename (lib ++ [x]) (lib ++ [y]) f = Some f' -> z <> x -> z <> y -> same_at z f f'.
Proof. intros E. apply rename_some in E as ->. apply move_same. Qed.

Lemma step_lib r a f a' f' : (forall p, about r p -> r_name p) -> rn_create r = false -> in_phase r a -> run_step lib r (a, f) (a', f') -> f' lib = f lib.
Proof. intros Hn Hc Hi Hs. destruct (step_frame r a f a' f' Hn Hc Hi Hs) as (_ & H & _). apply H, own_lib. Qed.

Section single.
Context (r : run) (f0 : fsys).
Hypothesis Hn : forall p, about r p -> r_name p.
Hypothesis Hc : rn_create r = false.
Hypothesis Hp : run_planned lib f0 r.

Definition orig (p : string) (f : fsys) : Prop := same_dir lib p f p f0 /\ no_dir lib (backup_of p) f.
Definition saved (p : string) (f : fsys) : Prop := same_dir lib (backup_of p) f p f0.

Definition tag_ok (a : phase) (f : fsys) (p : string) : Prop :=
  match a with
  | RMake => orig p f
  | RTag l => (p ∈ l /\ orig p f) \/ (p ∉ l /\ no_dir lib p f /\ saved p f)
  | RInstall _ _ _ | RRemove _ => saved p f
  | RRestore l => (p ∈ l /\ saved p f) \/ (p ∉ l /\ orig p f)
  | RRename p' l => (p = p' /\ no_dir lib p f /\ saved p f) \/ (p <> p' /\ p ∈ l /\ saved p f) \/ (p <> p' /\ p ∉ l /\ orig p f)
  | RDelete _ true | RDone true => rn_rollback r = true -> orig p f
  | _ => True
  end.

Definition new_ok (a : phase) (f : fsys) (p : string) : Prop :=
  same_dir lib (backup_of p) f (backup_of p) f0 /\
  match a with
  | RMake | RTag _ | RRestore _ | RRename _ _ => no_dir lib p f
  | RRemove l => p ∈ l \/ no_dir lib p f
  | RDelete _ true | RDone true => rn_rollback r = true -> no_dir lib p f
  | _ => True
  end.

Definition kept_ok (f : fsys) (p : string) : Prop :=
  same_dir lib p f p f0 /\ same_dir lib (backup_of p) f (backup_of p) f0.

Definition lists_ok (a : phase) : Prop :=
  match a with
  | RTag l | RRestore l => NoDup l /\ forall p, p ∈ l -> p ∈ rn_tags r
  | RRename p l => NoDup l /\ p ∈ rn_tags r /\ p ∉ l /\ forall p', p' ∈ l -> p' ∈ rn_tags r
  | RRemove l => forall p, p ∈ l -> p ∈ rn_new r
  | RDelete l _ => forall p, p ∈ l -> p ∈ rn_tags r
  | RInstall todo busy _ => (forall j, j ∈ todo -> j ∈ rn_jobs r) /\
      (forall j, j ∈ busy -> j ∈ rn_jobs r /\ (jb_name j ∈ rn_new r \/ jb_name j ∈ rn_tags r))
  | RUndo => False
  | _ => True
  end.

Definition single_inv (a : phase) (f : fsys) : Prop :=
  f lib = Some Dir /\ lists_ok a /\ (forall p, p ∈ rn_tags r -> tag_ok a f p) /\ (forall p, p ∈ rn_new r -> new_ok a f p) /\
  (forall p, about r p -> p ∉ rn_new r -> p ∉ rn_tags r -> kept_ok f p).

Lemma orig_keep p f f' : same_at p f f' -> same_at (backup_of p) f f' -> orig p f -> orig p f'.
Proof. intros H1 H2 [A B]. split; [by eapply same_at_same|by eapply same_at_none]. Qed.

Lemma saved_keep p f f' : same_at (backup_of p) f f' -> saved p f -> saved p f'.
Proof. intros H A. by eapply same_at_same. Qed.

Lemma tag_keep a p f f' : same_at p f f' -> same_at (backup_of p) f f' -> tag_ok a f p -> tag_ok a f' p.
Proof.
  intros H1 H2. assert (orig p f -> orig p f') as A by by apply orig_keep. assert (saved p f -> saved p f') as B by by apply saved_keep.
  assert (no_dir lib p f -> no_dir lib p f') as C by by apply same_at_none.
  destruct a as [|l|todo busy bad| |l|l|p' l|l []|[]|]; cbn [tag_ok]; tauto.
Qed.

Lemma new_keep a p f f' : same_at p f f' -> same_at (backup_of p) f f' -> new_ok a f p -> new_ok a f' p.
Proof.
  intros H1 H2 [A B]. assert (no_dir lib p f -> no_dir lib p f') as C by by apply same_at_none.
  split; [by eapply same_at_same|]. destruct a as [|l|todo busy bad| |l|l|p' l|l []|[]|]; tauto.
Qed.

Lemma kept_keep p f f' : same_at p f f' -> same_at (backup_of p) f f' -> kept_ok f p -> kept_ok f' p.
Proof. intros H1 H2 [A B]. split; by eapply same_at_same. Qed.

Lemma new_not_tag p : p ∈ rn_new r -> p ∉ rn_tags r.
Proof. destruct Hp as (_ & Hnd & _). apply NoDup_app in Hnd as (_ & H & _). apply H. Qed.

Lemma about_new p : p ∈ rn_new r -> about r p.
Proof. by left. Qed.

Lemma about_tag p : p ∈ rn_tags r -> about r p.
Proof. apply tags_about. Qed.

Lemma single_start : single_inv RMake f0.
Proof.
  destruct Hp as (H1 & H2 & H3 & H4 & H5). split; [done|]. split; [done|]. split; [|split].
  - intros p Hp'. unfold rn_tags in Hp'. rewrite elem_of_app in Hp'. destruct (H4 p Hp'). by split.
  - intros p Hp'. split; [done|]. by apply H3.
  - intros p _ _ _. by split.
Qed.

(** A change of one package and its backup leaves the others. *)
Lemma others_keep p f f' : about r p -> (forall z, z <> p -> z <> backup_of p -> same_at z f f') ->
  forall p', about r p' -> p' <> p -> same_at p' f f' /\ same_at (backup_of p') f f'.
Proof.
  intros Ha H p' Ha' Hne. split; apply H.
  - done.
  - apply name_not_backup. by apply Hn.
  - intros E. symmetry in E. by apply (name_not_backup p p') in E; [|apply Hn].
  - intros E. by apply backup_inj in E.
Qed.

Lemma single_step a f a' f' : single_inv a f -> run_step lib r (a, f) (a', f') -> single_inv a' f'.
Proof.
  intros (Hl & Hlists & Ht & Hw & Hk) Hs.
  assert (in_phase r a) as Hin.
  { destruct a as [|l|todo busy bad| |l|l|p' l|l bad|bad|]; cbn [lists_ok in_phase] in *; try done.
    - intros p H. by apply about_tag, Hlists.
    - intros j [H|H]; right; right; right; exists j; (split; [|done]); [by apply (proj1 Hlists)|by destruct (proj2 Hlists j H)].
    - intros p H. by apply about_new, Hlists.
    - intros p H. by apply about_tag, Hlists.
    - destruct Hlists as (_ & H1 & _ & H2). split; [by apply about_tag|]. intros p H. by apply about_tag, H2.
    - intros p H. by apply about_tag, Hlists. }
  assert (f' lib = Some Dir) as Hl'. { rewrite <- Hl. by eapply step_lib. }
  split; [done|]. clear Hl'. pose proof Hp as (P1 & P2 & P3 & P4 & P5).
  assert (NoDup (rn_tags r)) as Hnd by (apply NoDup_app in P2 as (_ & _ & P2); done).
  inversion Hs as [f1 f2 Hm|f1 Hc' Hm|p l f1|f1|f1|l1 j l2 busy bad f1 Hj Hd|l1 j l2 busy bad f1 Hd|todo l1 j l2 bad f1 Hd|todo l1 j l2 bad f1|
    todo bad f1 Hd|f1|p l f1|f1|p l f1|p l f1 f2 Hr|p l f1 Hr|f1|p l bad f1|bad f1]; clear Hs; subst; cbn [in_phase lists_ok] in *.
  - rewrite Hc in Hm. subst f'. split; [done|]. split; [|split; [|done]].
    + intros p Hp'. left. split; [done|]. by apply Ht.
    + intros p Hp'. by apply Hw.
  - congruence.
  - (* tag *)
    destruct Hlists as [Hnl Hl1]. apply NoDup_cons in Hnl as [Hpl Hnl]. assert (p ∈ rn_tags r) as Htp by (apply Hl1; left). assert (about r p) as Hap by by apply about_tag.
    cbn [tag_old fst exec]. rewrite join_name, join_backup by auto.
    destruct (Ht p Htp) as [[_ [O1 O2]]|[Hno _]]; [|exfalso; apply Hno; left].
    assert (f (lib ++ [p])%list = Some Dir) as Hdir.
    { rewrite (O1 []). apply P4. unfold rn_tags in Htp. by rewrite elem_of_app in Htp. }
    assert (p <> backup_of p) as Hpb by (apply name_not_backup; auto).
    rewrite rename_slot; [|done|done|done|apply (O2 [])]. cbn [default].
    pose proof (others_keep p f _ Hap (fun z => move_same p (backup_of p) z f)) as Ho.
    split; [split; [done|]; intros p' H'; apply Hl1; by right|]. split; [|split].
    + intros p' Hp'. cbn [tag_ok]. destruct (decide (p' = p)) as [-> |Hne].
      * right. split; [done|]. split; [by apply move_gone|]. intros s. etrans; [apply (move_there p (backup_of p) f s)|apply O1].
      * destruct (Ho p' (about_tag _ Hp') Hne) as [S1 S2]. destruct (Ht p' Hp') as [[H1 H2]|(H1 & H2 & H3)].
        -- left. split; [by apply elem_of_cons in H1 as [?|?]|]. by eapply orig_keep.
        -- right. split; [intros ?; apply H1; by right|]. split; [by eapply same_at_none|by eapply saved_keep].
    + intros p' Hp'. destruct (Ho p' (about_new _ Hp')) as [S1 S2]; [intros ->; by apply (new_not_tag p)|].
      apply (new_keep (RTag l) p' f); [done|done|]. by apply Hw.
    + intros p' A1 A2 A3. destruct (Ho p' A1) as [S1 S2]; [by intros ->|]. eapply kept_keep; [done|done|]. by apply Hk.
  - split; [split; [done|]; intros j Hj; by apply elem_of_nil in Hj|]. split; [|split; [|done]].
    + intros p Hp'. destruct (Ht p Hp') as [[H _]|(_ & _ & H)]; [by apply elem_of_nil in H|done].
    + intros p Hp'. split; [|done]. apply Hw; done.
  - split; [done|]. split; [done|]. split; [|done]. intros p Hp'. split; [|done]. apply Hw; done.
  - (* there *)
    split; [|split; [done|split; [|done]]].
    + destruct Hlists as [H1 H2]. split; [|done]. intros j' Hj'. apply H1. revert Hj'. rewrite !elem_of_app, elem_of_cons. tauto.
    + intros p Hp'. split; [|done]. apply Hw; done.
  - (* begin *)
    destruct Hlists as [H1 H2]. assert (j ∈ rn_jobs r) as Hjj. { apply H1. rewrite elem_of_app, elem_of_cons. tauto. }
    split; [|split; [done|split; [|done]]].
    + split.
      * intros j' Hj'. apply H1. revert Hj'. rewrite !elem_of_app, elem_of_cons. tauto.
      * intros j' [-> |Hj']%elem_of_cons; [|by apply H2]. split; [done|].
        assert (about r (jb_name j)) as Hab by (right; right; right; by exists j).
        destruct (decide (jb_name j ∈ rn_new r)) as [|N1]; [by left|]. destruct (decide (jb_name j ∈ rn_tags r)) as [|N2]; [by right|]. exfalso.
        destruct (P5 j Hjj) as [H|[H3 H4]].
        { unfold rn_tags in N2. rewrite !elem_of_app in *. tauto. }
        destruct (Hk _ Hab N1 N2) as [K _]. destruct Hd as [Hd|Hd]; [congruence|].
        rewrite join_name in Hd by auto. unfold fs_dir_exists in Hd. by rewrite (K []), H4 in Hd.
    + intros p Hp'. split; [|done]. apply Hw; done.
  - (* put *)
    destruct Hlists as [H1 H2]. destruct (H2 j) as [Hjj Hjn]; [rewrite elem_of_app, elem_of_cons; tauto|].
    assert (about r (jb_name j)) as Hab by (right; right; right; by exists j).
    assert (forall z, z <> jb_name j -> same_at z f (put lib (jb_name j) (jb_tree j) f)) as Hz. { intros z Hz. apply put_same; auto. }
    split; [|split; [|split]].
    + split; [done|]. intros j' Hj'. apply H2. revert Hj'. rewrite !elem_of_app, elem_of_cons. tauto.
    + intros p Hp'. eapply saved_keep; [|by apply (Ht p)]. apply Hz. intros E. symmetry in E. by apply name_not_backup in E; [|apply Hn].
    + intros p Hp'. split; [|done]. eapply same_at_same; [|by apply (Hw p)]. apply Hz. intros E. symmetry in E. by apply name_not_backup in E; [|apply Hn].
    + intros p A1 A2 A3. eapply kept_keep; [| |by apply Hk].
      * apply Hz. intros ->. tauto.
      * apply Hz. intros E. symmetry in E. by apply name_not_backup in E; [|apply Hn].
  - destruct Hlists as [H1 H2]. split; [|split; [done|split; [|done]]].
    + split; [done|]. intros j' Hj'. apply H2. revert Hj'. rewrite !elem_of_app, elem_of_cons. tauto.
    + intros p Hp'. split; [|done]. apply Hw; done.
  - (* installed *)
    unfold after_install. rewrite Hc. destruct bad, (rn_rollback r) eqn:Er; cbn [andb lists_ok]; (split; [tauto|split; [|split; [|done]]]).
    + done.
    + intros p Hp'. split; [apply Hw; done|]. by left.
    + cbn [tag_ok]. congruence.
    + intros p Hp'. split; [apply Hw; done|]. congruence.
    + done.
    + intros p Hp'. split; [apply Hw; done|done].
    + done.
    + intros p Hp'. split; [apply Hw; done|done].
  - done.
  - (* remove *)
    assert (p ∈ rn_new r) as Hpn by (apply Hlists; left). assert (about r p) as Hap by by apply about_new. rewrite join_name by auto.
    assert (forall z, z <> p -> same_at z f (remove_all (lib ++ [p]) f)) as Hz. { intros z Hz. by apply remove_same. }
    pose proof (others_keep p f _ Hap (fun z Hz1 _ => Hz z Hz1)) as Ho.
    split; [intros p' ?; apply Hlists; by right|]. split; [|split].
    + intros p' Hp'. destruct (Ho p' (about_tag _ Hp')) as [S1 S2]; [intros ->; by apply (new_not_tag p)|]. eapply saved_keep; [done|]. by apply (Ht p').
    + intros p' Hp'. destruct (decide (p' = p)) as [-> |Hne].
      * split; [|right; apply remove_none]. eapply same_at_same; [|by apply (Hw p)]. apply Hz. intros E. symmetry in E. by apply name_not_backup in E; [|apply Hn].
      * destruct (Ho p' (about_new _ Hp') Hne) as [S1 S2]. destruct (Hw p' Hp') as [W1 W2]. split; [by eapply same_at_same|].
        destruct W2 as [W2|W2]; [|right; by eapply same_at_none]. apply elem_of_cons in W2 as [?|?]; [done|by left].
    + intros p' A1 A2 A3. destruct (Ho p' A1) as [S1 S2]; [by intros ->|]. eapply kept_keep; [done|done|]. by apply Hk.
  - split; [done|]. split; [|split; [|done]].
    + intros p Hp'. left. split; [done|]. by apply (Ht p).
    + intros p Hp'. destruct (Hw p Hp') as [W1 [W2|W2]]; [by apply elem_of_nil in W2|]. by split.
  - (* clear *)
    destruct Hlists as [Hnl Hl1]. apply NoDup_cons in Hnl as [Hpl Hnl]. assert (p ∈ rn_tags r) as Htp by (apply Hl1; left). assert (about r p) as Hap by by apply about_tag.
    rewrite join_name by auto.
    assert (forall z, z <> p -> same_at z f (remove_all (lib ++ [p]) f)) as Hz. { intros z Hz. by apply remove_same. }
    pose proof (others_keep p f _ Hap (fun z Hz1 _ => Hz z Hz1)) as Ho.
    split; [|split; [|split]].
    + split; [done|]. split; [done|]. split; [done|]. intros p' ?. apply Hl1. by right.
    + intros p' Hp'. cbn [tag_ok]. destruct (decide (p' = p)) as [-> |Hne].
      * left. split; [done|]. split; [apply remove_none|]. destruct (Ht p Htp) as [[_ H]|[H _]]; [|exfalso; apply H; left].
        eapply saved_keep; [|done]. apply Hz. intros E. symmetry in E. by apply name_not_backup in E; [|apply Hn].
      * right. destruct (Ho p' (about_tag _ Hp') Hne) as [S1 S2]. destruct (Ht p' Hp') as [[H1 H2]|[H1 H2]].
        -- left. split; [done|]. split; [by apply elem_of_cons in H1 as [?|?]|]. by eapply saved_keep.
        -- right. split; [done|]. split; [intros ?; apply H1; by right|]. by eapply orig_keep.
    + intros p' Hp'. destruct (Ho p' (about_new _ Hp')) as [S1 S2]; [intros ->; by apply (new_not_tag p)|].
      destruct (Hw p' Hp') as [W1 W2]. split; [by eapply same_at_same|by eapply same_at_none].
    + intros p' A1 A2 A3. destruct (Ho p' A1) as [S1 S2]; [by intros ->|]. eapply kept_keep; [done|done|]. by apply Hk.
  - (* rename *)
    destruct Hlists as (Hnl & Htp & Hpl & Hl1). assert (about r p) as Hap by by apply about_tag.
    rewrite (join_name lib p), (join_backup lib p) in Hr by auto. apply rename_some in Hr as ->.
    assert (backup_of p <> p) as Hpb. { intros E. symmetry in E. by apply name_not_backup in E; [|apply Hn]. }
    pose proof (others_keep p f _ Hap (fun z Hz1 Hz2 => move_same (backup_of p) p z f Hz2 Hz1)) as Ho.
    split; [done|]. split; [|split].
    + intros p' Hp'. cbn [tag_ok]. destruct (decide (p' = p)) as [-> |Hne].
      * right. split; [done|]. destruct (Ht p Htp) as [(_ & _ & H)|[(H & _)|(H & _)]]; [|done|done].
        split; [|by apply move_gone]. intros s. etrans; [apply (move_there (backup_of p) p f s)|apply H].
      * destruct (Ho p' (about_tag _ Hp') Hne) as [S1 S2]. destruct (Ht p' Hp') as [(H & _)|[(_ & H1 & H2)|(_ & H1 & H2)]]; [done|..].
        -- left. split; [done|]. by eapply saved_keep.
        -- right. split; [done|]. by eapply orig_keep.
    + intros p' Hp'. destruct (Ho p' (about_new _ Hp')) as [S1 S2]; [intros ->; by apply (new_not_tag p)|].
      destruct (Hw p' Hp') as [W1 W2]. split; [by eapply same_at_same|by eapply same_at_none].
    + intros p' A1 A2 A3. destruct (Ho p' A1) as [S1 S2]; [by intros ->|]. eapply kept_keep; [done|done|]. by apply Hk.
  - (* not renamed *)
    exfalso. destruct Hlists as (Hnl & Htp & Hpl & Hl1). assert (about r p) as Hap by by apply about_tag.
    rewrite (join_name lib p), (join_backup lib p) in Hr by auto.
    destruct (Ht p Htp) as [(_ & H1 & H2)|[(H & _)|(H & _)]]; [|done|done].
    rewrite rename_slot in Hr; [done| |done| |by apply (H1 [])].
    + intros E. symmetry in E. by apply name_not_backup in E; [|apply Hn].
    + rewrite (H2 []). apply P4. unfold rn_tags in Htp. by rewrite elem_of_app in Htp.
  - split; [done|]. split; [|split; [|done]].
    + intros p Hp' _. destruct (Ht p Hp') as [[H _]|[_ H]]; [by apply elem_of_nil in H|done].
    + intros p Hp'. destruct (Hw p Hp') as [W1 W2]. by split.
  - (* delete *)
    assert (p ∈ rn_tags r) as Htp by (apply Hlists; left). assert (about r p) as Hap by by apply about_tag. rewrite join_backup by auto.
    assert (forall z, z <> backup_of p -> same_at z f (remove_all (lib ++ [backup_of p]) f)) as Hz. { intros z Hz. by apply remove_same. }
    pose proof (others_keep p f _ Hap (fun z _ Hz1 => Hz z Hz1)) as Ho.
    split; [intros p' ?; apply Hlists; by right|]. split; [|split].
    + intros p' Hp'. destruct bad; [|done]. cbn [tag_ok]. intros Hrb. destruct (Ht p' Hp' Hrb) as [O1 O2]. destruct (decide (p' = p)) as [-> |Hne].
      * split; [|apply remove_none]. eapply same_at_same; [|done]. apply Hz. by apply name_not_backup, Hn.
      * destruct (Ho p' (about_tag _ Hp') Hne) as [S1 S2]. by eapply orig_keep.
    + intros p' Hp'. destruct (Ho p' (about_new _ Hp')) as [S1 S2]; [intros ->; by apply (new_not_tag p)|].
      destruct (Hw p' Hp') as [W1 W2]. split; [by eapply same_at_same|]. destruct bad; [|done]. intros Hrb. eapply same_at_none; [done|by apply W2].
    + intros p' A1 A2 A3. destruct (Ho p' A1) as [S1 S2]; [by intros ->|]. eapply kept_keep; [done|done|]. by apply Hk.
  - split; [done|]. split; [|split; [|done]].
    + intros p Hp'. by apply (Ht p).
    + intros p Hp'. by apply (Hw p).
Qed.

Lemma single_all a f : alone lib r f0 a f -> single_inv a f.
Proof.
  revert a f. apply (alone_ind r f0); [apply single_start|]. intros a g a' g' _ IH Hs. by eapply single_step.
Qed.

Lemma single_undone f : alone lib r f0 (RDone true) f -> rn_rollback r = true -> forall q, own lib r q -> f q = f0 q.
Proof.
  intros H Hrb q (p & s & Ha & Hq). destruct (single_all _ _ H) as (_ & _ & Ht & Hw & Hk).
  destruct (decide (p ∈ rn_new r)) as [N|N].
  { destruct (Hw p N) as [W1 W2]. destruct Hq as [-> | ->]; [|apply W1]. destruct Hp as (_ & _ & P3 & _). by rewrite (W2 Hrb s), (P3 p N s). }
  destruct (decide (p ∈ rn_tags r)) as [T|T].
  { destruct (Ht p T Hrb) as [O1 O2]. destruct Hq as [-> | ->]; [apply O1|]. destruct Hp as (_ & _ & _ & P4 & _).
    unfold rn_tags in T. rewrite elem_of_app in T. destruct (P4 p T) as [_ P]. by rewrite (O2 s), (P s). }
  destruct (Hk p Ha N T) as [K1 K2]. destruct Hq as [-> | ->]; [apply K1|apply K2].
Qed.

(** Without errors. *)
Hypothesis Hcomp : run_complete r.

Definition installs (j : job) : Prop := j ∈ rn_jobs r /\ (jb_name j ∈ rn_new r \/ jb_name j ∈ rn_tags r).

Definition well (a : phase) (f : fsys) : Prop :=
  match a with
  | RInstall todo busy false => forall j, installs j -> (j ∈ todo /\ no_dir lib (jb_name j) f) \/ j ∈ busy \/ holds lib f j
  | RDelete l false => (forall j, installs j -> holds lib f j) /\ forall p, p ∈ rn_tags r -> p ∈ l \/ no_dir lib (backup_of p) f
  | RDone false => (forall j, installs j -> holds lib f j) /\ forall p, p ∈ rn_tags r -> no_dir lib (backup_of p) f
  | _ => True
  end.

Lemma job_name_inj j j' : j ∈ rn_jobs r -> j' ∈ rn_jobs r -> jb_name j = jb_name j' -> j = j'.
Proof.
  intros H1 H2 E. destruct Hcomp as [Hnd _]. apply elem_of_list_lookup_1 in H1 as (i & Hi). apply elem_of_list_lookup_1 in H2 as (k & Hk).
  assert (i = k) as ->; [|congruence]. eapply NoDup_lookup; [exact Hnd| |].
  - by rewrite list_lookup_fmap, Hi.
  - by rewrite list_lookup_fmap, Hk, E.
Qed.

Lemma well_step a f a' f' : single_inv a f -> well a f -> run_step lib r (a, f) (a', f') -> well a' f'.
Proof.
  intros (Hl & Hlists & Ht & Hw & Hk) H Hs.
  inversion Hs as [f1 f2 Hm|f1 Hc' Hm|p l f1|f1|f1|l1 j l2 busy bad f1 Hj Hd|l1 j l2 busy bad f1 Hd|todo l1 j l2 bad f1 Hd|todo l1 j l2 bad f1|
    todo bad f1 Hd|f1|p l f1|f1|p l f1|p l f1 f2 Hr|p l f1 Hr|f1|p l bad f1|bad f1]; clear Hs; subst; cbn [well lists_ok] in *; try done.
  - intros j [Hj [Hjn|Hjn]]; left; (split; [done|]).
    + by apply (Hw _ Hjn).
    + destruct (Ht _ Hjn) as [[E _]|(_ & E & _)]; [by apply elem_of_nil in E|done].
  - destruct bad; [done|]. intros j' Hj'. destruct (H j' Hj') as [[H1 H2]|H1]; [|by right]. left. split; [|done].
    rewrite elem_of_app, elem_of_cons in H1. rewrite elem_of_app. destruct H1 as [?|[-> |?]]; [tauto| |tauto].
    exfalso. unfold fs_dir_exists in Hd. rewrite join_name in Hd; [by rewrite (H2 []) in Hd|]. apply Hn. destruct Hj' as [Hj' _]. right. right. right. by exists j.
  - destruct bad; [done|]. intros j' Hj'. destruct (H j' Hj') as [[H1 H2]|[H1|H1]]; [|right; left; by right|right; by right].
    rewrite elem_of_app, elem_of_cons in H1. rewrite elem_of_app, elem_of_cons. tauto.
  - destruct bad; [done|]. destruct Hlists as [L1 L2]. destruct (L2 j) as [Hjj Hjn]; [rewrite elem_of_app, elem_of_cons; tauto|].
    assert (r_name (jb_name j)) as Hr. { apply Hn. right. right. right. by exists j. }
    intros j' Hj'. destruct (decide (jb_name j' = jb_name j)) as [E|E].
    { assert (j' = j) as -> by (apply job_name_inj; [apply Hj'|done|done]). right. right. by apply put_holds. }
    assert (same_at (jb_name j') f (put lib (jb_name j) (jb_tree j) f)) as S by (apply put_same; congruence).
    destruct (H j' Hj') as [[H1 H2]|[H1|H1]].
    + left. split; [done|]. by eapply same_at_none.
    + rewrite elem_of_app, elem_of_cons in H1. rewrite elem_of_app. destruct H1 as [?|[-> |?]]; [tauto|done|tauto].
    + right. right. by eapply same_at_holds.
  - unfold after_install. destruct bad; cbn [andb].
    { destruct (rn_rollback r); [|done]. by rewrite Hc. }
    cbn [well]. split; [|intros p Hp'; by left]. intros j Hj. destruct (H j Hj) as [[H1 _]|[H1|H1]]; [|by apply elem_of_nil in H1|done].
    destruct Hd as [-> |Hd]; [by apply elem_of_nil in H1|done].
  - destruct bad; [done|]. destruct H as [H1 H2]. assert (p ∈ rn_tags r) as Htp by (apply Hlists; left).
    rewrite join_backup by (by apply Hn, about_tag). split.
    + intros j Hj. eapply same_at_holds; [|by apply H1]. apply remove_same. intros E. symmetry in E. apply name_not_backup in E; [done|].
      apply Hn. destruct Hj as [Hj _]. right. right. right. by exists j.
    + intros p' Hp'. destruct (decide (p' = p)) as [-> |Hne]; [right; apply remove_none|]. destruct (H2 p' Hp') as [E|E].
      * apply elem_of_cons in E as [?|?]; [done|by left].
      * right. eapply same_at_none; [|done]. apply remove_same. intros E'. apply backup_inj in E'. congruence.
  - destruct bad; [done|]. destruct H as [H1 H2]. split; [done|]. intros p Hp'. destruct (H2 p Hp') as [E|E]; [by apply elem_of_nil in E|done].
Qed.

Lemma well_all a f : alone lib r f0 a f -> well a f.
Proof.
  revert a f. apply (alone_ind r f0); [done|]. intros a g a' g' Ha IH Hs. eapply well_step; [by apply single_all|done|done].
Qed.

Lemma single_done f : alone lib r f0 (RDone false) f ->
  (forall j, installs j -> holds lib f j) /\ (forall p, p ∈ rn_tags r -> no_dir lib (backup_of p) f) /\
  (forall p, about r p -> p ∉ rn_new r -> p ∉ rn_tags r -> same_dir lib p f p f0).
Proof.
  intros H. destruct (well_all _ _ H) as [H1 H2]. split; [done|]. split; [done|].
  intros p A1 A2 A3. destruct (single_all _ _ H) as (_ & _ & _ & _ & Hk). by apply Hk.
Qed.
End single.

(** ** Runs about the same packages, without errors *)

Section good.
Context (rs : list run) (f0 : fsys).
Hypothesis Hp : plain_runs rs.
Hypothesis Htree : tree_ok f0.
Hypothesis Hcomp : forall r, r ∈ rs -> forall p, p ∈ rn_tags r -> exists j, j ∈ rn_jobs r /\ jb_name j = p.
Hypothesis Hnd : forall r, r ∈ rs -> NoDup (rn_tags r).
Hypothesis Hback : forall r p, r ∈ rs -> p ∈ rn_tags r -> no_dir lib (backup_of p) f0.

Definition fine (a : phase) : Prop :=
  match a with
  | RMake | RTag _ => True
  | RInstall _ _ b | RDelete _ b | RDone b => b = false
  | _ => False
  end.

Lemma fine_back r a f a' f' : run_step lib r (a, f) (a', f') -> fine a' -> fine a.
Proof.
  intros Hs. inversion Hs as [f1 f2 Hm|f1 Hc' Hm|p l f1|f1|f1|l1 j l2 busy bad f1 Hj Hd|l1 j l2 busy bad f1 Hd|todo l1 j l2 bad f1 Hd|todo l1 j l2 bad f1|
    todo bad f1 Hd|f1|p l f1|f1|p l f1|p l f1 f2 Hr|p l f1 Hr|f1|p l bad f1|bad f1]; clear Hs; subst; cbn [fine]; try done.
  unfold after_install. destruct bad; [|done]. destruct (rn_rollback r); [|done]. by destruct (rn_create r).
Qed.

Definition pending (a : phase) (p : string) : Prop :=
  match a with
  | RMake | RTag _ => True
  | RInstall todo busy _ => exists j, (j ∈ todo \/ j ∈ busy) /\ jb_name j = p
  | _ => False
  end.

Definition passed (a : phase) (p : string) : Prop :=
  match a with RMake => False | RTag l => p ∉ l | _ => True end.

Definition clears (a : phase) (p : string) : Prop :=
  match a with RMake | RTag _ | RInstall _ _ _ => True | RDelete l _ => p ∈ l | _ => False end.

Definition listed (r : run) (a : phase) : Prop :=
  match a with
  | RTag l => NoDup l /\ forall p, p ∈ l -> p ∈ rn_tags r
  | RInstall todo busy _ => forall j, j ∈ todo \/ j ∈ busy -> j ∈ rn_jobs r
  | RDelete l _ => forall p, p ∈ l -> p ∈ rn_tags r
  | _ => True
  end.

Definition wanted_by (p : string) : Prop := exists r j, r ∈ rs /\ j ∈ rn_jobs r /\ jb_name j = p.

Definition untagged (x : list phase) (p : string) : Prop :=
  forall i r a, rs !! i = Some r -> x !! i = Some a -> p ∈ rn_tags r -> ~ passed a p.

Definition place_ok (x : list phase) (f : fsys) (p : string) : Prop :=
  (no_dir lib p f /\ exists i r a, rs !! i = Some r /\ x !! i = Some a /\ (exists j, j ∈ rn_jobs r /\ jb_name j = p) /\ pending a p) \/
  (exists r j, r ∈ rs /\ j ∈ rn_jobs r /\ jb_name j = p /\ holds lib f j) \/
  (f0 (lib ++ [p])%list = Some Dir /\ same_dir lib p f p f0 /\ (f (lib ++ [backup_of p])%list = None \/ forall r, r ∈ rs -> p ∉ rn_tags r) /\ untagged x p).

Definition backup_ok (x : list phase) (f : fsys) (p : string) : Prop :=
  no_dir lib (backup_of p) f \/ exists i r a, rs !! i = Some r /\ x !! i = Some a /\ p ∈ rn_tags r /\ clears a p.

Definition good_inv (x : list phase) (f : fsys) : Prop :=
  (f0 lib = Some Dir -> f lib = Some Dir) /\
  (forall i r a, rs !! i = Some r -> x !! i = Some a -> listed r a) /\
  (forall p, wanted_by p -> f0 (lib ++ [p])%list = Some Dir \/ no_dir lib p f0 -> place_ok x f p) /\
  (forall r p, r ∈ rs -> p ∈ rn_tags r -> backup_ok x f p).

Lemma mkdir_slot f f' y s : mkdir_all lib f = Some f' -> f' (lib ++ y :: s)%list = f (lib ++ y :: s)%list.
Proof.
  unfold mkdir_all. destruct (existsb _ _); [done|]. intros [= <-]. destruct (below (lib ++ y :: s) lib) eqn:E; [|done].
  apply below_spec in E as (t & E). exfalso. apply (f_equal length) in E. rewrite !app_length in E. cbn in E. lia.
Qed.

Lemma mkdir_lib f f' : mkdir_all lib f = Some f' -> f' lib = Some Dir.
Proof. unfold mkdir_all. destruct (existsb _ _); [done|]. intros [= <-]. by rewrite below_refl. Qed.

(** What a step leaves. *)
Lemma place_keep x k r a a' f f' p : rs !! k = Some r -> x !! k = Some a ->
  same_at p f f' -> (forall r, r ∈ rs -> p ∈ rn_tags r -> f (lib ++ [backup_of p])%list = None -> f' (lib ++ [backup_of p])%list = None) ->
  ((exists j, j ∈ rn_jobs r /\ jb_name j = p) -> pending a p -> no_dir lib p f' -> pending a' p) ->
  (p ∈ rn_tags r -> passed a' p -> passed a p) ->
  place_ok x f p -> place_ok (<[k := a']> x) f' p.
Proof.
  intros Hk Ha S1 S2 Hpen Hpas [[H1 (i & r' & b & Hi & Hb & Hj & Hpd)]|[(r' & j & H1 & H2 & H3 & H4)|(H1 & H2 & H3 & H4)]].
  - left. assert (no_dir lib p f') as Hno by by eapply same_at_none. split; [done|]. destruct (decide (i = k)) as [-> |Hne].
    + assert (r' = r) as -> by congruence. assert (b = a) as -> by congruence. exists k, r, a'. split; [done|].
      rewrite list_lookup_insert by (by eapply lookup_lt_Some). split; [done|]. split; [done|]. by apply Hpen.
    + exists i, r', b. rewrite list_lookup_insert_ne by done. done.
  - right. left. exists r', j. split; [done|]. split; [done|]. split; [done|]. subst. by eapply same_at_holds.
  - right. right. split; [done|]. split; [by eapply same_at_same|]. split.
    + destruct H3 as [H3|H3]; [|by right]. destruct (decide (Exists (fun r => p ∈ rn_tags r) rs)) as [He|He].
      * apply Exists_exists in He as (r1 & Hr1 & Hr2). left. by eapply S2.
      * right. intros r1 Hr1 Hr2. apply He, Exists_exists. by exists r1.
    + intros i r' b Hi Hb Ht Hps. destruct (decide (i = k)) as [-> |Hne].
      * rewrite list_lookup_insert in Hb by (by eapply lookup_lt_Some). injection Hb as <-. assert (r' = r) as -> by congruence.
        apply (H4 k r a); auto.
      * rewrite list_lookup_insert_ne in Hb by done. by apply (H4 i r' b).
Qed.

Lemma backup_keep x k r a a' f f' p : rs !! k = Some r -> x !! k = Some a ->
  same_at (backup_of p) f f' -> (p ∈ rn_tags r -> clears a p -> clears a' p) -> backup_ok x f p -> backup_ok (<[k := a']> x) f' p.
Proof.
  intros Hk Ha S Hcl [H|(i & r' & b & Hi & Hb & Ht & Hc)].
  - left. by eapply same_at_none.
  - right. destruct (decide (i = k)) as [-> |Hne].
    + assert (r' = r) as -> by congruence. assert (b = a) as -> by congruence. exists k, r, a'. split; [done|].
      rewrite list_lookup_insert by (by eapply lookup_lt_Some). auto.
    + exists i, r', b. by rewrite list_lookup_insert_ne by done.
Qed.

Lemma good_step x y : good_inv (rs_each x) (rs_fs x) -> runs_step lib rs x y -> (forall i a, run_at y i a -> fine a) -> good_inv (rs_each y) (rs_fs y).
Proof.
  intros (Hl & Hli & Hpl & Hbk) Hxy Hf. destruct Hxy as [k r a a' f f' x Hk Ha Hs]. cbn [rs_each rs_fs] in *.
  assert (r ∈ rs) as Hr by by eapply elem_of_list_lookup_2.
  assert (fine a') as Hfa. { apply (Hf k). unfold run_at. cbn [rs_each]. apply list_lookup_insert. by eapply lookup_lt_Some. }
  clear Hf. assert (forall p, about r p -> r_name p) as Hn by (intros p; by apply Hp).
  pose proof (Hli k r a Hk Ha) as Hlr.
  assert (forall p, wanted_by p -> r_name p) as Hwn.
  { intros p (r1 & j & H1 & H2 & <-). apply (Hp r1); [done|]. right. right. right. by exists j. }
  assert (forall r' p, r' ∈ rs -> p ∈ rn_tags r' -> r_name p) as Htn. { intros r' p H1 H2. apply (Hp r'); [done|]. by apply tags_about. }
  (* the parts from facts about the step *)
  assert ((f0 lib = Some Dir -> f' lib = Some Dir) -> listed r a' ->
    (forall p, wanted_by p -> f0 (lib ++ [p])%list = Some Dir \/ no_dir lib p f0 -> place_ok x f p -> place_ok (<[k := a']> x) f' p) ->
    (forall r' p, r' ∈ rs -> p ∈ rn_tags r' -> backup_ok x f p -> backup_ok (<[k := a']> x) f' p) -> good_inv (<[k := a']> x) f') as Hwrap.
  { intros W1 W2 W3 W4. split; [done|]. split; [|split].
    - intros i r' b Hi Hb. destruct (decide (i = k)) as [-> |Hne].
      + rewrite list_lookup_insert in Hb by (by eapply lookup_lt_Some). injection Hb as <-. by assert (r' = r) as -> by congruence.
      + rewrite list_lookup_insert_ne in Hb by done. by eapply Hli.
    - intros p H1 H2. apply W3; auto.
    - intros r' p H1 H2. eapply W4; [done|done|]. by eapply Hbk. }
  (* nothing changes in the files *)
  assert (f' = f -> listed r a' -> (forall p, (exists j, j ∈ rn_jobs r /\ jb_name j = p) -> pending a p -> no_dir lib p f -> pending a' p) ->
    (forall p, p ∈ rn_tags r -> passed a' p -> passed a p) -> (forall p, p ∈ rn_tags r -> clears a p -> clears a' p) -> good_inv (<[k := a']> x) f') as Hnone.
  { intros -> W1 W2 W3 W4. apply Hwrap; [done|done| |].
    - intros p H1 H2. eapply place_keep; [done|done|by intros s|done|apply W2|apply W3].
    - intros r' p H1 H2. eapply backup_keep; [done|done|by intros s|apply W4]. }
  inversion Hs as [f1 f2 Hm|f1 Hc' Hm|p l f1|f1|f1|l1 j l2 busy bad f1 Hj Hd|l1 j l2 busy bad f1 Hd|todo l1 j l2 bad f1 Hd|todo l1 j l2 bad f1|
    todo bad f1 Hd|f1|p l f1|f1|p l f1|p l f1 f2 Hr'|p l f1 Hr'|f1|p l bad f1|bad f1]; clear Hs; subst; cbn [fine listed pending passed clears] in *; try done.
  - (* made *)
    destruct (rn_create r).
    + apply Hwrap; [intros _; by eapply mkdir_lib|split; [by apply Hnd|done]| |].
      * intros p H1 H2. eapply place_keep; [done|done|intros s; by eapply mkdir_slot| |done|].
        -- intros r' _ _ E. by rewrite (mkdir_slot _ _ _ _ Hm).
        -- cbn [passed]. tauto.
      * intros r' p H1 H2. eapply backup_keep; [done|done|intros s; by eapply mkdir_slot|done].
    + apply Hnone; [done|split; [by apply Hnd|done]|done| |done]. tauto.
  - (* tag *)
    destruct Hlr as [Hnl Hll]. apply NoDup_cons in Hnl as [Hpl' Hnl]. assert (p ∈ rn_tags r) as Htp by (apply Hll; left).
    assert (r_name p) as Hrp by by eapply Htn. assert (p <> backup_of p) as Hpb by by apply name_not_backup.
    cbn [tag_old fst exec] in *. rewrite join_name, join_backup in * by done.
    assert (listed r (RTag l)) as Hlist. { split; [done|]. intros p' ?. apply Hll. by right. }
    assert (forall p', p' <> p -> p' ∈ p :: l -> p' ∈ l) as Hin. { intros p' H1 H2. apply elem_of_cons in H2 as [?|?]; done. }
    assert (exists i r' a0, rs !! i = Some r' /\ <[k := RTag l]> x !! i = Some a0 /\ (exists j, j ∈ rn_jobs r' /\ jb_name j = p) /\ pending a0 p) as Hpend.
    { exists k, r, (RTag l). split; [done|]. rewrite list_lookup_insert by (by eapply lookup_lt_Some). split; [done|]. split; [|done]. by apply (Hcomp r Hr). }
    assert (exists i r' a0, rs !! i = Some r' /\ <[k := RTag l]> x !! i = Some a0 /\ p ∈ rn_tags r' /\ clears a0 p) as Hclr.
    { exists k, r, (RTag l). split; [done|]. rewrite list_lookup_insert by (by eapply lookup_lt_Some). done. }
    destruct (rename (lib ++ [p]) (lib ++ [backup_of p]) f) as [f'|] eqn:Er; cbn [default].
    + apply rename_some in Er as ->. set (f' := move (lib ++ [p]) (lib ++ [backup_of p]) f).
      assert (forall z, z <> p -> z <> backup_of p -> same_at z f f') as Hz by (intros z H1 H2; by apply move_same).
      assert (f' lib = f lib) as El. { apply move_out; intros s; apply lib_neq. }
      apply Hwrap; [intros H; etrans; [exact El|by apply Hl]|done| |].
      * intros p' H1 H2 H3. destruct (decide (p' = p)) as [-> |Hne].
        { left. split; [by apply move_gone|done]. }
        assert (r_name p') as Hrp' by auto.
        assert (backup_of p' <> p) as Hb1 by (intros E; symmetry in E; by apply name_not_backup in E).
        assert (backup_of p' <> backup_of p) as Hb2 by (intros E; by apply backup_inj in E).
        eapply place_keep; [done|done| | | | |exact H3].
        -- apply Hz; [done|by apply name_not_backup].
        -- intros r' _ _ E. etrans; [exact (Hz _ Hb1 Hb2 [])|exact E].
        -- done.
        -- cbn [passed]. intros _ H4 H5. apply H4. by apply Hin.
      * intros r' p' H1 H2 H3. destruct (decide (p' = p)) as [-> |Hne]; [by right|]. assert (r_name p') as Hrp' by by eapply Htn.
        eapply backup_keep; [done|done| |done|exact H3]. apply Hz; [intros E; symmetry in E; by apply name_not_backup in E|intros E; by apply backup_inj in E].
    + apply Hwrap; [done|done| |].
      * intros p' H1 H2 H3. destruct (decide (p' = p)) as [-> |Hne].
        -- destruct H3 as [[E1 E2]|[E|(E1 & E2 & E3 & E4)]].
           ++ left. done.
           ++ right. left. done.
           ++ exfalso. destruct E3 as [E3|E3]; [|by apply (E3 r Hr)]. rewrite rename_slot in Er; [done|done| | |done].
              ** apply Hl, (Htree lib p). by rewrite E1.
              ** by rewrite (E2 []).
        -- eapply place_keep; [done|done|by intros s|done|done| |exact H3]. cbn [passed]. intros _ H4 H5. apply H4. by apply Hin.
      * intros r' p' H1 H2. eapply backup_keep; [done|done|by intros s|done].
  - apply Hnone; [done| |intros p (j & H1 & H2) _ _; exists j; split; [by left|done]|intros p _ _; apply not_elem_of_nil|done].
    intros j [H|H]; [done|by apply elem_of_nil in H].
  - (* there *)
    apply Hnone; [done| | |done|done].
    + intros j' H. apply Hlr. revert H. rewrite !elem_of_app, elem_of_cons. tauto.
    + intros p _ (j' & H1 & H2) H3. exists j'. split; [|done]. destruct H1 as [H1|H1]; [|by right]. left.
      rewrite elem_of_app, elem_of_cons in H1. rewrite elem_of_app. destruct H1 as [?|[-> |?]]; [tauto| |tauto].
      exfalso. assert (j ∈ rn_jobs r) as Hjj. { apply Hlr. left. rewrite elem_of_app, elem_of_cons. tauto. }
      rewrite join_name in Hd by (apply Hn; right; right; right; by exists j). unfold fs_dir_exists in Hd. subst p. by rewrite (H3 []) in Hd.
  - apply Hnone; [done| | |done|done].
    + intros j' H. apply Hlr. revert H. rewrite !elem_of_app, !elem_of_cons. tauto.
    + intros p _ (j' & H1 & H2) _. exists j'. split; [|done]. revert H1. rewrite !elem_of_app, !elem_of_cons. tauto.
  - (* put *)
    assert (j ∈ rn_jobs r) as Hjj. { apply Hlr. right. rewrite elem_of_app, elem_of_cons. tauto. }
    assert (r_name (jb_name j)) as Hrj. { apply Hn. right. right. right. by exists j. }
    assert (forall z, z <> jb_name j -> same_at z f (put lib (jb_name j) (jb_tree j) f)) as Hz. { intros z Hz. by apply put_same. }
    assert (forall p, backup_of p <> jb_name j) as Hb. { intros p E. symmetry in E. by apply name_not_backup in E. }
    apply Hwrap.
    + intros H. rewrite put_out; [by apply Hl|done|]. intros s. apply lib_neq.
    + intros j' H. apply Hlr. revert H. rewrite !elem_of_app, elem_of_cons. tauto.
    + intros p H1 H2 H3. destruct (decide (p = jb_name j)) as [-> |Hne].
      { right. left. exists r, j. split; [done|]. split; [done|]. split; [done|]. by apply put_holds. }
      eapply place_keep; [done|done|by apply Hz| | |done|exact H3].
      * intros r' _ _ E. by rewrite (Hz _ (Hb p) []).
      * cbn [pending]. intros _ (j' & H4 & H5) _. exists j'. split; [|done]. destruct H4 as [H4|H4]; [by left|]. right.
        rewrite elem_of_app, elem_of_cons in H4. rewrite elem_of_app. destruct H4 as [?|[-> |?]]; [tauto|congruence|tauto].
    + intros r' p H1 H2. eapply backup_keep; [done|done|by apply Hz|done].
  - (* installed *)
    assert (bad = false) as ->. { destruct bad; [|done]. unfold after_install in Hfa. destruct (rn_rollback r); [|done]. by destruct (rn_create r). }
    unfold after_install in *. cbn [andb fine listed pending passed clears] in *. destruct Hd as [-> |]; [|done].
    apply Hnone; [done|done| |done|done]. intros p _ (j & [H|H] & _); by apply elem_of_nil in H.
  - (* delete *)
    assert (p ∈ rn_tags r) as Htp by (apply Hlr; left). assert (r_name p) as Hrp by by eapply Htn. rewrite join_backup in * by done.
    assert (forall z, z <> backup_of p -> same_at z f (remove_all (lib ++ [backup_of p]) f)) as Hz. { intros z Hz. by apply remove_same. }
    apply Hwrap.
    + intros H. rewrite remove_lib. by apply Hl.
    + intros p' ?. apply Hlr. by right.
    + intros p' H1 H2 H3. assert (r_name p') as Hrp' by auto. eapply place_keep; [done|done| | | |done|exact H3]; [|..|done].
      * apply Hz. by apply name_not_backup.
      * intros r' _ _ E. unfold remove_all. destruct (below _ _); [done|]. done.
    + intros r' p' H1 H2 H3. destruct (decide (p' = p)) as [-> |Hne]; [left; apply remove_none|].
      eapply backup_keep; [done|done| | |exact H3].
      * apply Hz. intros E. by apply backup_inj in E.
      * cbn [clears]. intros _ H. apply elem_of_cons in H as [?|?]; done.
  - apply Hnone; [done|done|done|done|]. intros p _ H. by apply elem_of_nil in H.
Qed.

Lemma good_start : good_inv (rs_each (runs_started rs f0)) f0.
Proof.
  split; [done|]. split; [|split].
  - intros i r a _ Ha. assert (a = RMake) as -> by exact (started_at rs f0 i a Ha). done.
  - intros p (r & j & H1 & H2 & H3) [H|H].
    + right. right. split; [done|]. split; [done|]. split.
      * destruct (decide (Exists (fun r => p ∈ rn_tags r) rs)) as [He|He].
        -- apply Exists_exists in He as (r1 & Hr1 & Hr2). left. apply (Hback r1 p Hr1 Hr2 []).
        -- right. intros r1 Hr1 Hr2. apply He, Exists_exists. by exists r1.
      * intros i r' a _ Ha _. assert (a = RMake) as -> by exact (started_at rs f0 i a Ha). by intros [].
    + left. split; [done|]. apply elem_of_list_lookup_1 in H1 as (i & Hi). exists i, r, RMake. split; [done|].
      cbn [runs_started rs_each]. rewrite list_lookup_fmap, Hi. split; [done|]. split; [by exists j|done].
  - intros r p H1 H2. left. by eapply Hback.
Qed.

Lemma good_all x : runs_happen lib rs f0 x -> (forall i a, run_at x i a -> fine a) -> good_inv (rs_each x) (rs_fs x).
Proof.
  intros H. pattern x. apply (runs_ind rs f0); [| |exact H]; clear x H.
  - intros _. apply good_start.
  - intros x y Hx IH Hxy Hf. apply (good_step x y); [|done|done]. apply IH. intros i b Hb.
    destruct Hxy as [k r a a' f f' x Hk Ha Hs]. cbn [rs_each rs_fs] in *. unfold run_at in *. cbn [rs_each] in *.
    destruct (decide (i = k)) as [-> |Hne].
    + assert (b = a) as -> by congruence. eapply fine_back; [done|]. apply (Hf k). apply list_lookup_insert. by eapply lookup_lt_Some.
    + apply (Hf i). by rewrite list_lookup_insert_ne.
Qed.

Lemma good_end x : runs_happen lib rs f0 x -> all_well x ->
  (forall p, wanted_by p -> f0 (lib ++ [p])%list = Some Dir \/ no_dir lib p f0 ->
     (exists r j, r ∈ rs /\ j ∈ rn_jobs r /\ jb_name j = p /\ holds lib (rs_fs x) j) \/
     (f0 (lib ++ [p])%list = Some Dir /\ same_dir lib p (rs_fs x) p f0 /\ forall r, r ∈ rs -> p ∉ rn_tags r)) /\
  (forall r p, r ∈ rs -> p ∈ rn_tags r -> no_dir lib (backup_of p) (rs_fs x)).
Proof.
  intros H Hw. pose proof (runs_length _ _ _ H) as Hlen. destruct (good_all x H) as (_ & _ & H3 & H4). { intros i a Ha. by rewrite (Hw i a Ha). }
  split.
  - intros p Hpw Hp0. destruct (H3 p Hpw Hp0) as [[_ (i & r & a & _ & Ha & _ & Hpd)]|[E|(E1 & E2 & _ & E4)]].
    + rewrite (Hw i a Ha) in Hpd. done.
    + by left.
    + right. split; [done|]. split; [done|]. intros r Hr Hpr. apply elem_of_list_lookup_1 in Hr as (i & Hi).
      destruct (lookup_lt_is_Some_2 (rs_each x) i) as (a & Ha). { rewrite Hlen. by eapply lookup_lt_Some. }
      apply (E4 i r a Hi Ha Hpr). by rewrite (Hw i a Ha).
  - intros r p Hr Hpr. destruct (H4 r p Hr Hpr) as [E|(i & r' & a & _ & Ha & _ & Hc)]; [done|]. by rewrite (Hw i a Ha) in Hc.
Qed.
End good.
End runs.
