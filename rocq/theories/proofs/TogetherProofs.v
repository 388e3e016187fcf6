(** Installing a plan concurrently. *)
From stdpp Require Import strings list gmap.
From Coq Require Import Ascii ZArith Lia.
From Verif.model Require Import GoStr Nexus RepoDb Graph Fs Stamp Yml Sched Install Download Tarballs Together.
From Verif.spec Require Import StrSpec SchedSpec LibSpec InstallSpec TarballSpec TogetherSpec.
From Verif.proofs Require Import GoStrLemmas FsProofs ExtractProofs InstallProofs CacheProofs CleanProofs TarballProofs
  SchedProofs SchedProps.

Local Open Scope string_scope.
Local Arguments Ascii.eqb : simpl never.
Local Arguments char_eqb : simpl never.

(** ** Names of binaries *)

Lemma replace1_cases old new s : replace1 old new s = s \/
  exists x y, s = x +:+ old +:+ y /\ replace1 old new s = x +:+ new +:+ y.
Proof.
  induction s as [|c s IH]; cbn [replace1].
  - destruct (cut_prefix old "") as [r|] eqn:E; [|by left]. right. exists "", r. split; [|done].
    by apply cut_prefix_Some in E.
  - destruct (cut_prefix old (String c s)) as [r|] eqn:E.
    + right. exists "", r. split; [|done]. by apply cut_prefix_Some in E.
    + destruct IH as [->|(x & y & E1 & ->)]; [by left|]. right. exists (String c x), y. split; [|done]. cbn. by rewrite <- E1.
Qed.

Lemma replace1_file old new s : file_name s -> plain new -> ~ all_chars (fun c => c = "."%char) new ->
  file_name (replace1 old new s).
Proof.
  intros Hs Hp Hd. destruct (replace1_cases old new s) as [->|(x & y & E & ->)]; [done|].
  assert (~ all_chars (fun c => c = "."%char) (x +:+ new +:+ y)) as Hn.
  { intros H. apply all_chars_app in H as [_ H]. by apply all_chars_app in H as [H _]. }
  split; [by intros H; rewrite H in Hn|]. split; [by intros H; rewrite H in Hn; destruct Hn|].
  split; [by intros H; rewrite H in Hn; destruct Hn|].
  destruct Hs as (_ & _ & _ & Hs). rewrite E in Hs. apply all_chars_app in Hs as [H1 Hs]. apply all_chars_app in Hs as [_ H2].
  apply all_chars_app. split; [done|]. by apply all_chars_app.
Qed.

Lemma binary_ext_file os base platform n : file_name base -> plain platform -> binary_ext os base platform = Some n -> file_name n.
Proof.
  intros Hb Hp. destruct os; cbn [binary_ext]; [| | |done]; intros [= <-]; apply replace1_file; try done;
    try (by intros [H _]).
  split; [done|]. split; [done|]. split; [done|]. by apply all_chars_app.
Qed.

(** ** Trees *)

Lemma mkdir_tree p g h : tree_ok g -> mkdir_all p g = Some h -> tree_ok h.
Proof.
  unfold mkdir_all. intros T. destruct (existsb _ _); [done|]. intros [= <-] q x H.
  destruct (below q p) eqn:E; [done|].
  destruct (below (q ++ [x]) p) eqn:E2; [|by apply T in H].
  exfalso. apply not_true_iff_false in E. apply E. apply below_spec in E2 as [s ->]. apply below_spec.
  exists (x :: s). by rewrite <- app_assoc.
Qed.

(** Replacing or adding a node in a directory. *)
Lemma set_tree p n f : tree_ok f -> p <> [] -> f (removelast p) = Some Dir -> (f p = Some Dir -> n = Dir) ->
  tree_ok (fun q => if bool_decide (q = p) then Some n else f q).
Proof.
  intros T Hp Hd Hn q x H. destruct (decide (q = p)) as [->|Hq].
  - rewrite bool_decide_eq_true_2 by done. rewrite bool_decide_eq_false_2 in H.
    + apply T in H. by rewrite Hn.
    + intros E. apply (f_equal length) in E. rewrite app_length in E. cbn in E. lia.
  - rewrite (bool_decide_eq_false_2 (q = p)) by done.
    destruct (decide ((q ++ [x])%list = p)) as [E|E].
    + by rewrite <- E, removelast_last in Hd.
    + rewrite bool_decide_eq_false_2 in H by done. by apply T in H.
Qed.

Lemma unset_tree p f : tree_ok f -> f p <> Some Dir -> tree_ok (fun q => if bool_decide (q = p) then None else f q).
Proof.
  intros T Hp q x H. destruct (decide ((q ++ [x])%list = p)) as [E|E].
  { by rewrite bool_decide_eq_true_2 in H. }
  rewrite bool_decide_eq_false_2 in H by done. apply T in H.
  destruct (decide (q = p)) as [->|Hq]; [done|]. by rewrite bool_decide_eq_false_2.
Qed.

Lemma tree_ext f g : (forall q, f q = g q) -> tree_ok f -> tree_ok g.
Proof. intros H T q x. rewrite <- !H. apply T. Qed.

Lemma write_description_tree s r lib f : r_name (q_pkg r) -> tree_ok f -> tree_ok (write_description s r lib f).
Proof.
  intros Hn T. unfold write_description. rewrite (join_name _ _ Hn).
  change (join_path (lib ++ [q_pkg r])%list "DESCRIPTION") with ((lib ++ [q_pkg r]) ++ ["DESCRIPTION"])%list.
  destruct (f _) as [[c|]|] eqn:E; [|done|done]. destruct (s_read s c); [|done].
  apply set_tree; [done| |rewrite removelast_last; apply (T _ "DESCRIPTION"); congruence|congruence].
  by destruct (lib ++ [q_pkg r])%list.
Qed.

Lemma make_dir_tree d f : tree_ok f -> d <> [] -> tree_ok (make_dir d f).
Proof.
  intros T Hd. unfold make_dir. destruct (decide (f d = None /\ f (removelast d) = Some Dir)) as [[H1 H2]|H].
  - apply (tree_ext (fun q => if bool_decide (q = d) then Some Dir else f q)).
    + intros q. destruct (decide (q = d)) as [->|Hq].
      * by rewrite !bool_decide_eq_true_2.
      * rewrite !bool_decide_eq_false_2; naive_solver.
    + by apply set_tree.
  - apply (tree_ext f); [|done]. intros q. rewrite bool_decide_eq_false_2; [done|]. naive_solver.
Qed.

Lemma make_dir_change d f q : make_dir d f q <> f q -> q = d /\ f q = None /\ make_dir d f q = Some Dir.
Proof.
  unfold make_dir. destruct (decide (q = d /\ f d = None /\ f (removelast d) = Some Dir)) as [(-> & H1 & H2)|H].
  - by rewrite bool_decide_eq_true_2.
  - by rewrite bool_decide_eq_false_2.
Qed.

(** ** Where things are *)

Lemma not_in_below (a : list string) x s : ~ in_dir (a ++ x :: s)%list a.
Proof. intros [z E]. apply (f_equal length) in E. rewrite !app_length in E. cbn in E. lia. Qed.

Lemma in_slot (lib : list string) x s : in_dir (lib ++ [x])%list (lib ++ x :: s)%list.
Proof. exists s. by rewrite <- app_assoc. Qed.

Section together.

Context (e : setting) (Rs : rsystem) (j : job) (name : list string -> string) (ds : list (list string)).
Hypothesis Hj : job_ok j.
Hypothesis Ho : setting_ok e j name ds.
Hypothesis HR : rs_only Rs name.

Local Notation lib := (e_library e).
Local Notation tmp := (e_tmp e).
Local Notation lock p := ("00LOCK-" +:+ p).

Lemma some_apart x : in_some ds x -> apart lib x.
Proof.
  intros (d & Hd & Hx). destruct (so_apart _ _ _ _ Ho d Hd) as [A1 A2]. split; intros H.
  - destruct (in_dir_meet lib d x H Hx); done.
  - apply A2. by eapply in_dir_trans.
Qed.

(** Neither below nor above such a directory. *)
Lemma some_not_lib x q : in_some ds x -> in_dir lib q -> ~ in_dir x q /\ ~ in_dir q x.
Proof.
  intros Hx Hq. destruct (some_apart x Hx) as [A1 A2]. split; intros H.
  - destruct (in_dir_meet lib x q Hq H); done.
  - apply A1. by eapply in_dir_trans.
Qed.

Lemma ball_name p b : in_plan j p -> ball_for e p = Some b -> exists n, file_name n /\ b = (tmp p ++ [n])%list.
Proof.
  intros Hp. unfold ball_for. destruct (binary_ext _ _ _) as [n|] eqn:E; [|done]. intros [= <-].
  apply binary_ext_file in E; [|by apply (so_source _ _ _ _ Ho)|apply (so_platform _ _ _ _ Ho)].
  exists n. split; [done|]. by apply join_file.
Qed.

Lemma store_eq p b : in_plan j p -> ball_for e p = Some b -> exists d n, store_for e p b = ((binary_dir e p ++ [d]) ++ [n])%list.
Proof.
  intros Hp Hb. destruct (ball_name _ _ Hp Hb) as (n & Hn & ->). unfold store_for. rewrite base_snoc.
  rewrite (join_file _ _ (rv_short_name _)), (join_file _ _ Hn). by eexists _, _.
Qed.

Lemma binary_dir_eq p : exists d, binary_dir e p = (d ++ ["binary"])%list.
Proof. by eexists. Qed.

(** What acting for a package may change. *)
Definition touch (p : string) (q : list string) (n n' : option node) : Prop :=
  in_dir (lib ++ [p])%list q \/ in_dir (lib ++ [lock p])%list q \/ in_dir (tmp p) q \/
  (in_dir q (tmp p) /\ n = None /\ n' = Some Dir) \/ (in_dir (binary_dir e p) q /\ n' <> None).

Lemma r_touch p k c x f x' f' q : in_plan j p -> call_for e p k = Some c -> rs_step Rs c x f x' f' -> f' q <> f q ->
  touch p q (f q) (f' q).
Proof.
  intros Hp Hc Hs Hq. destruct (HR _ _ _ _ _ Hs) as [H _]. specialize (H q Hq).
  rewrite (so_files _ _ _ _ Ho p k c Hp Hc) in H. unfold touch.
  destruct k; cbn [call_for] in Hc.
  - destruct (cache_path _ _); [|done]. injection Hc as <-. cbn in H. naive_solver.
  - injection Hc as <-. cbn in H. destruct H as [H|[H|[_ H]]]; [| |auto]; apply in_dir_left in H; auto.
  - destruct (ball_for e p); [|done]. injection Hc as <-. cbn in H. naive_solver.
Qed.

Lemma stage_pkg p k : q_pkg (stage_request e p k) = p.
Proof. by destruct k. Qed.

Lemma worker_touch p w f w' f' q : in_plan j p -> wstep e Rs p w f w' f' -> f' q <> f q -> touch p q (f q) (f' q).
Proof.
  intros Hp Hs. destruct Hs as [| | | |f f' Hm| | |f k c x x' f' Hc Hr| | |f k c Hc|f code err inst| |]; try done.
  - intros Hq. right. right. right. left. destruct (mkdir_spec _ _ _ Hm) as (H1 & H2 & H3).
    destruct (decide (in_dir q (tmp p))) as [Hi|Hi].
    + split; [done|]. split; [|by apply H1]. destruct (f q) as [[c|]|] eqn:E; [|by rewrite H1 in Hq|done].
      by apply H3 in E.
    + exfalso. apply Hq, H2, Hi.
  - by eapply r_touch.
  - intros Hq. apply write_description_frame in Hq; [|rewrite stage_pkg; by apply (so_names _ _ _ _ Ho)].
    rewrite stage_pkg in Hq. destruct k; cbn [call_for] in Hc.
    + destruct (cache_path _ _); [|done]. injection Hc as <-. by left.
    + injection Hc as <-. right. right. left. cbn in Hq. by apply in_dir_left in Hq.
    + destruct (ball_for e p); [|done]. injection Hc as <-. by left.
  - destruct (fs_dir_exists f inst); [|done]. unfold inst. rewrite join_name by by apply (so_names _ _ _ _ Ho).
    intros Hq. destruct (remove_cases (tmp p ++ [p])%list f q) as [[H _]|[_ H]]; [|done].
    right. right. left. by apply in_dir_left in H.
Qed.

Lemma worker_tree p w f w' f' : in_plan j p -> wstep e Rs p w f w' f' -> tree_ok f -> tree_ok f'.
Proof.
  intros Hp Hs. destruct Hs as [| | | |f f' Hm| | |f k c x x' f' Hc Hr| | |f k c Hc|f code err inst| |]; try done.
  - intros T. by eapply mkdir_tree.
  - intros T. by eapply HR.
  - apply write_description_tree. rewrite stage_pkg. by apply (so_names _ _ _ _ Ho).
  - destruct (fs_dir_exists f inst); [|done]. apply remove_tree.
Qed.

Lemma copy_touch p b ok f f' q : in_plan j p -> ball_for e p = Some b ->
  copy_step (binary_dir e p) (store_for e p b) b ok f f' -> f' q <> f q -> touch p q (f q) (f' q).
Proof.
  intros Hp Hb. destruct (store_eq _ _ Hp Hb) as (d & n & Es). destruct (ball_name _ _ Hp Hb) as (m & _ & Em).
  assert (make_dir (binary_dir e p) f q <> f q -> in_dir (binary_dir e p) q /\ make_dir (binary_dir e p) f q <> None) as K.
  { intros H. apply make_dir_change in H as (-> & _ & E). split; [by exists []; rewrite app_nil_r|congruence]. }
  assert (in_dir (binary_dir e p) (store_for e p b)) as Hs.
  { rewrite Es. eexists. by rewrite <- app_assoc. }
  unfold touch. destruct 1 as [f c H1 H2 H3|f|f c r H1 H2 H3].
  - destruct (decide (q = b)) as [->|Hq].
    { intros _. right. right. left. rewrite Em. by eexists. }
    rewrite (bool_decide_eq_false_2 (q = b)) by done. destruct (decide (q = store_for e p b)) as [->|Hq2].
    { intros _. do 4 right. split; [done|]. by rewrite bool_decide_eq_true_2. }
    rewrite bool_decide_eq_false_2 by done. intros H. do 4 right. by apply K.
  - intros H. do 4 right. by apply K.
  - destruct (decide (q = store_for e p b)) as [->|Hq2].
    { intros _. do 4 right. split; [done|]. by rewrite bool_decide_eq_true_2. }
    rewrite bool_decide_eq_false_2 by done. intros H. do 4 right. by apply K.
Qed.

Lemma copy_lib p b ok f f' q : in_plan j p -> ball_for e p = Some b ->
  copy_step (binary_dir e p) (store_for e p b) b ok f f' -> in_dir lib q -> f' q = f q.
Proof.
  intros Hp Hb Hs Hq. destruct (store_eq _ _ Hp Hb) as (d & n & Es). destruct (ball_name _ _ Hp Hb) as (m & _ & Em).
  destruct (some_not_lib _ q (so_tmp _ _ _ _ Ho p Hp) Hq) as [T1 _].
  destruct (some_not_lib _ q (so_binaries _ _ _ _ Ho p Hp) Hq) as [B1 _].
  assert (q <> b) as H1 by (intros ->; apply T1; rewrite Em; by eexists).
  assert (q <> store_for e p b) as H2 by (intros ->; apply B1; rewrite Es; eexists; by rewrite <- app_assoc).
  assert (make_dir (binary_dir e p) f q = f q) as K.
  { destruct (decide (make_dir (binary_dir e p) f q = f q)) as [|E]; [done|]. apply make_dir_change in E as (-> & _ & _).
    exfalso. apply B1. by exists []; rewrite app_nil_r. }
  destruct Hs as [f c _ _ _|f|f c r _ _ _]; cbn; rewrite ?(bool_decide_eq_false_2 (q = b)), ?(bool_decide_eq_false_2 (q = store_for e p b)) by done; done.
Qed.

Lemma copy_tree p b ok f f' : in_plan j p -> ball_for e p = Some b ->
  copy_step (binary_dir e p) (store_for e p b) b ok f f' -> tree_ok f -> tree_ok f'.
Proof.
  intros Hp Hb. destruct (store_eq _ _ Hp Hb) as (d & n & Es).
  assert (store_for e p b <> []) as Hs by (rewrite Es; by destruct (binary_dir e p ++ [d])%list).
  assert (binary_dir e p <> []) as Hd. { destruct (binary_dir_eq p) as [x ->]. by destruct x. }
  destruct 1 as [f c H1 H2 H3|f|f c r H1 H2 H3]; intros T; apply (make_dir_tree (binary_dir e p)) in T; try done.
  - apply (unset_tree b (fun q => if bool_decide (q = store_for e p b) then Some (File c) else make_dir (binary_dir e p) f q)).
    + by apply set_tree.
    + destruct (bool_decide _); congruence.
  - by apply set_tree.
Qed.

(** ** What is touched where *)

Lemma touch_not_lib p n n' : in_plan j p -> ~ touch p lib n n'.
Proof.
  intros Hp H. pose proof (so_tmp _ _ _ _ Ho p Hp) as Ht. pose proof (so_binaries _ _ _ _ Ho p Hp) as Hb.
  apply (some_not_lib _ lib) in Ht as [T1 T2]; [|by exists []; rewrite app_nil_r].
  apply (some_not_lib _ lib) in Hb as [B1 B2]; [|by exists []; rewrite app_nil_r].
  destruct H as [H|[H|[H|[[H _]|[H _]]]]]; try done; by apply not_in_below in H.
Qed.

Lemma touch_slot p q n n' x s : in_plan j p -> r_name x -> q = (lib ++ x :: s)%list -> touch p q n n' -> x = p.
Proof.
  intros Hp Hx -> H. pose proof (so_tmp _ _ _ _ Ho p Hp) as Ht. pose proof (so_binaries _ _ _ _ Ho p Hp) as Hb.
  assert (in_dir lib (lib ++ x :: s)%list) as Hq by by eexists.
  apply (some_not_lib _ (lib ++ x :: s)%list) in Ht as [T1 T2]; [|done].
  apply (some_not_lib _ (lib ++ x :: s)%list) in Hb as [B1 B2]; [|done].
  destruct H as [H|[H|[H|[[H _]|[H _]]]]]; try done; destruct H as [z H]; rewrite <- app_assoc in H; apply app_inv_head in H.
  - by injection H as -> _.
  - injection H as -> _. by apply (lock_not_name _ p) in Hx.
Qed.

(** What is in the temporary directory of another package and what is outside stays. *)
Lemma touch_tmp p p' q n n' : in_plan j p -> in_plan j p' -> p <> p' -> in_dir (tmp p) q -> touch p' q n n' -> n <> None -> n' <> None.
Proof.
  intros Hp Hp' Hne Hq H Hn. destruct (so_tmps _ _ _ _ Ho p p' Hp Hp' Hne) as [A1 A2].
  pose proof (so_tmp _ _ _ _ Ho p Hp) as Ht.
  assert (forall x, ~ in_dir (lib ++ [x])%list q) as K.
  { intros x Hx. apply in_dir_left in Hx. by apply (some_not_lib _ q) in Ht as [? _]. }
  destruct H as [H|[H|[H|[(_ & H & _)|[_ H]]]]]; [by apply K in H|by apply K in H| |done|done].
  destruct (in_dir_meet _ _ _ Hq H); done.
Qed.

Lemma touch_outside p q n n' : in_plan j p -> ~ in_dir lib q -> ~ in_dir (tmp p) q -> touch p q n n' -> n <> None -> n' <> None.
Proof.
  intros Hp H1 H2 [H|[H|[H|[(_ & H & _)|[_ H]]]]] Hn; [| |done|done|done]; exfalso; apply H1; by apply in_dir_left in H.
Qed.

(** ** Reachable states *)

Definition areas (f0 : fsys) (q : list string) : Prop := exists p, in_plan j p /\
  (in_dir (lib ++ [p])%list q \/ in_dir (lib ++ [lock p])%list q \/ in_dir (tmp p) q \/
   (in_dir q (tmp p) /\ f0 q = None) \/ in_dir (binary_dir e p) q).

Record inv (f0 : fsys) (ls : list label) (st : tstate (rs_state Rs)) : Prop := {
  i_exec : execution j (initial j) ls (t_sched st);
  i_work : forall p w, t_work st !! p = Some w -> started ls p /\ forall r, Finish p r ∉ ls;
  i_copy : forall p b ok, (p, b, ok) ∈ t_copies st ->
    in_plan j p /\ (exists r, Finish p r ∈ ls) /\ ball_for e p = Some b;
  i_tree : tree_ok (t_fs st);
  i_frame : forall q, t_fs st q <> f0 q -> areas f0 q;
  i_present : forall p w, t_work st !! p = Some w -> f0 (lib ++ [p])%list = Some Dir ->
    w = WLook \/ w = WEnd (-999) false None;
  i_same : forall p, r_name p -> (in_plan j p -> f0 (lib ++ [p])%list = Some Dir) -> same_dir lib p (t_fs st) p f0;
  i_ball : forall p code err b, t_work st !! p = Some (WEnd code err (Some b)) -> ball_for e p = Some b
}.

Lemma started_planned ls s p : execution j (initial j) ls s -> started ls p -> in_plan j p.
Proof.
  intros H Hs. apply elem_of_list_split in Hs as (l1 & l2 & E). by destruct (start_once j Hj ls s l1 l2 p H E) as (_ & _ & K).
Qed.

Lemma inv_initial f0 : tree_ok f0 -> inv f0 [] (tinitial _ j f0).
Proof.
  intros T. split; cbn; try done.
  - constructor.
  - intros p b ok H. by apply elem_of_nil in H.
Qed.

(** The file system changes when something is done for package [p]. *)
Lemma areas_step f0 (f f' : fsys) p q : in_plan j p -> (forall q, f q <> f0 q -> areas f0 q) ->
  (f' q <> f q -> touch p q (f q) (f' q)) -> f' q <> f0 q -> areas f0 q.
Proof.
  intros Hp Hf Ht Hq. destruct (decide (f q = f0 q)) as [E|E]; [|by apply Hf].
  destruct (decide (f' q = f q)) as [E2|E2]; [congruence|]. exists p. split; [done|].
  destruct (Ht E2) as [H|[H|[H|[(H & H1 & _)|[H _]]]]]; auto.
  right. right. right. left. split; [done|congruence].
Qed.

Lemma same_step f0 (f f' : fsys) p x : in_plan j p -> r_name x -> x <> p ->
  (forall q, f' q <> f q -> touch p q (f q) (f' q)) -> same_dir lib x f x f0 -> same_dir lib x f' x f0.
Proof.
  intros Hp Hx Hne Ht Hs s. rewrite <- (Hs s).
  destruct (decide (f' (lib ++ x :: s)%list = f (lib ++ x :: s)%list)) as [|E]; [done|].
  exfalso. apply Hne. eapply touch_slot; [done|done|done|by apply Ht].
Qed.

(** A worker that finds its package present does nothing. *)
Lemma present_step p w f w' f' : in_plan j p -> w = WLook \/ w = WEnd (-999) false None -> f (lib ++ [p])%list = Some Dir ->
  wstep e Rs p w f w' f' -> f' = f /\ w' = WEnd (-999) false None.
Proof.
  intros Hp [-> | ->] Hf Hs; inversion Hs; subst; try done.
  rewrite join_name in H by by apply (so_names _ _ _ _ Ho). unfold fs_dir_exists in H. by rewrite Hf in H.
Qed.

Lemma work_end p w f w' f' code err b : wstep e Rs p w f w' f' -> w' = WEnd code err (Some b) -> ball_for e p = Some b.
Proof.
  intros Hs E. destruct Hs as [| | | | |f k c| | | |f k c| |f code0 err0 inst| |]; try done.
  - destruct k; [done|done|]. cbn in E. by injection E.
  - destruct k; [done|done|]. cbn in E. by injection E.
  - destruct k; [done|done|]. cbn in E. by injection E.
  - by destruct (negb err0 && (code0 =? 0)%Z).
Qed.

Lemma elem_snoc {A : Type} (x y : A) l : x ∈ (l ++ [y])%list <-> x ∈ l \/ x = y.
Proof. rewrite elem_of_app, elem_of_list_singleton. done. Qed.

Lemma orphan_step p k c x f x' f' : call_for e p k = Some c -> rs_step Rs c x f x' f' -> wstep e Rs p (WRun k x) f (WRun k x') f'.
Proof. intros. by eapply w_r. Qed.

Lemma inv_step f0 ls st l st' : inv f0 ls st -> tstep e Rs j st l st' -> inv f0 (ls ++ l)%list st'.
Proof.
  intros [I1 I2 I3 I4 I5 I6 I7 I8] Hs.
  assert (forall p w w' f f' s C b b', st = TState s (t_work st) C f b -> st' = TState s (<[p := w']> (t_work st)) C f' b' ->
    t_work st !! p = Some w -> wstep e Rs p w f w' f' -> inv f0 ls st') as Hwork.
  { intros p w w' f f' s C b b' E E' Hw Hst.
    assert (t_fs st = f) as Ef by by rewrite E. assert (t_sched st = s) as Es by by rewrite E.
    assert (t_copies st = C) as EC by by rewrite E. clear E. subst st'.
    assert (in_plan j p) as Hp by (eapply started_planned; [exact I1|by eapply I2]).
    assert (forall q, f' q <> f q -> touch p q (f q) (f' q)) as Ht by (intros q; by eapply worker_touch).
    subst f s C. split; cbn; try done.
    - intros p' v Hv. destruct (decide (p' = p)) as [->|Hne]; [by eapply I2|].
      rewrite lookup_insert_ne in Hv by done. by eapply I2.
    - by eapply worker_tree.
    - intros q Hq. eapply (areas_step f0 (t_fs st) f' p); [exact Hp|exact I5|apply Ht|exact Hq].
    - intros p' v Hv H0. destruct (decide (p' = p)) as [->|Hne].
      + rewrite lookup_insert in Hv. injection Hv as <-.
        assert (t_fs st (lib ++ [p])%list = Some Dir) as Hf.
        { rewrite <- H0. apply (I7 p); [by apply (so_names _ _ _ _ Ho)|done]. }
        right. by destruct (present_step p w _ w' f' Hp (I6 p w Hw H0) Hf Hst).
      + rewrite lookup_insert_ne in Hv by done. by eapply I6.
    - intros x Hx Hin. destruct (decide (x = p)) as [->|Hne].
      + assert (t_fs st (lib ++ [p])%list = Some Dir) as Hf.
        { rewrite <- (Hin Hp). by apply (I7 p). }
        destruct (present_step p w _ w' f' Hp (I6 p w Hw (Hin Hp)) Hf Hst) as [-> _]. by apply I7.
      + eapply same_step; [exact Hp|done|done|exact Ht|by apply I7].
    - intros p' code err b0 Hv. destruct (decide (p' = p)) as [->|Hne].
      + rewrite lookup_insert in Hv. injection Hv as Hv. by eapply work_end.
      + rewrite lookup_insert_ne in Hv by done. by eapply I8. }
  destruct Hs as [s l s' W C f Hst Hpl|s p s' W C f Hst|s p r s' W C f code err b Hw Hr Hst|s p w w' W C f f' Hw Hst|
                  s p w W C f Hw Hst|s p k c x x' W C f f' Hw Hc Hst|s p ball ok W C1 C2 f f' Hst];
    cbn [t_sched t_work t_copies t_fs] in *.
  - split; cbn; try done.
    + by econstructor.
    + intros p w Hw. destruct (I2 p w Hw) as [H1 H2]. split; [by apply elem_snoc; left|].
      intros r Hr. apply elem_snoc in Hr as [Hr|Hr]; [by apply (H2 r)|]. by rewrite <- Hr in Hpl.
    + intros p b ok H. destruct (I3 p b ok H) as (H1 & (r & H2) & H3). split; [done|]. split; [|done]. exists r. by apply elem_snoc; left.
  - assert (execution j (initial j) (ls ++ [Start p])%list s') as Hex by by econstructor.
    assert (forall r, Finish p r ∉ ls) as Hfin.
    { intros r Hr. assert (1 <= h_fin p ls) as H by (apply h_fin_elem; by exists r).
      destruct (start_once j Hj _ _ ls [] p Hex eq_refl) as (K & _).
      pose proof (counts_run _ _ _ I1) as Hc. rewrite h_start_elem in K.
      pose proof (k_start _ _ _ Hc p). lia. }
    split; cbn; try done.
    + intros p' w Hw. destruct (decide (p' = p)) as [->|Hne].
      * split; [by apply elem_snoc; right|]. intros r Hr. apply elem_snoc in Hr as [Hr|Hr]; [by apply (Hfin r)|done].
      * rewrite lookup_insert_ne in Hw by done. destruct (I2 p' w Hw) as [H1 H2]. split; [by apply elem_snoc; left|].
        intros r Hr. apply elem_snoc in Hr as [Hr|Hr]; [by apply (H2 r)|done].
    + intros p' b ok H. destruct (I3 p' b ok H) as (H1 & (r & H2) & H3). split; [done|]. split; [|done]. exists r. by apply elem_snoc; left.
    + intros p' w Hw. destruct (decide (p' = p)) as [->|Hne].
      * rewrite lookup_insert in Hw. injection Hw as <-. by left.
      * rewrite lookup_insert_ne in Hw by done. by apply I6.
    + intros p' code err b Hw. destruct (decide (p' = p)) as [->|Hne]; [by rewrite lookup_insert in Hw|].
      rewrite lookup_insert_ne in Hw by done. by eapply I8.
  - split; cbn; try done.
    + by econstructor.
    + intros p' w Hw'. apply lookup_delete_Some in Hw' as [Hne Hw']. destruct (I2 p' w Hw') as [H1 H2].
      split; [by apply elem_snoc; left|]. intros r' Hr'. apply elem_snoc in Hr' as [Hr'|Hr']; [by apply (H2 r')|congruence].
    + intros p' b' ok' H. apply elem_of_app in H as [H|H].
      * destruct (I3 p' b' ok' H) as (H1 & (r' & H2) & H3). split; [done|]. split; [|done]. exists r'. by apply elem_snoc; left.
      * destruct r as [c|]; [|by apply elem_of_nil in H]. destruct b as [ball|]; [|by apply elem_of_nil in H].
        cbn in H. apply elem_of_list_singleton in H as [= -> -> ->]. split; [|split].
        -- eapply started_planned; [exact I1|by eapply I2].
        -- exists (ROk c). by apply elem_snoc; right.
        -- by eapply I8.
    + intros p' w Hw'. apply lookup_delete_Some in Hw' as [Hne Hw']. by apply I6.
    + intros p' code' err' b' Hw'. apply lookup_delete_Some in Hw' as [Hne Hw']. by eapply I8.
  - rewrite app_nil_r. by eapply Hwork.
  - rewrite app_nil_r. by split.
  - rewrite app_nil_r. eapply Hwork; [done..|]. by eapply orphan_step.
  - rewrite app_nil_r. destruct (I3 p ball ok) as (Hp & Hfin & Hb); [apply elem_of_app; right; by left|].
    assert (forall q, f' q <> f q -> touch p q (f q) (f' q)) as Ht by (intros q; by eapply copy_touch).
    split; cbn; try done.
    + intros p' b' ok' H. apply (I3 p' b' ok'). rewrite elem_of_app in H |- *. destruct H; [by left|right; by right].
    + by eapply copy_tree.
    + intros q Hq. eapply (areas_step f0 f f' p); [exact Hp|exact I5|apply Ht|exact Hq].
    + intros x Hx Hin s0. rewrite <- (I7 x Hx Hin s0). eapply copy_lib; [exact Hp|exact Hb|exact Hst|by eexists].
Qed.

Lemma together_inv f0 ls st : tree_ok f0 -> together e Rs j (tinitial _ j f0) ls st -> inv f0 ls st.
Proof.
  intros T. induction 1; [by apply inv_initial|]. by eapply inv_step.
Qed.

(** ** The frame *)

Lemma scratch_fine ps : scratch_ok lib (scratch lib ds ps).
Proof.
  intros q [H|[(p & Hp & H)|(d & Hd & H1 & H2)]].
  - apply some_apart in H as [A1 A2]. split; [done|]. intros x s ->. exfalso. apply A1. by eexists.
  - split.
    + intros [z E]. destruct H as [s ->]. apply (f_equal length) in E. rewrite !app_length in E. cbn in E. lia.
    + intros x s ->. destruct H as [z H]. rewrite <- app_assoc in H. apply app_inv_head in H. injection H as -> _.
      split; [|done]. intros Hn. by apply (lock_not_name _ p) in Hn.
  - split; [done|]. intros x s ->. exfalso. destruct (so_apart _ _ _ _ Ho d Hd) as [A1 _]. apply A1.
    eapply in_dir_trans; [|exact H1]. by eexists.
Qed.

Lemma ancestors_there f q p : tree_ok f -> f p = Some Dir -> in_dir q p -> f q = Some Dir.
Proof.
  intros T Hp [s ->]. destruct (decide (s = [])) as [->|Hs]; [by rewrite app_nil_r in Hp|].
  destruct (decide (f q = Some Dir)) as [|E]; [done|]. by rewrite (tree_below f q s T E Hs) in Hp.
Qed.

Lemma together_frame all add f0 ls st : (forall p, in_plan j p -> p ∈ all) -> (forall p, p ∈ all -> r_name p) ->
  tree_ok f0 -> f0 lib = Some Dir -> together e Rs j (tinitial _ j f0) ls st ->
  install_frame lib (scratch lib ds all) all add f0 (t_fs st) /\ tree_ok (t_fs st).
Proof.
  intros Hall Hn T Hl H. apply together_inv in H as [I1 I2 I3 I4 I5 I6 I7 I8]; [|done]. split; [|done]. split.
  - intros q Hs Hq. destruct (decide (t_fs st q = f0 q)) as [|E]; [done|]. exfalso.
    destruct (I5 q E) as (p & Hp & K). pose proof (Hall p Hp) as Hpa.
    destruct K as [K|[K|[K|[[K K2]|K]]]].
    + by apply (Hq p).
    + apply Hs. right. left. by exists p.
    + apply Hs. left. destruct (so_tmp _ _ _ _ Ho p Hp) as (d & Hd & K2). exists d. split; [done|]. by eapply in_dir_trans.
    + destruct (so_tmp _ _ _ _ Ho p Hp) as (d & Hd & K3). apply Hs.
      destruct (in_dir_meet q d (tmp p) K K3) as [K4|K4]; [|left; by exists d].
      right. right. exists d. split; [done|]. split; [done|]. intros K5.
      by rewrite (ancestors_there f0 q lib T Hl K5) in K2.
    + apply Hs. left. destruct (so_binaries _ _ _ _ Ho p Hp) as (d & Hd & K2). exists d. split; [done|]. by eapply in_dir_trans.
  - intros p Hp _ Hd. apply I7; [by apply Hn|done].
Qed.

(** What is elsewhere is not removed. *)
Lemma together_keeps f0 ls st q : tree_ok f0 -> together e Rs j (tinitial _ j f0) ls st ->
  ~ in_dir lib q -> (forall p, in_plan j p -> ~ in_dir (tmp p) q) -> f0 q <> None -> t_fs st q <> None.
Proof.
  intros T H Hl Ht Hq. induction H as [|ls st l st' H IH Hs]; [done|].
  pose proof (together_inv _ _ _ T H) as I.
  assert (forall p (f f' : fsys), in_plan j p -> (f' q <> f q -> touch p q (f q) (f' q)) -> f q <> None -> f' q <> None) as K.
  { intros p f f' Hp Hc Hf. destruct (decide (f' q = f q)) as [E|E]; [congruence|].
    eapply touch_outside; [exact Hp|done|by apply Ht|by apply Hc|done]. }
  assert (forall p w, t_work st !! p = Some w -> in_plan j p) as Hw.
  { intros p w Hw. eapply started_planned; [exact (i_exec _ _ _ I)|]. by eapply (i_work _ _ _ I). }
  destruct Hs as [s l s' W C f Hst Hpl|s p s' W C f Hst|s p r s' W C f code err b Hwp Hr Hst|s p w w' W C f f' Hwp Hst|
                  s p w W C f Hwp Hst|s p k c x x' W C f f' Hwp Hc Hst|s p ball ok W C1 C2 f f' Hst];
    cbn [t_sched t_work t_copies t_fs] in *; try done.
  - eapply (K p f); [by eapply Hw| |done]. intros. eapply worker_touch; [by eapply Hw|exact Hst|done].
  - eapply (K p f); [by eapply Hw| |done]. intros. eapply worker_touch; [by eapply Hw|by eapply orphan_step|done].
  - destruct (i_copy _ _ _ I p ball ok) as (Hp & _ & Hb); [cbn; apply elem_of_app; right; by left|].
    eapply (K p f); [done| |done]. intros. by eapply copy_touch.
Qed.

(** ** Success *)

Hypothesis HI : rs_installs Rs name.

Definition wgood (p : string) (w : wstate (rs_state Rs)) (f : fsys) : Prop :=
  match w with
  | WFile k => exists c, call_for e p k = Some c /\ f (rc_source c) <> None
  | WStamp k => k <> Build -> f (lib ++ [p])%list = Some Dir
  | WClean code err => err = false -> code = 0%Z
  | WEnd _ err _ => err = false -> f (lib ++ [p])%list = Some Dir
  | _ => True
  end.

Record inv2 (ls : list label) (st : tstate (rs_state Rs)) : Prop := {
  g_there : forall p, in_plan j p -> t_fs st (source_for e p) <> None;
  g_work : forall p w, t_work st !! p = Some w -> wgood p w (t_fs st);
  g_done : forall p c, Finish p (ROk c) ∈ ls -> t_fs st (lib ++ [p])%list = Some Dir
}.

(** What is said of one package is not affected by what is done for others. *)
Lemma wgood_other f0 p p' w (f f' : fsys) : files_ok e j f0 -> in_plan j p -> in_plan j p' -> p <> p' ->
  (forall q, f' q <> f q -> touch p' q (f q) (f' q)) -> wgood p w f -> wgood p w f'.
Proof.
  intros Hf Hp Hp' Hne Ht.
  assert (f (lib ++ [p])%list = Some Dir -> f' (lib ++ [p])%list = Some Dir) as K.
  { intros H. destruct (decide (f' (lib ++ [p])%list = f (lib ++ [p])%list)) as [E|E]; [congruence|].
    exfalso. apply Hne. eapply touch_slot; [exact Hp'|by apply (so_names _ _ _ _ Ho)|reflexivity|by apply Ht]. }
  destruct w as [| | |k|k x|k|code err| |code err b]; cbn [wgood]; try done; [| |naive_solver].
  - intros (c & Hc & H). exists c. split; [done|].
    destruct (decide (f' (rc_source c) = f (rc_source c))) as [E|E]; [congruence|]. apply Ht in E.
    destruct k; cbn [call_for] in Hc.
    + destruct (cache_path _ _) as [bp|] eqn:Eb; [|done]. injection Hc as <-. cbn in *.
      destruct (fo_cached _ _ _ Hf p p' bp Hp Hp' Eb) as [F1 F2]. by eapply touch_outside.
    + injection Hc as <-. cbn in *. destruct (fo_source _ _ _ Hf p p' Hp Hp') as [F1 F2]. by eapply touch_outside.
    + destruct (ball_for e p) as [b|] eqn:Eb; [|done]. injection Hc as <-. cbn in *.
      destruct (ball_name _ _ Hp Eb) as (n & _ & ->). eapply (touch_tmp p p'); [done|done|done| |exact E|done]. by eexists.
  - intros H Hk. by apply K, H.
Qed.

Lemma there_step f0 (f f' : fsys) p p' : files_ok e j f0 -> in_plan j p -> in_plan j p' ->
  (forall q, f' q <> f q -> touch p' q (f q) (f' q)) -> f (source_for e p) <> None -> f' (source_for e p) <> None.
Proof.
  intros Hf Hp Hp' Ht H. destruct (decide (f' (source_for e p) = f (source_for e p))) as [E|E]; [congruence|].
  destruct (fo_source _ _ _ Hf p p' Hp Hp') as [F1 F2]. eapply touch_outside; [exact Hp'|done|done|by apply Ht|done].
Qed.

Lemma slot_step (f f' : fsys) p p' : in_plan j p -> in_plan j p' -> p <> p' ->
  (forall q, f' q <> f q -> touch p' q (f q) (f' q)) -> f (lib ++ [p])%list = Some Dir -> f' (lib ++ [p])%list = Some Dir.
Proof.
  intros Hp Hp' Hne Ht H. destruct (decide (f' (lib ++ [p])%list = f (lib ++ [p])%list)) as [E|E]; [congruence|].
  exfalso. apply Hne. eapply touch_slot; [exact Hp'|by apply (so_names _ _ _ _ Ho)|reflexivity|by apply Ht].
Qed.

Lemma exit_there p k c x f : in_plan j p -> call_for e p k = Some c -> k <> Build -> rs_exit Rs c x f 0 ->
  f (lib ++ [p])%list = Some Dir.
Proof.
  intros Hp Hc Hk Hx. apply HI in Hx. rewrite (so_files _ _ _ _ Ho p k c Hp Hc) in Hx.
  destruct k; cbn [call_for] in Hc; [|done|].
  - destruct (cache_path _ _); [|done]. by injection Hc as <-.
  - destruct (ball_for e p); [|done]. by injection Hc as <-.
Qed.

Lemma exists_some f q : fs_exists f q = true -> f q <> None.
Proof. unfold fs_exists. by destruct (f q). Qed.

Lemma wgood_own f0 p w f w' f' : files_ok e j f0 -> in_plan j p -> f (source_for e p) <> None -> wstep e Rs p w f w' f' ->
  wgood p w f -> wgood p w' f'.
Proof.
  intros Hf Hp Hsrc Hs.
  assert (forall q, f' q <> f q -> touch p q (f q) (f' q)) as Ht by (intros q; by eapply worker_touch).
  destruct Hs as [f He|f He|f bp Eb He|f bp Eb He|f f' Hm|f k c Hc He|f k c Hc He|f k c x x' f' Hc Hr|f k c x Hc Hx|
    f k c x code Hc Hx Hne|f k c Hc|f code err inst|f b Eb He|f b Eb He]; cbn [wgood]; try done.
  - intros _ _. rewrite join_name in He by by apply (so_names _ _ _ _ Ho). unfold fs_dir_exists in He.
    by destruct (f (lib ++ [p])%list) as [[]|].
  - intros _. cbn [call_for]. rewrite Eb. eexists. split; [done|]. by apply exists_some.
  - intros _. cbn [call_for]. eexists. split; [done|]. cbn. by eapply there_step.
  - intros (c' & Hc' & H). rewrite Hc in Hc'. injection Hc' as <-. exfalso. unfold fs_exists in He. by destruct (f (rc_source c)).
  - intros _ Hk. by eapply exit_there.
  - by destruct k.
  - intros H. destruct k; cbn [after_install wgood]; intros _; [| done |]; apply write_description_dir; by apply H.
  - intros H. destruct (negb err && (code =? 0)%Z) eqn:E; [done|]. cbn [wgood]. intros ->. rewrite H in E by done. done.
  - intros _. cbn [call_for]. rewrite Eb. eexists. split; [done|]. by apply exists_some.
Qed.

Lemma inv2_initial f0 : files_ok e j f0 -> inv2 [] (tinitial _ j f0).
Proof.
  intros Hf. split; cbn.
  - apply Hf.
  - done.
  - intros p c H. by apply elem_of_nil in H.
Qed.

Lemma inv2_step f0 ls st l st' : files_ok e j f0 -> inv f0 ls st -> inv2 ls st -> tstep e Rs j st l st' -> inv2 (ls ++ l)%list st'.
Proof.
  intros Hf [I1 I2 I3 I4 I5 I6 I7 I8] [G1 G2 G3] Hs.
  assert (forall p, (exists r, Finish p r ∈ ls) -> in_plan j p) as Hfp.
  { intros p Hp. eapply started_planned; [exact I1|]. apply h_start_elem. apply h_fin_elem in Hp.
    pose proof (k_start _ _ _ (counts_run _ _ _ I1) p). lia. }
  assert (forall p w w' f f' s C b b', st = TState s (t_work st) C f b -> st' = TState s (<[p := w']> (t_work st)) C f' b' ->
    t_work st !! p = Some w -> wstep e Rs p w f w' f' -> inv2 ls st') as Hwork.
  { intros p w w' f f' s C b b' E E' Hw Hst. assert (t_fs st = f) as Ef by by rewrite E. clear E. subst st' f.
    assert (in_plan j p) as Hp by (eapply started_planned; [exact I1|by eapply I2]).
    assert (forall q, f' q <> t_fs st q -> touch p q (t_fs st q) (f' q)) as Ht by (intros q; by eapply worker_touch).
    split; cbn.
    - intros p' Hp'. eapply (there_step f0 (t_fs st) f' p' p); [done|done|done|done|by apply G1].
    - intros p' v Hv. destruct (decide (p' = p)) as [->|Hne].
      + rewrite lookup_insert in Hv. injection Hv as <-. eapply (wgood_own f0); [done|done|by apply G1|exact Hst|by apply G2].
      + rewrite lookup_insert_ne in Hv by done. eapply (wgood_other f0 p' p); [done| |done|done|done|by apply G2].
        eapply started_planned; [exact I1|by eapply I2].
    - intros p' c Hc. eapply (slot_step (t_fs st) f' p' p); [|done| |done|by eapply G3].
      + apply Hfp. by exists (ROk c).
      + intros ->. by apply (I2 p w Hw) in Hc. }
  destruct Hs as [s l s' W C f Hst Hpl|s p s' W C f Hst|s p r s' W C f code err b Hw Hr Hst|s p w w' W C f f' Hw Hst|
                  s p w W C f Hw Hst|s p k c x x' W C f f' Hw Hc Hst|s p ball ok W C1 C2 f f' Hst];
    cbn [t_sched t_work t_copies t_fs] in *.
  - split; cbn; try done. intros p c Hc. apply elem_snoc in Hc as [Hc|Hc]; [by eapply G3|]. by rewrite <- Hc in Hpl.
  - split; cbn; try done.
    + intros p' w Hw. destruct (decide (p' = p)) as [->|Hne].
      * rewrite lookup_insert in Hw. by injection Hw as <-.
      * rewrite lookup_insert_ne in Hw by done. by apply G2.
    + intros p' c Hc. apply elem_snoc in Hc as [Hc|Hc]; [by eapply G3|done].
  - split; cbn; try done.
    + intros p' w Hw'. apply lookup_delete_Some in Hw' as [Hne Hw']. by apply G2.
    + intros p' c Hc. apply elem_snoc in Hc as [Hc|Hc]; [by eapply G3|]. injection Hc as -> <-.
      apply (G2 p) in Hw. cbn in Hw. apply Hw. by inversion Hr.
  - rewrite app_nil_r. by eapply Hwork.
  - rewrite app_nil_r. by split.
  - rewrite app_nil_r. eapply Hwork; [done..|]. by eapply orphan_step.
  - rewrite app_nil_r. destruct (I3 p ball ok) as (Hp & [r Hr] & Hb); [apply elem_of_app; right; by left|].
    assert (forall q, f' q <> f q -> touch p q (f q) (f' q)) as Ht by (intros q; by eapply copy_touch).
    split; cbn.
    + intros p' Hp'. eapply (there_step f0 f f' p' p); [done|done|done|done|by apply G1].
    + intros p' w Hw. assert (p' <> p) as Hne.
      { intros ->. by apply (proj2 (I2 p w Hw) r). }
      eapply (wgood_other f0 p' p); [done| |done|done|done|by apply G2].
      eapply started_planned; [exact I1|by eapply I2].
    + intros p' c Hc. rewrite <- (G3 p' c Hc). eapply copy_lib; [exact Hp|exact Hb|exact Hst|by eexists].
Qed.

Lemma together_inv2 f0 ls st : tree_ok f0 -> files_ok e j f0 -> together e Rs j (tinitial _ j f0) ls st -> inv2 ls st.
Proof.
  intros T Hf H. induction H as [|ls s' l s'' H IH Hs]; [by apply inv2_initial|].
  eapply inv2_step; [done| |exact IH|exact Hs]. by apply together_inv.
Qed.

Lemma together_done f0 ls st p : tree_ok f0 -> files_ok e j f0 -> together e Rs j (tinitial _ j f0) ls st ->
  succeeded ls p -> t_fs st (lib ++ [p])%list = Some Dir.
Proof. intros T Hf H [c Hc]. by eapply (g_done _ _ (together_inv2 _ _ _ T Hf H)). Qed.

Lemma together_success f0 ls st p : tree_ok f0 -> files_ok e j f0 -> together e Rs j (tinitial _ j f0) ls st ->
  returned (t_sched st) None -> in_plan j p -> t_fs st (lib ++ [p])%list = Some Dir.
Proof.
  intros T Hf H Hr Hp. eapply together_done; [done|done|exact H|].
  eapply success_all; [done|exact (i_exec _ _ _ (together_inv _ _ _ T H))|done|done].
Qed.

(** Dependencies are installed before anything is done for a package. *)
Lemma together_deps f0 ls st p w d : tree_ok f0 -> files_ok e j f0 -> together e Rs j (tinitial _ j f0) ls st ->
  t_work st !! p = Some w -> depends_on j p d -> t_fs st (lib ++ [d])%list = Some Dir.
Proof.
  intros T Hf H Hw Hd. pose proof (together_inv _ _ _ T H) as I.
  destruct (i_work _ _ _ I p w Hw) as [Hst _]. apply elem_of_list_split in Hst as (l1 & l2 & E).
  destruct (deps_first j Hj ls _ l1 l2 p d (i_exec _ _ _ I) E Hd) as [c Hc]. eapply together_done; [done|done|exact H|]. exists c. rewrite E. apply elem_of_app. by left.
Qed.

End together.

(** ** A worker on its own *)

Section alone.

Context (e : setting) (R : rprog) (p : string).

Local Notation go := (alone e (rs_of R) p).
Local Notation wst := (wstate (option Z)).
Local Notation s := (surroundings_for e p).
Local Notation r := (request_for e p).

(** The end: returning, or ending the program. *)
Definition ends (w : wst) (f : fsys) : Prop := (exists code err b, w = WEnd code err b) \/ wstop e p w f.

Lemma ends_stuck w f w' f' : ends w f -> ~ wstep e (rs_of R) p w f w' f'.
Proof.
  intros [(code & err & b & ->)|H] Hs; [by inversion Hs|].
  destruct H; inversion Hs; congruence.
Qed.

Lemma go_end w f w' f' : ends w f -> go w f w' f' -> w' = w /\ f' = f.
Proof. intros H Hg. destruct Hg as [|w f w1 f1 w2 f2 Hs _]; [done|]. by apply (ends_stuck _ _ w1 f1) in H. Qed.

Lemma go_step w f w1 f1 w' f' : wstep e (rs_of R) p w f w1 f1 ->
  (forall w2 f2, wstep e (rs_of R) p w f w2 f2 -> w2 = w1 /\ f2 = f1) -> ends w' f' ->
  (go w f w' f' <-> go w1 f1 w' f').
Proof.
  intros Hs Hd He. split.
  - intros Hg. destruct Hg as [w f|w f w2 f2 w3 f3 Hs2 Hg]; [by apply (ends_stuck _ _ w1 f1) in He|].
    by destruct (Hd _ _ Hs2) as [-> ->].
  - intros Hg. by econstructor.
Qed.

Lemma go_file k c f w' f' : call_for e p k = Some c -> ends w' f' ->
  (go (WFile k) f w' f' <->
   let '(code, err, f1, _) := install R s (stage_request e p k) (rc_source c) (rc_library c) (rc_build c) (rc_dir c) f in
   go (after_install e p k code err) f1 w' f').
Proof.
  intros Hc He. unfold install. destruct (fs_exists f (rc_source c)) eqn:Ef.
  - destruct (R _ f) as [code f1] eqn:ER.
    rewrite (go_step (WFile k) f (WRun k None) f); [|by apply (w_call e (rs_of R) p f k c)| |done].
    2:{ intros w2 f2 H. inversion H; subst; [congruence|done]. }
    rewrite (go_step (WRun k None) f (WRun k (Some code)) f1); [| | |done].
    2:{ eapply (w_r e (rs_of R) p f k c); [done|]. cbn. split; [done|]. exists code. split; [|done]. by destruct c. }
    2:{ intros w2 f2 H. inversion H as [| | | | | | |f3 k' c' x x' f4 Hc' Hr|f3 k' c' x Hc' Hx|f3 k' c' x code' Hc' Hx| | | |]; subst; [|done|done].
        destruct Hr as (_ & code' & Hr & ->). rewrite Hc in Hc'. injection Hc' as <-.
        destruct c; cbn in ER. rewrite ER in Hr. by injection Hr as <- <-. }
    destruct (Z.eqb_spec code 0) as [->|Hne].
    + rewrite (go_step (WRun k (Some 0%Z)) f1 (WStamp k) f1); [| | |done].
      2:{ by eapply (w_r_ok e (rs_of R) p f1 k c). }
      2:{ intros w2 f2 H. inversion H as [| | | | | | |f3 k' c' x x' f4 Hc' Hr|f3 k' c' x Hc' Hx|f3 k' c' x code' Hc' Hx Hn| | | |]; subst; [by destruct Hr|done|].
          by injection Hx as <-. }
      rewrite (go_step (WStamp k) f1 (after_install e p k 0 false) (write_description s (stage_request e p k) (rc_library c) f1));
        [done| | |done].
      * by apply (w_stamp e (rs_of R) p f1 k c).
      * intros w2 f2 H. inversion H; subst. split; [done|]. congruence.
    + rewrite (go_step (WRun k (Some code)) f1 (after_install e p k code true) f1); [done| | |done].
      * by eapply (w_r_fail e (rs_of R) p f1 k c).
      * intros w2 f2 H. inversion H as [| | | | | | |f3 k' c' x x' f4 Hc' Hr|f3 k' c' x Hc' Hx|f3 k' c' x code' Hc' Hx Hn| | | |]; subst; [by destruct Hr|by injection Hx|].
        by injection Hx as <-.
  - rewrite (go_step (WFile k) f (after_install e p k 1 false) f); [done| | |done].
    + by apply (w_no_file e (rs_of R) p f k c).
    + intros w2 f2 H. inversion H; subst; [done|congruence].
Qed.

Definition as_outcome (w : wst) : outcome :=
  match w with WEnd code err b => Done code err b | _ => Stopped end.

Lemma go_ends w f w' f' : ends w f -> (go w f w' f' <-> w' = w /\ f' = f).
Proof. intros H. split; [by apply go_end|]. intros [-> ->]. constructor. Qed.

Lemma end_ends code err b f : ends (WEnd code err b) f.
Proof. left. by eexists _, _, _. Qed.

Lemma go_through f w' f' : ends w' f' -> go WLook f w' f' ->
  (install_through_binary R s r f).1 = (as_outcome w', f').
Proof.
  intros He. unfold install_through_binary. cbn [q_library q_pkg request_for q_build].
  destruct (fs_dir_exists f (join_path (e_library e) p)) eqn:Ed.
  { rewrite (go_step WLook f (WEnd (-999) false None) f); [|by constructor| |done].
    - rewrite go_ends by apply end_ends. by intros [-> ->].
    - intros w2 f2 H. inversion H; subst; [done|congruence]. }
  rewrite (go_step WLook f WCache f); [|by constructor| |done].
  2:{ intros w2 f2 H. inversion H; subst; [congruence|done]. }
  destruct (cache_path s r) as [bp|] eqn:Eb.
  2:{ rewrite go_ends by (right; by constructor). by intros [-> ->]. }
  destruct (fs_exists f bp) eqn:Ebp.
  { rewrite (go_step WCache f (WFile Cached) f); [|by econstructor| |done].
    2:{ intros w2 f2 H. inversion H; subst; [done|congruence]. }
    rewrite (go_file Cached {| rc_dir := s_cwd (e_where e); rc_library := e_library e; rc_build := false; rc_source := bp |});
      [|cbn [call_for]; by rewrite Eb|done].
    cbn [rc_dir rc_library rc_build rc_source stage_request].
    change (s_cwd s) with (s_cwd (e_where e)).
    destruct (install R s (as_binary r) bp (e_library e) false (s_cwd (e_where e)) f) as [[[code err] f1] t].
    cbn [after_install]. rewrite go_ends by apply end_ends. by intros [-> ->]. }
  rewrite (go_step WCache f WTmp f); [|by econstructor| |done].
  2:{ intros w2 f2 H. inversion H; subst; [congruence|done]. }
  change (s_tmp s) with (e_tmp e p).
  destruct (mkdir_all (e_tmp e p) f) as [f0|] eqn:Em.
  2:{ rewrite go_ends by (right; by constructor). by intros [-> ->]. }
  rewrite (go_step WTmp f (WFile Build) f0); [|by constructor| |done].
  2:{ intros w2 f2 H. inversion H; subst. split; [done|congruence]. }
  rewrite (go_file Build _ f0 w' f' eq_refl) by done. cbn [rc_dir rc_library rc_build rc_source stage_request].
  change (Install.resolve (s_cwd s) (q_path r)) with (source_for e p).
  destruct (install R s r (source_for e p) (e_tmp e p) true (e_tmp e p) f0) as [[[code err] f1] t1].
  cbn [after_install].
  rewrite (go_step (WClean code err) f1 (if negb err && (code =? 0)%Z then WBall else WEnd code err None)
    (if fs_dir_exists f1 (join_path (e_tmp e p) p) then remove_all (join_path (e_tmp e p) p) f1 else f1));
    [|apply (w_clean e (rs_of R) p)| |done].
  2:{ intros w2 f2 H. by inversion H; subst. }
  set (f2 := if fs_dir_exists f1 (join_path (e_tmp e p) p) then remove_all (join_path (e_tmp e p) p) f1 else f1). cbv zeta.
  destruct (negb err && (code =? 0)%Z).
  2:{ rewrite go_ends by apply end_ends. by intros [-> ->]. }
  change (s_os s) with (s_os (e_where e)). change (q_platform r) with (e_platform e).
  destruct (binary_ext (s_os (e_where e)) (base_name (source_for e p)) (e_platform e)) as [n|] eqn:Ex.
  2:{ rewrite go_ends by (right; constructor; unfold ball_for; by rewrite Ex). by intros [-> ->]. }
  assert (ball_for e p = Some (join_path (e_tmp e p) n)) as Eball by (unfold ball_for; by rewrite Ex).
  destruct (fs_exists f2 (join_path (e_tmp e p) n)) eqn:E2.
  - rewrite (go_step WBall f2 (WFile Final) f2); [|by econstructor| |done].
    2:{ intros w2 f2' H. inversion H; subst; [done|congruence]. }
    rewrite (go_file Final {| rc_dir := e_tmp e p; rc_library := e_library e; rc_build := false; rc_source := join_path (e_tmp e p) n |});
      [|cbn [call_for]; by rewrite Eball|done].
    cbn [rc_dir rc_library rc_build rc_source stage_request].
    destruct (install R s r (join_path (e_tmp e p) n) (e_library e) false (e_tmp e p) f2) as [[[code2 err2] f3] t2].
    cbn [after_install]. rewrite go_ends by apply end_ends. rewrite Eball. by intros [-> ->].
  - rewrite (go_step WBall f2 (WEnd 1 true None) f2); [|by econstructor| |done].
    + rewrite go_ends by apply end_ends. by intros [-> ->].
    + intros w2 f2' H. inversion H; subst; [congruence|done].
Qed.

(** It gets to an end. *)
Definition fine (w : wst) : Prop :=
  match w with WFile k | WRun k _ | WStamp k => is_Some (call_for e p k) | _ => True end.

Definition rank (w : wst) : nat :=
  let at_stage k n := match k with Build => 10 + n | _ => n end in
  match w with
  | WLook => 22 | WCache => 21 | WTmp => 20
  | WFile k => at_stage k 4 | WRun k None => at_stage k 3 | WRun k (Some _) => at_stage k 2 | WStamp k => at_stage k 1
  | WClean _ _ => 8 | WBall => 7 | WEnd _ _ _ => 0
  end.

Lemma rank_after k code err n : 1 <= n -> rank (after_install e p k code err) < match k with Build => 10 + n | _ => n end.
Proof. intros H. destruct k; cbn; lia. Qed.

Lemma progress w f : fine w -> ends w f \/ exists w' f', wstep e (rs_of R) p w f w' f' /\ fine w' /\ rank w' < rank w.
Proof.
  assert (forall k code err, fine (after_install e p k code err)) as Ha by by intros [].
  destruct w as [| | |k|k x|k|code err| |code err b]; cbn [fine]; intros Hf.
  - right. destruct (fs_dir_exists f (join_path (e_library e) p)) eqn:E.
    + eexists _, _. split; [by constructor|]. split; [done|cbn; lia].
    + eexists _, _. split; [by apply w_absent|]. split; [done|cbn; lia].
  - destruct (cache_path s r) as [bp|] eqn:Eb; [|left; right; by constructor]. right. destruct (fs_exists f bp) eqn:E.
    + eexists _, _. split; [by eapply w_cached|]. split; [|cbn; lia]. cbn. rewrite Eb. by eexists.
    + eexists _, _. split; [by eapply w_not_cached|]. split; [done|cbn; lia].
  - destruct (mkdir_all (e_tmp e p) f) as [f'|] eqn:E; [|left; right; by constructor]. right.
    eexists _, _. split; [by eapply w_tmp|]. split; [by eexists|cbn; lia].
  - right. destruct Hf as [c Hc]. destruct (fs_exists f (rc_source c)) eqn:E.
    + eexists _, _. split; [by eapply w_call|]. split; [by eexists|]. destruct k; cbn; lia.
    + eexists _, _. split; [by eapply w_no_file|]. split; [done|]. cbn [rank]. by apply rank_after; lia.
  - right. destruct Hf as [c Hc]. destruct x as [code|].
    + destruct (decide (code = 0%Z)) as [->|Hne].
      * eexists _, _. split; [by eapply (w_r_ok e (rs_of R))|]. split; [by eexists|]. destruct k; cbn; lia.
      * eexists _, _. split; [by eapply (w_r_fail e (rs_of R))|]. split; [done|]. cbn [rank]. by apply rank_after; lia.
    + destruct (R c f) as [code f'] eqn:E. exists (WRun k (Some code)), f'. split.
      * eapply (w_r e (rs_of R)); [done|]. split; [done|]. by exists code.
      * split; [by eexists|]. destruct k; cbn; lia.
  - right. destruct Hf as [c Hc]. eexists _, _. split; [by eapply w_stamp|]. split; [done|]. cbn [rank]. by apply rank_after; lia.
  - right. eexists _, _. split; [by eapply (w_clean e (rs_of R) p)|]. by destruct (negb err && (code =? 0)%Z); cbn; split; try lia.
  - destruct (ball_for e p) as [b|] eqn:Eb; [|left; right; by constructor]. right. destruct (fs_exists f b) eqn:E.
    + eexists _, _. split; [by eapply w_ball|]. split; [|cbn; lia]. cbn. rewrite Eb. by eexists.
    + eexists _, _. split; [by eapply w_no_ball|]. split; [done|cbn; lia].
  - left. by apply end_ends.
Qed.

Lemma go_exists f : exists w' f', go WLook f w' f' /\ ends w' f'.
Proof.
  assert (forall n w f, rank w < n -> fine w -> exists w' f', go w f w' f' /\ ends w' f') as K.
  { induction n as [|n IH]; [lia|]. intros w g Hr Hf. destruct (progress w g Hf) as [H|(w1 & f1 & Hs & H1 & H2)].
    - exists w, g. split; [constructor|done].
    - destruct (IH w1 f1) as (w' & f' & H3 & H4); [lia|done|]. exists w', f'. split; [by econstructor|done]. }
  by apply (K 23); [cbn; lia|].
Qed.

End alone.
