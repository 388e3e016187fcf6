(** Proofs about copying a directory. *)
From stdpp Require Import strings list.
From Coq Require Import Ascii Lia.
From Verif.model Require Import GoStr Fs Copy.
From Verif.spec Require Import LibSpec TarballSpec CopySpec.
From Verif.proofs Require Import FsProofs.

Lemma in_dir_refl p : in_dir p p.
Proof. exists []. by rewrite app_nil_r. Qed.

Lemma in_dir_cat p s : in_dir p (p ++ s)%list.
Proof. by exists s. Qed.

Lemma in_dir_trans a b c : in_dir a b -> in_dir b c -> in_dir a c.
Proof. intros [s ->] [t ->]. exists (s ++ t)%list. by rewrite app_assoc. Qed.

Lemma in_dir_comparable a b q : in_dir a q -> in_dir b q -> in_dir a b \/ in_dir b a.
Proof.
  revert b q. induction a as [|x a IH]; intros b q Ha Hb; [left; by exists b|].
  destruct b as [|y b]; [right; by exists (x :: a)|].
  destruct Ha as [s ->], Hb as [t E]. cbn in E. injection E as -> E.
  destruct (IH b (a ++ s)%list) as [[u ->]|[u ->]]; [by exists s|by exists t| |].
  - left. by exists u.
  - right. by exists u.
Qed.

Lemma in_dir_dec a q : {in_dir a q} + {~ in_dir a q}.
Proof.
  destruct (below a q) eqn:E; [left; by apply below_spec|right].
  intros H. apply below_spec in H. congruence.
Qed.

Lemma in_dir_snoc q p x : in_dir q (p ++ [x])%list -> in_dir q p \/ q = (p ++ [x])%list.
Proof.
  intros [s E]. destruct s as [|y s _] using rev_ind; [right; by rewrite app_nil_r in E|left].
  rewrite app_assoc in E. apply app_inj_tail in E as [-> _]. by exists s.
Qed.

Lemma prefixes_spec p a : a ∈ prefixes p <-> in_dir a p.
Proof.
  revert a. induction p as [|c l IH]; intros a; cbn [prefixes].
  - rewrite elem_of_list_singleton. split; [intros ->; by exists []|]. intros [s E]. by destruct a.
  - rewrite elem_of_cons, elem_of_list_fmap. split.
    + intros [->|(y & -> & H)]; [by eexists|]. apply IH in H as [s ->]. by exists s.
    + intros [s E]. destruct a as [|x a]; [by left|right]. cbn in E. injection E as -> ->. exists a. split; [done|]. apply IH. by exists s.
Qed.

Lemma mkdir_all_some p f f' : mkdir_all p f = Some f' ->
  (forall a c, in_dir a p -> f a <> Some (File c)) /\ forall q, f' q = if below q p then Some Dir else f q.
Proof.
  unfold mkdir_all. destruct (existsb _ _) eqn:E; [done|]. intros [= <-]. split; [|done].
  intros a c H Hf. apply not_true_iff_false in E. apply E. apply existsb_exists. exists a. rewrite Hf. split; [|done].
  apply elem_of_list_In. by apply prefixes_spec.
Qed.

Lemma mkdir_all_ok p f : (forall a c, in_dir a p -> f a <> Some (File c)) -> exists f', mkdir_all p f = Some f'.
Proof.
  intros H. unfold mkdir_all. destruct (existsb _ _) eqn:E; [|by eexists].
  apply existsb_exists in E as (a & Ha & Hf). destruct (f a) as [[c|]|] eqn:Hc; try done.
  exfalso. apply (H a c); [|done]. apply prefixes_spec. by apply elem_of_list_In.
Qed.

(** ** Elsewhere *)

Lemma try_mkdir_at p f q : q <> p -> try_mkdir p f q = f q.
Proof. intros H. unfold try_mkdir. destruct (_ || _); [done|]. by rewrite bool_decide_false. Qed.

Lemma copy_file_at src dst f f' q : copy_file src dst f = Some f' -> q <> dst -> f' q = f q.
Proof.
  unfold copy_file. destruct (f src) as [[c|]|]; try done. destruct (_ || _); [done|]. intros [= <-] H. by rewrite bool_decide_false.
Qed.

Lemma items_only rec src dst items f f' b :
  (forall s d g g' b, rec s d g = Some (g', b) -> only_at d g g') ->
  (forall a, in_dir a dst -> f a = Some Dir) ->
  copy_items rec src dst items f = Some (f', b) -> only_at dst f f'.
Proof.
  intros Hr. revert f. induction items as [|[x []] l IH]; intros f Hd E; cbn [copy_items] in E.
  - injection E as <- <-. by left.
  - destruct (rec _ _ _) as [[g [|]]|] eqn:R; [| |done].
    + apply Hr in R. assert (forall q, ~ in_dir dst q -> g q = f q) as Hg.
      { intros q Hq. assert (q <> (dst ++ [x])%list) as Hx by (intros ->; apply Hq, in_dir_cat).
        destruct (R q) as [-> | [H ->]].
        - intros H. apply Hq. eapply in_dir_trans; [apply in_dir_cat|exact H].
        - by apply try_mkdir_at.
        - apply in_dir_snoc in H as [H|H]; [|done]. by rewrite Hd. }
      assert (forall a, in_dir a dst -> g a = Some Dir) as Hd'.
      { intros a Ha. destruct (in_dir_dec dst a) as [Hi|Hi].
        - assert (a = dst) as ->.
          { destruct Ha as [s E1], Hi as [t E2]. subst a. rewrite <- app_assoc in E1. rewrite <- (app_nil_r dst) in E1 at 1.
            apply app_inv_head in E1. destruct t; [by rewrite app_nil_r|done]. }
          destruct (R dst) as [-> | [_ ->]]; [|by rewrite try_mkdir_at; [apply Hd, in_dir_refl|apply lib_neq]|done].
          intros [s E1]. rewrite slot_eq in E1. by apply lib_neq in E1.
        - rewrite Hg by done. by apply Hd. }
      specialize (IH g Hd' E). intros q Hq. destruct (IH q Hq) as [-> | H]; [left; by apply Hg|by right].
    + injection E as <- <-. apply Hr in R. intros q Hq.
      assert (q <> (dst ++ [x])%list) as Hx by (intros ->; apply Hq, in_dir_cat).
      destruct (R q) as [-> | [H ->]].
      * intros H. apply Hq. eapply in_dir_trans; [apply in_dir_cat|exact H].
      * left. by apply try_mkdir_at.
      * apply in_dir_snoc in H as [H|H]; [|done]. right. done.
  - destruct (copy_file _ _ _) as [g|] eqn:R.
    + assert (forall q, q <> (dst ++ [x])%list -> g q = f q) as Hg by (intros q; by eapply copy_file_at).
      assert (forall a, in_dir a dst -> g a = Some Dir) as Hd'.
      { intros a Ha. rewrite Hg; [by apply Hd|]. intros ->. destruct Ha as [s E1]. rewrite slot_eq in E1. by apply lib_neq in E1. }
      specialize (IH g Hd' E). intros q Hq. destruct (IH q Hq) as [-> | H]; [left; apply Hg; intros ->; apply Hq, in_dir_cat|by right].
    + injection E as <- <-. by left.
Qed.

Lemma copy_only n ls src dst f f' b : copy_dir n ls src dst f = Some (f', b) -> only_at dst f f'.
Proof.
  revert src dst f f' b. induction n as [|n IH]; intros src dst f f' b E; cbn [copy_dir] in E; [done|].
  destruct (mkdir_all dst f) as [f1|] eqn:M; [|injection E as <- <-; by left].
  apply mkdir_all_some in M as [M1 M2].
  assert (only_at dst f f1) as H1.
  { intros q Hq. rewrite M2. destruct (below q dst) eqn:B; [right|by left]. split; [by apply below_spec|done]. }
  destruct (fs_dir_exists f1 src); [|by injection E as <- <-].
  eapply items_only in E; [|exact IH|].
  - intros q Hq. destruct (E q Hq) as [-> | H]; [by apply H1|by right].
  - intros a Ha. rewrite M2. apply below_spec in Ha. by rewrite Ha.
Qed.

(** ** The copy *)

(** What [src] has is not changed. *)
Lemma apart_src src dst s : apart src dst -> ~ in_dir dst (src ++ s)%list /\ ~ in_dir (src ++ s)%list dst.
Proof.
  intros [A B]. split; intros H.
  - destruct (in_dir_comparable dst src (src ++ s)%list H (in_dir_cat _ _)); done.
  - apply A. eapply in_dir_trans; [apply in_dir_cat|exact H].
Qed.

Lemma only_src src dst f f' s : apart src dst -> only_at dst f f' -> f' (src ++ s)%list = f (src ++ s)%list.
Proof. intros Ha H. destruct (apart_src src dst s Ha) as [A B]. by destruct (H _ A) as [-> | [? _]]. Qed.

Lemma apart_sub src dst x : apart src dst -> apart (src ++ [x]) (dst ++ [x]).
Proof.
  intros [A B]. split; intros H.
  - destruct (in_dir_comparable src dst (dst ++ [x])%list) as [H1|H1]; [|apply in_dir_cat|done|done].
    eapply in_dir_trans; [apply in_dir_cat|exact H].
  - destruct (in_dir_comparable src dst (src ++ [x])%list) as [H1|H1]; [apply in_dir_cat| |done|done].
    eapply in_dir_trans; [apply in_dir_cat|exact H].
Qed.

(** What is true of the copy after some items. *)
Definition items_over (src dst : path) (names : list string) (f f' : fsys) : Prop :=
  (forall x s n, x ∈ names -> f (src ++ x :: s)%list = Some n -> f' (dst ++ x :: s)%list = Some n) /\
  (forall x s, x ∈ names -> f (src ++ x :: s)%list = None -> f' (dst ++ x :: s)%list = f (dst ++ x :: s)%list) /\
  (forall q, (forall x s, x ∈ names -> q <> (dst ++ x :: s)%list) -> f' q = f q).

Lemma items_sound rec src dst items o f f' :
  (forall x g g', rec (src ++ [x])%list (dst ++ [x])%list g = Some (g', true) -> tree_at (src ++ [x]) g ->
     (forall s, g (src ++ x :: s)%list = o (src ++ x :: s)%list) ->
     copied_over (src ++ [x]) (dst ++ [x]) g g' /\ only_at (dst ++ [x]) g g') ->
  apart src dst -> tree_at src f -> (forall s, f (src ++ s)%list = o (src ++ s)%list) -> NoDup (map fst items) ->
  (forall x b, (x, b) ∈ items -> exists n, f (src ++ [x])%list = Some n /\ is_dir n = b) ->
  (forall a, in_dir a dst -> f a = Some Dir) ->
  copy_items rec src dst items f = Some (f', true) -> items_over src dst (map fst items) f f'.
Proof.
  intros Hr Ha. revert f. induction items as [|[x b] l IH]; intros f Ht Hof Hn Hk Hd E.
  { cbn [copy_items] in E. injection E as <-. split; [|split]; [..|done]; intros ? ? *; by rewrite elem_of_nil. }
  cbn [map fst] in *. apply NoDup_cons in Hn as [Hx Hn].
  (* after the first item *)
  assert (exists g, copy_items rec src dst l g = Some (f', true) /\ items_over src dst [x] f g) as (g & El & S1 & S2 & S3).
  { destruct (Hk x b) as (n & Hf & Hb); [by left|]. destruct b; cbn [copy_items] in E.
    - destruct (rec _ _ _) as [[g [|]]|] eqn:R; [|done|done]. exists g. split; [done|].
      assert (forall s, try_mkdir (dst ++ [x]) f (src ++ s)%list = f (src ++ s)%list) as Hs.
      { intros s. apply try_mkdir_at. intros Q. apply (proj1 (apart_src src dst s Ha)). rewrite Q. apply in_dir_cat. }
      assert (tree_at (src ++ [x]) (try_mkdir (dst ++ [x]) f)) as Ht'.
      { intros s y. rewrite <- !app_assoc, !Hs. intros Q. specialize (Ht (x :: s) y). rewrite <- !app_assoc in Ht. by apply Ht. }
      destruct (Hr x _ g R Ht') as [[C1 C2] C3]; [intros s; by rewrite Hs|].
      assert (forall s, try_mkdir (dst ++ [x]) f (dst ++ x :: s)%list = f (dst ++ x :: s)%list \/ s = []) as Hm.
      { intros [|y s]; [by right|left]. apply try_mkdir_at. rewrite <- (slot_eq dst x (y :: s)). intros Q. symmetry in Q. by apply lib_neq in Q. }
      assert (n = Dir) as -> by (by destruct n). 
      split; [|split].
      + intros ? s m ->%elem_of_list_singleton H. specialize (C1 s m). rewrite slot_eq, Hs, slot_eq in C1. by apply C1.
      + intros ? s ->%elem_of_list_singleton H. specialize (C2 s). rewrite !slot_eq, Hs in C2. rewrite C2 by done.
        destruct (Hm s) as [-> | ->]; [done|]. congruence.
      + intros q Hq. assert (~ in_dir (dst ++ [x]) q) as Hi.
        { intros [s ->]. apply (Hq x s); [by left|]. by rewrite slot_eq. }
        assert (q <> (dst ++ [x])%list) as Hqx by (intros ->; apply Hi, in_dir_refl).
        destruct (C3 q Hi) as [-> | [H ->]]; [by apply try_mkdir_at|].
        apply in_dir_snoc in H as [H|H]; [|done]. symmetry. by apply Hd.
    - destruct (copy_file _ _ _) as [g|] eqn:R; [|done]. exists g. split; [done|].
      destruct n as [c|]; [|done]. unfold copy_file in R. rewrite Hf in R. destruct (_ || _); [done|]. injection R as <-.
      assert (forall s, f (src ++ x :: s)%list <> None -> s = []) as Hs.
      { intros s. induction s as [|y s IHs] using rev_ind; [done|]. intros Q. exfalso.
        pose proof (Ht (x :: s) y) as T. rewrite <- app_assoc in T. specialize (T Q). rewrite (IHs) in T; [congruence|]. by rewrite T. }
      split; [|split].
      + intros ? s m ->%elem_of_list_singleton H. assert (s = []) as -> by (apply Hs; congruence). rewrite bool_decide_true by done. congruence.
      + intros ? s ->%elem_of_list_singleton H. rewrite bool_decide_false; [done|]. intros Q. apply app_inv_head in Q. injection Q as ->. congruence.
      + intros q Hq. rewrite bool_decide_false; [done|]. intros ->. apply (Hq x []); [by left|done]. }
  assert (forall s, g (src ++ s)%list = f (src ++ s)%list) as Hs.
  { intros s. apply S3. intros y t _ Q. apply (proj1 (apart_src src dst s Ha)). rewrite Q. apply in_dir_cat. }
  assert (items_over src dst (map fst l) g f') as (L1 & L2 & L3).
  { apply IH; [..|exact El]; [| |done| |].
    - intros s y. rewrite <- app_assoc, !Hs. intros Q. apply (Ht s y). by rewrite <- app_assoc.
    - intros s. by rewrite Hs.
    - intros y b' Hy. rewrite Hs. apply Hk. by right.
    - intros a Ha'. rewrite S3; [by apply Hd|]. intros y t _ ->. destruct Ha' as [u Q]. rewrite <- app_assoc in Q. by apply lib_neq in Q. }
  assert (forall s y t, y ∈ map fst l -> (dst ++ x :: s)%list <> (dst ++ y :: t)%list) as Hxl.
  { intros s y t Hy Q. apply app_cons_inj in Q as [-> _]. done. }
  split; [|split].
  - intros y s n [-> | Hy]%elem_of_cons H.
    + rewrite L3 by apply Hxl. by eapply S1; [left|].
    + apply L1; [done|]. by rewrite Hs.
  - intros y s [-> | Hy]%elem_of_cons H.
    + rewrite L3 by apply Hxl. by apply S2; [left|].
    + rewrite L2; [|done|by rewrite Hs]. apply S3. intros z t ->%elem_of_list_singleton Q. symmetry in Q. by apply Hxl in Q.
  - intros q Hq. rewrite L3; [apply S3|]; intros y t Hy; apply Hq; [|by right]. apply elem_of_list_singleton in Hy as ->. by left.
Qed.

(** The directory is made. *)
Lemma made_over src dst f f1 : apart src dst -> (forall q, f1 q = if below q dst then Some Dir else f q) ->
  (forall s, f1 (src ++ s)%list = f (src ++ s)%list) /\ (forall x s, f1 (dst ++ x :: s)%list = f (dst ++ x :: s)%list) /\
  (forall a, in_dir a dst -> f1 a = Some Dir).
Proof.
  intros Ha M. split; [|split].
  - intros s. rewrite M. destruct (below _ _) eqn:B; [|done]. apply below_spec in B. by destruct (apart_src src dst s Ha).
  - intros x s. rewrite M. destruct (below _ _) eqn:B; [|done]. apply below_spec in B as [t Q]. rewrite <- app_assoc in Q. by apply lib_neq in Q.
  - intros a H. rewrite M. apply below_spec in H. by rewrite H.
Qed.

Lemma dir_items_names ls f p : map fst (dir_items ls f p) = ls f p.
Proof. unfold dir_items. rewrite map_map. cbn. apply map_id. Qed.

Lemma lists_at ls src f g : lists ls src f -> (forall s, g (src ++ s)%list = f (src ++ s)%list) ->
  NoDup (ls g src) /\ forall x, x ∈ ls g src <-> is_Some (g (src ++ [x])%list).
Proof.
  intros H He. destruct (H g []) as [A B]; rewrite ?app_nil_r in *; [done|]. split; [done|]. intros x. rewrite (B x). by rewrite He.
Qed.

Lemma lists_sub ls src f g x : lists ls src f -> (forall s, g (src ++ x :: s)%list = f (src ++ x :: s)%list) -> lists ls (src ++ [x]) g.
Proof.
  intros H He h s Hh. destruct (H h (x :: s)) as [A B].
  - intros t. specialize (Hh t). rewrite slot_eq in Hh. rewrite <- !app_assoc in *. cbn [app] in *. rewrite Hh. apply He.
  - rewrite slot_eq. split; [done|]. intros y. rewrite (B y). rewrite <- !app_assoc. cbn [app]. by rewrite He.
Qed.

Lemma dir_items_kind ls src f g x b : lists ls src f -> (forall s, g (src ++ s)%list = f (src ++ s)%list) ->
  (x, b) ∈ dir_items ls g src -> exists n, g (src ++ [x])%list = Some n /\ is_dir n = b.
Proof.
  intros H He [y [[= -> ->] Hy]]%elem_of_list_fmap. apply (proj2 (lists_at ls src f g H He)) in Hy as [n Hy]. exists n. split; [done|].
  unfold fs_dir_exists. rewrite Hy. by destruct n.
Qed.

Lemma tree_some src f : tree_at src f -> forall x s, f (src ++ x :: s)%list <> None -> f (src ++ [x])%list <> None.
Proof.
  intros T x s. induction s as [|y s IH] using rev_ind; [done|]. intros Q. apply IH.
  pose proof (T (x :: s) y) as T'. rewrite <- app_assoc in T'. by rewrite (T' Q).
Qed.

Lemma copy_sound n ls src dst f f' : lists ls src f -> apart src dst -> tree_at src f ->
  copy_dir n ls src dst f = Some (f', true) -> copied_over src dst f f'.
Proof.
  revert src dst f f'. induction n as [|n IH]; intros src dst f f' Hls Ha Ht E; cbn [copy_dir] in E; [done|].
  destruct (mkdir_all dst f) as [f1|] eqn:M; [|done]. apply mkdir_all_some in M as [_ M].
  destruct (made_over src dst f f1 Ha M) as (M1 & M2 & M3).
  destruct (fs_dir_exists f1 src) eqn:D; [|done].
  assert (f src = Some Dir) as Hsrc.
  { pose proof (M1 []) as Q. rewrite app_nil_r in Q. unfold fs_dir_exists in D. rewrite Q in D. by destruct (f src) as [[]|]. }
  pose proof (lists_at ls src f f1 Hls M1) as [Hnd Hels].
  apply (items_sound _ _ _ _ f1) in E as (S1 & S2 & S3).
  - rewrite dir_items_names in *.
    assert (forall x s, f (src ++ x :: s)%list <> None -> x ∈ ls f1 src) as Hin.
    { intros x s Q. apply Hels. rewrite M1. apply not_eq_None_Some. by apply tree_some in Q. }
    split.
    + intros [|x s] m Q.
      * rewrite app_nil_r in Q |- *. assert (m = Dir) as -> by congruence. rewrite S3; [apply M3, in_dir_refl|].
        intros y t _. apply lib_neq.
      * apply S1; [|by rewrite M1]. apply (Hin x s). congruence.
    + intros [|x s] Q; [rewrite app_nil_r in Q; congruence|]. rewrite <- M2.
      destruct (decide (x ∈ ls f1 src)) as [Hx|Hx].
      * apply S2; [done|]. by rewrite M1.
      * apply S3. intros y t Hy Q'. apply app_cons_inj in Q' as [-> _]. done.
  - intros x g g' R Ht' Hg. split; [|by apply copy_only in R]. refine (IH _ _ _ _ _ (apart_sub _ _ x Ha) Ht' R).
    apply (lists_sub _ _ f); [done|]. intros s. by rewrite Hg.
  - done.
  - intros s y. rewrite <- app_assoc, !M1. intros Q. apply (Ht s y). by rewrite <- app_assoc.
  - done.
  - by rewrite dir_items_names.
  - intros x b. by apply (dir_items_kind ls src f).
  - exact M3.
Qed.

(** ** It ends *)

Lemma items_end rec src dst items f d :
  (forall x g, f (src ++ [x])%list = Some Dir -> apart (src ++ [x]) (dst ++ [x]) -> tree_at (src ++ [x]) g ->
     (forall s, g (src ++ x :: s)%list = f (src ++ x :: s)%list) -> rec (src ++ [x])%list (dst ++ [x])%list g <> None) ->
  (forall x g g' b, rec (src ++ [x])%list (dst ++ [x])%list g = Some (g', b) -> only_at (dst ++ [x]) g g') ->
  apart src dst -> tree_at src d -> (forall s, d (src ++ s)%list = f (src ++ s)%list) ->
  (forall x b, (x, b) ∈ items -> exists n, d (src ++ [x])%list = Some n /\ is_dir n = b) ->
  copy_items rec src dst items d <> None.
Proof.
  intros Hr Ho Ha. revert d. induction items as [|[x b] l IH]; intros d Ht He Hk; cbn [copy_items]; [done|].
  destruct (Hk x b) as (n & Hf & Hb); [by left|].
  assert (forall g, only_at (dst ++ [x]) d g -> copy_items rec src dst l g <> None) as Hl.
  { intros g Hg. assert (forall s, g (src ++ s)%list = d (src ++ s)%list) as Hs.
    { intros s. destruct (apart_src src dst s Ha) as [A B].
      destruct (Hg (src ++ s)%list) as [-> | [H _]]; [|done|].
      - intros H. apply A. eapply in_dir_trans; [apply in_dir_cat|exact H].
      - apply in_dir_snoc in H as [H|H]; [done|]. destruct A. rewrite H. apply in_dir_cat. }
    apply IH.
    - intros s y. rewrite <- app_assoc, !Hs. intros Q. apply (Ht s y). by rewrite <- app_assoc.
    - intros s. by rewrite Hs.
    - intros y b' Hy. rewrite Hs. apply Hk. by right. }
  assert (only_at (dst ++ [x]) d (try_mkdir (dst ++ [x]) d)) as Hm.
  { intros q Hq. left. apply try_mkdir_at. intros ->. apply Hq, in_dir_refl. }
  destruct b.
  - assert (n = Dir) as -> by (by destruct n).
    assert (forall s, try_mkdir (dst ++ [x]) d (src ++ s)%list = d (src ++ s)%list) as Hs.
    { intros s. apply try_mkdir_at. intros Q. apply (proj1 (apart_src src dst s Ha)). rewrite Q. apply in_dir_cat. }
    destruct (rec _ _ _) as [[g [|]]|] eqn:R; [|done|].
    + apply Hl. apply Ho in R. intros q Hq. destruct (R q Hq) as [-> | H]; [by apply Hm|by right].
    + exfalso. revert R. apply Hr; [by rewrite <- He|by apply apart_sub| |].
      * intros s y. rewrite <- !app_assoc, !Hs. intros Q. specialize (Ht (x :: s) y). rewrite <- !app_assoc in Ht. by apply Ht.
      * intros s. by rewrite Hs.
  - destruct (copy_file _ _ _) as [g|] eqn:R; [|done]. apply Hl. intros q Hq. left. eapply copy_file_at; [done|]. intros ->. apply Hq, in_dir_refl.
Qed.

Lemma copy_ends n ls src dst f d : lists ls src f -> apart src dst -> tree_at src f -> at_most_deep d src f -> d < n ->
  copy_dir n ls src dst f <> None.
Proof.
  revert src dst f d. induction n as [|n IH]; intros src dst f d Hls Ha Ht Hd Hn; [lia|]. cbn [copy_dir].
  destruct (mkdir_all dst f) as [f1|] eqn:M; [|done]. apply mkdir_all_some in M as [_ M].
  destruct (made_over src dst f f1 Ha M) as (M1 & M2 & M3). destruct (fs_dir_exists f1 src) eqn:D; [|done].
  apply (items_end _ _ _ _ f1 f1); [|by intros; eapply copy_only|done| |done|intros x b; by apply (dir_items_kind ls src f)].
  - intros x g Hx Ha' Ht' Hg. destruct d as [|d].
    + rewrite M1, Hd in Hx; [done|]. cbn. lia.
    + apply (IH _ _ _ d); [|done|done| |lia].
      { apply (lists_sub _ _ f); [done|]. intros s. by rewrite Hg. }
      intros s Hs. rewrite slot_eq, Hg, M1. apply Hd. cbn. lia.
  - intros s y. rewrite <- app_assoc, !M1. intros Q. apply (Ht s y). by rewrite <- app_assoc.
Qed.

(** ** It succeeds *)

Lemma items_succeed rec src dst items f f' b :
  (forall x g g' b, f (src ++ [x])%list = Some Dir -> rec (src ++ [x])%list (dst ++ [x])%list g = Some (g', b) ->
     (forall s, g (src ++ x :: s)%list = f (src ++ x :: s)%list) -> (forall y s, y = x -> s <> [] -> g (dst ++ y :: s)%list = f (dst ++ y :: s)%list) ->
     (forall a, in_dir a (dst ++ [x]) -> g a = Some Dir) -> b = true /\ only_at (dst ++ [x]) g g') ->
  (forall s c, f (src ++ s)%list = Some Dir -> f (dst ++ s)%list <> Some (File c)) ->
  (forall s c, f (src ++ s)%list = Some (File c) -> f (dst ++ s)%list <> Some Dir) ->
  apart src dst -> NoDup (map fst items) -> (forall a, in_dir a dst -> f a = Some Dir) ->
  (forall x b, (x, b) ∈ items -> exists n, f (src ++ [x])%list = Some n /\ is_dir n = b) ->
  forall d, (forall s, d (src ++ s)%list = f (src ++ s)%list) -> (forall a, in_dir a dst -> d a = Some Dir) ->
  (forall x s, x ∈ map fst items -> d (dst ++ x :: s)%list = f (dst ++ x :: s)%list) ->
  copy_items rec src dst items d = Some (f', b) -> b = true.
Proof.
  intros Hr R1 R2 Ha. induction items as [|[x b'] l IH]; intros Hn Hd Hk d Es Ed Ex E; cbn [copy_items] in E; [congruence|].
  cbn [map fst] in *. apply NoDup_cons in Hn as [Hx Hn].
  destruct (Hk x b') as (n & Hf & Hb); [by left|].
  assert (d dst = Some Dir) as Hdd by apply Ed, in_dir_refl.
  assert (forall g, only_at (dst ++ [x]) d g -> copy_items rec src dst l g = Some (f', b) -> b = true) as Hl.
  { intros g Hg. assert (forall q, ~ in_dir (dst ++ [x]) q -> ~ in_dir q dst -> g q = d q) as Hq.
    { intros q A B. destruct (Hg q A) as [? | [H _]]; [done|]. apply in_dir_snoc in H as [H|H]; [done|]. destruct A. rewrite H. apply in_dir_refl. }
    apply IH; try done.
    - intros y b0 Hy. apply Hk. by right.
    - intros s. rewrite Hq; [apply Es| |]; destruct (apart_src src dst s Ha) as [A B]; [|done].
      intros H. apply A. eapply in_dir_trans; [apply in_dir_cat|exact H].
    - intros a H. destruct (Hg a) as [-> | [_ ?]]; [|by apply Ed|done].
      intros H'. destruct (in_dir_trans _ _ _ H' H) as [s Q]. rewrite slot_eq in Q. by apply lib_neq in Q.
    - intros y s Hy. rewrite Hq; [apply Ex; by right| |].
      + intros [t Q]. rewrite slot_eq in Q. apply app_cons_inj in Q as [-> _]. done.
      + intros [t Q]. rewrite <- app_assoc in Q. by apply lib_neq in Q. }
  destruct b'.
  - assert (n = Dir) as -> by (by destruct n).
    assert (forall s, try_mkdir (dst ++ [x]) d (src ++ s)%list = d (src ++ s)%list) as Hs.
    { intros s. apply try_mkdir_at. intros Q. apply (proj1 (apart_src src dst s Ha)). rewrite Q. apply in_dir_cat. }
    assert (try_mkdir (dst ++ [x]) d (dst ++ [x])%list = Some Dir) as Hxd.
    { pose proof (Ex x [] ltac:(by left)) as Q. pose proof (R1 [x]) as R. unfold try_mkdir, fs_exists, fs_dir_exists.
      rewrite removelast_last, Hdd, Q. cbn [negb orb].
      destruct (f (dst ++ [x])%list) as [[c|]|] eqn:Hfd; [by destruct (R c Hf)|cbn; by rewrite Q|cbn; by rewrite bool_decide_true]. }
    assert (forall a, in_dir a (dst ++ [x]) -> try_mkdir (dst ++ [x]) d a = Some Dir) as Hanc.
    { intros a H. destruct (decide (a = dst ++ [x])%list) as [->|Hne]; [done|]. rewrite try_mkdir_at by done.
      apply in_dir_snoc in H as [H|H]; [by apply Ed|done]. }
    destruct (rec _ _ _) as [[g b0]|] eqn:R; [|done].
    destruct (Hr x _ g b0 Hf R) as [-> Ho]; [intros s; by rewrite Hs, Es| |exact Hanc|].
    { intros y s -> Hne. rewrite try_mkdir_at; [apply Ex; by left|]. intros Q. apply app_cons_inj in Q as [_ ->]. done. }
    apply (Hl g); [|done]. intros q Hq. destruct (Ho q Hq) as [-> | H]; [|by right]. left. apply try_mkdir_at. intros ->. apply Hq, in_dir_refl.
  - destruct n as [c|]; [|done]. pose proof (Ex x [] ltac:(by left)) as Q. unfold copy_file in E. rewrite Es, Hf in E.
    unfold fs_dir_exists in E. rewrite removelast_last, Hdd, Q in E. pose proof (R2 [x] c Hf) as R.
    assert (match f (dst ++ [x])%list with Some Dir => true | _ => false end = false) as Hno by (by destruct (f _) as [[]|]).
    rewrite Hno in E. cbn [negb orb] in E. refine (Hl _ _ E). intros q Hq. left. rewrite bool_decide_false; [done|]. intros ->. apply Hq, in_dir_refl.
Qed.

Lemma copy_succeeds n ls src dst f f' b : lists ls src f -> apart src dst -> f src = Some Dir -> room src dst f ->
  copy_dir n ls src dst f = Some (f', b) -> b = true.
Proof.
  revert src dst f f' b. induction n as [|n IH]; intros src dst f f' b Hls Ha Hf (R0 & R1 & R2) E; cbn [copy_dir] in E; [done|].
  destruct (mkdir_all_ok dst f R0) as [f1 M]. rewrite M in E. apply mkdir_all_some in M as [_ M].
  destruct (made_over src dst f f1 Ha M) as (M1 & M2 & M3).
  assert (fs_dir_exists f1 src = true) as D.
  { pose proof (M1 []) as Q. rewrite app_nil_r in Q. unfold fs_dir_exists. by rewrite Q, Hf. }
  rewrite D in E.
  assert (forall s c, f1 (src ++ s)%list = Some Dir -> f1 (dst ++ s)%list <> Some (File c)) as R1'.
  { intros [|x s] c; [rewrite app_nil_r, (app_nil_r dst), (M3 dst (in_dir_refl _)); done|]. rewrite M1, M2. apply R1. }
  assert (forall s c, f1 (src ++ s)%list = Some (File c) -> f1 (dst ++ s)%list <> Some Dir) as R2'.
  { intros [|x s] c; [pose proof (M1 []) as Q; rewrite app_nil_r in Q |- *; rewrite Q, Hf; done|]. rewrite M1, M2. apply R2. }
  refine (items_succeed (copy_dir n ls) src dst (dir_items ls f1 src) f1 f' b _ R1' R2' Ha _ M3 _ f1 _ M3 _ E); try done.
  - intros x g g' b0 Hx R Gs Gd Ga. split; [|by apply copy_only in R].
    refine (IH _ _ g g' b0 _ (apart_sub _ _ x Ha) _ _ R).
    + apply (lists_sub _ _ f); [done|]. intros s. by rewrite Gs.
    + rewrite Gs. done.
    + split; [|split].
      * intros a c H. by rewrite Ga.
      * intros s c. rewrite !slot_eq, Gs. destruct s as [|y s]; [rewrite Ga; [done|apply in_dir_refl]|]. rewrite Gd by done. apply R1'.
      * intros s c. rewrite !slot_eq, Gs. destruct s as [|y s]; [rewrite Hx; done|]. rewrite Gd by done. apply R2'.
  - rewrite dir_items_names. by apply (lists_at ls src f f1).
  - intros x b0. by apply (dir_items_kind ls src f).
Qed.
