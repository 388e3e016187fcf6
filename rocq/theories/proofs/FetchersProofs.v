(** Databases that are used at the same time. *)
From stdpp Require Import strings list gmap relations.
From Coq Require Import Ascii ZArith Lia.
From Verif.model Require Import GoStr Version Desc Nexus RepoDb DbCache Fs Fetchers.
From Verif.spec Require Import DbCacheSpec FetchersSpec.
From Verif.proofs Require Import GoStrLemmas UrlProofs.

Local Open Scope string_scope.

Lemma begin_all n s : n = String.length s -> begin n s = s.
Proof. intros ->. induction s; cbn; by f_equal. Qed.

Lemma drop_all n s : String.length s <= n -> drop_bytes n s = "".
Proof. revert n. induction s as [|c s IH]; intros [|n] H; cbn in *; try done; [lia|]. apply IH. lia. Qed.

Lemma substring_length n s : n <= String.length s -> String.length (substring 0 n s) = n.
Proof. revert s. induction n as [|n IH]; intros [|c s] H; cbn in *; try done; [lia|]. f_equal. apply IH. lia. Qed.

Lemma substring_more s : forall n m, n <= m -> substring 0 n s +:+ substring n (m - n) s = substring 0 m s.
Proof.
  induction s as [|c s IH]; intros n m H.
  - by destruct n, m.
  - destruct n as [|n]; [by rewrite Nat.sub_0_r|]. destruct m as [|m]; [lia|]. cbn. f_equal. apply IH. lia.
Qed.

Lemma substring_min n s : substring 0 (Nat.min n (String.length s)) s = substring 0 n s.
Proof. revert s. induction n as [|n IH]; intros [|c s]; cbn; try done. f_equal. apply IH. Qed.

Lemma substring_whole_text s : substring 0 (String.length s) s = s.
Proof. induction s; cbn; by f_equal. Qed.

Lemma overlay_more t n m : n <= m -> m <= String.length t -> overlay n (substring n (m - n) t) (substring 0 n t) = substring 0 m t.
Proof.
  intros H1 H2. unfold overlay. rewrite begin_all by (rewrite substring_length; lia).
  rewrite drop_all by (rewrite substring_length; lia). by rewrite app_nil_str, substring_more.
Qed.

Lemma limit_text u : limit u <= String.length (u_text u).
Proof. unfold limit. destruct (u_how u); lia. Qed.

(** What is known about one goroutine alone on its file: [p0] was there at first. *)
Definition alone (g : gob) (u : db_use) (p0 : db_place) (p : path) (a : fetching) (d : disk) : Prop :=
  match a with
  | FStart => place d p = p0
  | FRemove => place d p = p0 /\ exists t s, p0 = PFile t s /\ ~ (u_now u < t + max_age (u_env u))%Z
  | FOpen => place d p = p0 /\ exists t s, p0 = PFile t s /\ (u_now u < t + max_age (u_env u))%Z
  | FFetch => place d p <> PBad /\
      use_db g u p0 = refetch (u_now u) (u_types u) (u_arrivals u) (u_text u) (u_how u) (place d p)
  | FCreate l => place d p <> PBad /\ use_db g u p0 = encode (u_now u) l (u_text u) (u_how u) (place d p)
  | FWrite l k n => dk_at d p = SFile k /\ dk_node d k = (u_now u, substring 0 n (u_text u)) /\ n <= limit u /\ u_how u <> NotCreated /\
      exists q, q <> PBad /\ use_db g u p0 = encode (u_now u) l (u_text u) (u_how u) q
  | FDone r => use_db g u p0 = (r, place d p)
  end.

Lemma place_set_at_other p q x d : q <> p -> dk_at (set_at p x d) q = dk_at d q /\ place (set_at p x d) q = place d q.
Proof. intros H. unfold place, set_at. cbn. by rewrite bool_decide_eq_false_2. Qed.

Lemma place_set_node k x d q : dk_at d q <> SFile k -> place (set_node k x d) q = place d q.
Proof.
  intros H. unfold place, set_node. cbn. destruct (dk_at d q) as [|j|] eqn:E; [done| |done].
  rewrite bool_decide_eq_false_2; [done|]. intros ->. done.
Qed.

(** One step: the goroutine goes on as if it were alone, and only its own file
    changes. *)
Lemma one_step g u p0 p free a b d d' : fetch_step g u p free (a, d) (b, d') -> alone g u p0 p a d ->
  (forall k, free k -> forall q, dk_at d q <> SFile k) -> no_links d ->
  alone g u p0 p b d' /\ no_links d' /\
  (forall q, q <> p -> dk_at d' q = dk_at d q /\ place d' q = place d q) /\
  (forall k, dk_node d' k <> dk_node d k -> free k \/ dk_at d p = SFile k).
Proof.
  intros H. remember (a, d) as x eqn:Ex. remember (b, d') as y eqn:Ey. revert Ex Ey.
  destruct H as [d1 E|d1 E|d1 k E|d1 Er Eb|d1 Er|d1 k E|d1 E|d1 Ea|d1 ar l e Ea Ec|d1 l Eh|d1 l k Eh E Hk|d1 l k Eh E|d1 l k n m Hm|d1 l k];
    intros E1 E2; injection E1; injection E2; intros ? ? ? ?; subst a b d d'; clear E1 E2; intros Ha Hfree Hn; cbn [alone] in *.
  all: assert (forall k x, dk_at d1 p = SFile k -> (forall q, q <> p ->
    dk_at (set_node k x d1) q = dk_at d1 q /\ place (set_node k x d1) q = place d1 q)) as Hnode by
    (intros k' x' Hk' q Hq; split; [done|]; apply place_set_node; intros E'; apply Hq; by eapply Hn).
  all: assert (forall k j x, dk_node (set_node k x d1) j <> dk_node d1 j -> j = k) as Hj by
    (intros k' j x' E'; cbn in E'; destruct (bool_decide_reflect (j = k')); done).
  - split; [|done]. unfold place in *. rewrite E in *. subst p0. split; done.
  - split; [|done]. unfold place in *. rewrite E in *. by subst p0.
  - split; [|done]. unfold place in *. rewrite E in *. subst p0. destruct (_ >? _)%Z eqn:E1.
    + apply Z.gtb_lt in E1. cbn [alone]. unfold place. rewrite E. split; [done|]. eexists _, _. split; [done|lia].
    + rewrite Z.gtb_ltb in E1. apply Z.ltb_ge in E1. cbn [alone]. unfold place. rewrite E. split; [done|]. eexists _, _. split; [done|lia].
  - destruct Ha as (Hp & t & s & -> & Hold). split; [|split; [|split]].
    + unfold place. cbn. rewrite bool_decide_eq_true_2 by done. split; [done|]. unfold use_db, fetch_db. rewrite Er.
      destruct (_ >? _)%Z eqn:E1; [|done]. apply Z.gtb_lt in E1. lia.
    + intros q1 q2 k. cbn. destruct (bool_decide (q1 = p)); [done|]. destruct (bool_decide (q2 = p)); [done|]. apply Hn.
    + intros q Hq. by apply place_set_at_other.
    + done.
  - destruct Ha as (Hp & t & s & -> & Hold). split; [|done]. rewrite Hp. split; [done|]. unfold use_db, fetch_db.
    destruct (_ >? _)%Z eqn:E1; [apply Z.gtb_lt in E1; lia|].
    destruct Er as [-> |Er]; [done|]. unfold place in Hp. by rewrite Er in Hp.
  - destruct Ha as (Hp & t & s & -> & Hy). split; [|done]. rewrite Hp. unfold place in Hp. rewrite E in Hp. injection Hp as <- <-.
    unfold use_db, fetch_db. destruct (_ >? _)%Z eqn:E1; [done|]. rewrite Z.gtb_ltb in E1. apply Z.ltb_ge in E1. lia.
  - destruct Ha as (Hp & t & s & -> & Hy). exfalso. unfold place in Hp. destruct (dk_at d1 p) as [|k|] eqn:E1; try done. by destruct (E k).
  - destruct Ha as [_ Hu]. split; [|done]. rewrite Hu. unfold refetch. by rewrite Ea.
  - destruct Ha as [Hp Hu]. split; [|done]. unfold refetch in Hu. rewrite Ea, Ec in Hu. by destruct (_ && _)%bool.
  - destruct Ha as [Hp Hu]. split; [|done]. rewrite Hu. unfold encode. unfold place in *. destruct Eh as [-> |Eh]; [|by rewrite Eh in Hp].
    by destruct (dk_at d1 p).
  - destruct Ha as [Hp Hu]. split; [|split; [|split]].
    + cbn. rewrite !bool_decide_eq_true_2 by done. split; [done|]. split; [by destruct (u_text u)|]. split; [lia|]. split; [done|]. by exists (place d1 p).
    + intros q1 q2 j. cbn. pose proof (Hfree k Hk) as Hk'. destruct (bool_decide_reflect (q1 = p)), (bool_decide_reflect (q2 = p)).
      * congruence.
      * intros E1 E'. exfalso. apply (Hk' q2). congruence.
      * intros E' E1. exfalso. apply (Hk' q1). congruence.
      * apply Hn.
    + intros q Hq. destruct (place_set_at_other p q (SFile k) d1 Hq) as [E1 E2]. split; [done|]. rewrite place_set_node; [done|].
      rewrite E1. by apply Hfree.
    + intros j E'. left. cbn in E'. destruct (decide (j = k)) as [Hjk|Hjk]; [by rewrite Hjk|]. by rewrite bool_decide_eq_false_2 in E'.
  - destruct Ha as [Hp Hu]. split; [|split; [|split]].
    + cbn. rewrite bool_decide_eq_true_2 by done. split; [done|]. split; [by destruct (u_text u)|]. split; [lia|]. split; [done|]. by exists (place d1 p).
    + exact Hn.
    + by apply Hnode.
    + intros j E'. right. by rewrite (Hj _ _ _ E').
  - destruct Ha as (Hk & Ht & Hl & Hh & Hq). split; [|split; [|split]].
    + cbn. rewrite bool_decide_eq_true_2 by done. split; [done|]. rewrite Ht. cbn [snd].
      pose proof (limit_text u). rewrite overlay_more by lia. split; [done|]. split; [lia|done].
    + exact Hn.
    + by apply Hnode.
    + intros j E'. right. by rewrite (Hj _ _ _ E').
  - destruct Ha as (Hk & Ht & Hl & Hh & q & Hq & Hu). split; [|done]. rewrite Hu. unfold place. rewrite Hk, Ht. cbn [fst snd].
    unfold encode, write_end, limit in *. destruct q; [..|done]; destruct (u_how u); try done;
      by rewrite ?substring_min, ?substring_whole_text.
Qed.

(** All together. *)
Definition all_alone (g : gob) (us : list fetcher) (d0 : disk) (x : fetchers) : Prop :=
  length (fs_each x) = length us /\ no_links (fs_disk x) /\
  (forall i f a, us !! i = Some f -> fs_each x !! i = Some a -> alone g (fe_use f) (place d0 (fe_file f)) (fe_file f) a (fs_disk x)) /\
  (forall q, q ∉ map fe_file us -> place (fs_disk x) q = place d0 q).

(** What is known of a goroutine depends on its own file only. *)
Lemma alone_same g u p0 p a d d' : dk_at d' p = dk_at d p -> place d' p = place d p -> alone g u p0 p a d -> alone g u p0 p a d'.
Proof.
  intros E1 E2. destruct a; cbn [alone]; rewrite ?E2; try done. intros (Hk & Ht & H). rewrite E1. split; [done|]. split; [|done].
  unfold place in E2. rewrite E1, Hk in E2. injection E2 as E2 E3. destruct (dk_node d' k), (dk_node d k). cbn in *. by subst.
Qed.

Lemma all_started g us d0 : no_links d0 -> all_alone g us d0 (started us d0).
Proof.
  intros H. split; [cbn; by rewrite map_length|]. split; [done|]. split; [|done]. intros i f a Hi Ha. cbn [started fs_each fs_disk] in *.
  rewrite list_lookup_fmap, Hi in Ha. injection Ha as <-. done.
Qed.

Lemma all_step g us d0 x y : NoDup (map fe_file us) -> fetchers_step g us x y -> all_alone g us d0 x -> all_alone g us d0 y.
Proof.
  intros Hnd H (L & N & A & F). inversion H as [x' i f a b d' Hi Ha Hs]; subst.
  destruct (one_step _ _ (place d0 (fe_file f)) _ _ _ _ _ _ Hs) as (S1 & S2 & S3 & _).
  { by apply A with i. }
  { intros k [Hk _]. exact Hk. }
  { done. }
  split; [cbn; by rewrite insert_length|]. split; [done|]. cbn [fs_disk fs_each]. split.
  - intros j f' a' Hj Ha'. destruct (decide (j = i)) as [-> |Hji].
    + assert (f' = f) as -> by congruence. rewrite list_lookup_insert in Ha' by (by eapply lookup_lt_Some). by injection Ha' as <-.
    + rewrite list_lookup_insert_ne in Ha' by done.
      destruct (S3 (fe_file f')) as [E1 E2].
      { intros E. apply Hji. eapply (NoDup_lookup (map fe_file us)); [done|..]; rewrite list_lookup_fmap; [by rewrite Hj|]. rewrite Hi. cbn. by rewrite E. }
      eapply alone_same; [exact E1|exact E2|]. by eapply A.
  - intros q Hq. destruct (S3 q) as [_ ->]; [|by apply F]. intros ->. apply Hq. apply elem_of_list_fmap. exists f. split; [done|].
    by eapply elem_of_list_lookup_2.
Qed.

Lemma all_happens g us d0 x : NoDup (map fe_file us) -> no_links d0 -> happens g us d0 x -> all_alone g us d0 x.
Proof.
  intros Hnd Hn H. unfold happens in H. pose proof (all_started g us d0 Hn) as A. revert A.
  induction H as [|x y z Hxy _ IH]; [done|]. intros A. apply IH. by eapply all_step.
Qed.

Lemma happens_ind g us d (P : fetchers -> Prop) : P (started us d) -> (forall y z, fetchers_step g us y z -> P y -> P z) ->
  forall x, happens g us d x -> P x.
Proof. intros H0 HS x H. unfold happens in H. revert H0. induction H as [|y z w Hyz _ IH]; [done|]. intros H0. apply IH. by eapply HS. Qed.
