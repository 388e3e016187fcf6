(** C149: builds of several runs with one cache of binaries. *)
From stdpp Require Import strings list gmap relations.
From Coq Require Import Ascii ZArith Lia.
From Verif.model Require Import GoStr Desc Nexus RepoDb Fs Install Download Fetching DbCache Fetchers Sharing Builds.
From Verif.spec Require Import SharingSpec BuildsSpec.
From Verif.proofs Require Import GoStrLemmas UrlProofs FetchersProofs SharingProofs BuildsProofs.
From Verif.props Require Import P_Download.

Local Open Scope string_scope.

(** However installations go on at the same time: if their binaries have different places,
    each ends as it does alone.  R is given what was in the cache before; otherwise it builds, and
    what it has built is in the cache at the end if there is a directory for it.  Other files
    stay as they were. *)
Theorem C149_apart es f x : NoDup (map bu_store es) -> build_happens es f x ->
  (forall i e s, es !! i = Some e -> is_at x i (BCached s) -> f (bu_store e) = Some (File s) /\ bs_fs x (bu_store e) = Some (File s)) /\
  (forall i e c stored, es !! i = Some e -> is_at x i (BOwn c stored) -> bu_ball e = Some c /\ f (bu_store e) = None /\
     (stored = true <-> f (removelast (bu_store e)) = Some Dir) /\
     bs_fs x (bu_store e) = if stored then Some (File c) else None) /\
  (forall i e, es !! i = Some e -> is_at x i BFail -> bu_ball e = None /\ f (bu_store e) = None /\ bs_fs x (bu_store e) = None) /\
  (forall i e, es !! i = Some e -> is_at x i BUnread -> f (bu_store e) = Some Dir) /\
  (forall q, q ∉ map bu_store es -> bs_fs x q = f q).
Proof.
  intros Hnd H. destruct (all_alone _ _ _ Hnd H) as (_ & A & F). destruct (all_own _ _ _ H) as [_ O].
  split; [|split; [|split; [|split; [|done]]]].
  - intros i e s Hi Ha. exact (A i e _ Hi Ha).
  - intros i e c st Hi Ha. destruct (A i e _ Hi Ha) as (A1 & A2 & A3). split; [exact (O i e _ Hi Ha)|]. split; [done|]. split; [|done].
    unfold fs_dir_exists in A2. rewrite <- A2. destruct (f (removelast (bu_store e))) as [[]|]; split; done.
  - intros i e Hi Ha. split; [exact (O i e _ Hi Ha)|]. destruct (A i e _ Hi Ha). done.
  - intros i e Hi Ha. by destruct (A i e _ Hi Ha).
Qed.

(** Whatever the others do: a run that builds a package installs what it has built itself, and
    only a package that R cannot build fails to be built. *)
Theorem C149_own es f x : build_happens es f x ->
  (forall i e c stored, es !! i = Some e -> is_at x i (BOwn c stored) -> bu_ball e = Some c) /\
  (forall i e, es !! i = Some e -> is_at x i BFail -> bu_ball e = None).
Proof. intros H. destruct (all_own _ _ _ H) as [_ O]. split; [intros i e c st Hi Ha|intros i e Hi Ha]; exact (O i e _ Hi Ha). Qed.

(** If all who build for a place build the same bytes, then what is there is whole as soon
    as nobody is copying, and R is given the whole binary then. *)
Theorem C149_whole es f x p c : same_ball es p c -> f p = None \/ f p = Some (File c) -> build_happens es f x -> not_copied es x p ->
  (bs_fs x p = None \/ bs_fs x p = Some (File c)) /\
  (forall i e st, es !! i = Some e -> bu_store e = p -> is_at x i (BOwn st true) -> bs_fs x p = Some (File c)) /\
  (forall i e s f', es !! i = Some e -> bu_store e = p -> is_at x i BUse -> build_step e (BUse, bs_fs x) (BCached s, f') -> s = c).
Proof.
  intros Hb H0 H Hr. pose proof (as_happens _ _ _ H) as Hg.
  assert ((forall i e, es !! i = Some e -> bu_store e = p -> bs_each x !! i = Some (BOwn c true) -> bs_fs x p <> None) /\
    (bs_fs x p = None \/ bs_fs x p = Some (File c))) as [K1 K2].
  { destruct (all_shared _ p c f _ (as_same _ _ _ Hb) H0 Hg) as [[H1 H2]|(s & H1 & H2 & H3)]; cbn [as_getters gs_fs] in *.
    - split; [|by left]. intros i e Hi Hd Ha. specialize (H2 i (as_getter e) (as_getting e (BOwn c true))). cbn [gs_each as_getting d_path] in H2.
      assert (Some (bu_store e) = None) as E; [|done]. apply H2; [by rewrite list_lookup_fmap, Hi|done|exact (zip_at _ _ _ _ _ Hi Ha)].
    - assert (s = c) as ->; [|split; [|by right]; intros i e _ _ _; congruence].
      destruct H3 as [H3|(i & e & n & ok & Hi & Hd & Ha & _)]; [done|]. by destruct (as_rest _ _ _ _ H Hr i e n c ok Hi Hd). }
  split; [done|]. split.
  - intros i e c' Hi Hd Ha. destruct (all_own _ _ _ H) as [_ O]. pose proof (O i e _ Hi Ha) as Ho. cbn in Ho.
    assert (c' = c) as ->. { eapply Hb; [by eapply elem_of_list_lookup_2|done..]. }
    destruct K2 as [K2|K2]; [|done]. by destruct (K1 i e Hi Hd Ha).
  - intros i e s f' Hi Hd _ Hs. inversion Hs as [| |f1 s1 E| | | | | | |]; subst. destruct K2; congruence.
Qed.

(** Even if several build different bytes for one place: each byte there is that of one of
    the binaries, or of what was there before, at the same offset, or zero. *)
Theorem C149_bytes es f x p s k b : build_happens es f x -> bs_fs x p = Some (File s) -> String.get k s = Some b ->
  byte_of es f p k b \/ b = Ascii.zero.
Proof. intros H. by apply (all_bytes es f x H). Qed.

(** Nobody waits for the others. *)
Theorem C149_goes_on es f x i e a : build_happens es f x -> es !! i = Some e -> is_at x i a ->
  (exists s, a = BCached s) \/ (exists c st, a = BOwn c st) \/ a = BFail \/ a = BUnread \/
  (exists b f', b <> a /\ builders_step es x (Builders f' (<[i := b]> (bs_each x)))).
Proof.
  intros H Hi Ha. unfold is_at in Ha. destruct (all_own _ _ _ H) as [_ O]. specialize (O _ _ _ Hi Ha).
  assert (forall b f', b <> a -> build_step e (a, bs_fs x) (b, f') -> (exists b f', b <> a /\ builders_step es x (Builders f' (<[i := b]> (bs_each x))))) as K.
  { intros b f' Hb Hs. exists b, f'. split; [done|]. by econstructor. }
  destruct a as [| | |c|n c| | |s|c st]; eauto 6; do 4 right.
  - destruct (fs_exists (bs_fs x) (bu_store e)) eqn:E; [eapply K; [|by apply b_found]; done|eapply K; [|by apply b_missing]; done].
  - pose proof (use_there _ _ _ H i e Hi Ha) as E. unfold fs_exists in E. destruct (bs_fs x (bu_store e)) as [[s|]|] eqn:E2; [| |done].
    + eapply K; [|by apply b_read]. done.
    + eapply K; [|by apply b_directory]. done.
  - destruct (bu_ball e) as [c|] eqn:E; [eapply K; [|by apply b_builds]; done|eapply K; [|by apply b_fails]; done].
  - destruct (fs_dir_exists (bs_fs x) (removelast (bu_store e))) eqn:E1; [|eapply K; [|apply b_no_make; by left]; done].
    destruct (fs_dir_exists (bs_fs x) (bu_store e)) eqn:E2; [eapply K; [|apply b_no_make; by right]; done|].
    eapply K; [|by apply b_make]. done.
  - destruct O as [_ Hn]. assert (exists s, bs_fs x (bu_store e) = Some (File s)) as [s Hs].
    { apply (copying _ _ _ (as_happens _ _ _ H) i (as_getter e) n c true); [rewrite list_lookup_fmap; by rewrite Hi|].
      exact (zip_at _ _ _ _ _ Hi Ha). }
    destruct (decide (n = String.length c)) as [-> |Hne].
    + eapply K; [|apply b_copied]. done.
    + eapply K; [|apply (b_copy _ _ n (String.length c) c s); [lia|done]]. intros [= E]. lia.
Qed.

(** Examples *)
Definition bx_store : list string := ["c"; "a"].
Definition bx (c : string) : builder := Builder bx_store (Some c).

Lemma bx_go es i e a b f f' l z : es !! i = Some e -> l !! i = Some a -> build_step e (a, f) (b, f') ->
  rtc (builders_step es) (Builders f' (<[i := b]> l)) z -> rtc (builders_step es) (Builders f l) z.
Proof. intros H1 H2 H3 H4. eapply rtc_l; [|exact H4]. by apply (bst_one es (Builders f l) i e a b f'). Qed.

Lemma bx_copy c f n m s s' : f bx_store = Some (File s) -> overlay n (substring n (m - n) c) s = s' -> n < m <= String.length c ->
  build_step (bx c) (BCopy n c, f) (BCopy m c, write_file bx_store s' f).
Proof. intros H1 <- H2. by apply (b_copy (bx c)). Qed.

Lemma bx_copied c f n : n = String.length c -> build_step (bx c) (BCopy n c, f) (BOwn c true, f).
Proof. intros ->. apply (b_copied (bx c)). Qed.

Lemma bx_read c f s : f bx_store = Some (File s) -> build_step (bx c) (BUse, f) (BCached s, f).
Proof. apply (b_read (bx c)). Qed.

Ltac bx_step i t := eapply (bx_go _ i); [reflexivity|reflexivity|t|]; cbn [insert list_insert].

(** Two runs build the same bytes at the same time, a third one finds them. *)
Example C149_example : same_ball [bx "abc"; bx "abc"; bx "abc"] bx_store "abc" /\ exists x,
  build_happens [bx "abc"; bx "abc"; bx "abc"] cache_fs x /\ bs_fs x bx_store = Some (File "abc") /\
  bs_each x = [BOwn "abc" true; BOwn "abc" true; BCached "abc"].
Proof.
  split.
  { intros e c' He _ Hr. rewrite !elem_of_cons, elem_of_nil in He. destruct He as [-> |[-> |[-> |[]]]]; by injection Hr as <-. }
  eexists. split; [unfold build_happens, build_started; cbn [map]|].
  - bx_step 0 ltac:(by apply b_missing).
    bx_step 1 ltac:(by apply b_missing).
    bx_step 0 ltac:(by apply b_builds).
    bx_step 1 ltac:(by apply b_builds).
    bx_step 0 ltac:(by apply b_make).
    bx_step 0 ltac:(by eapply (bx_copy _ _ 0 2); [reflexivity|vm_compute; reflexivity|cbn; lia]).
    bx_step 1 ltac:(by apply b_make).
    bx_step 0 ltac:(by eapply (bx_copy _ _ 2 3); [reflexivity|vm_compute; reflexivity|cbn; lia]).
    bx_step 0 ltac:(by apply bx_copied).
    bx_step 1 ltac:(by eapply (bx_copy _ _ 0 3); [reflexivity|vm_compute; reflexivity|cbn; lia]).
    bx_step 1 ltac:(by apply bx_copied).
    bx_step 2 ltac:(by apply b_found).
    bx_step 2 ltac:(by apply bx_read; vm_compute).
    apply rtc_refl.
  - split; by vm_compute.
Qed.

(** Two runs with different binaries for one package, each of which copies as a whole:
    when both have ended without an error, the file in the cache is the binary of neither, and a
    third run installs it. *)
Theorem C149_mixed_refuted : exists es f p x, f p = None /\ build_happens es f x /\ not_copied es x p /\
  map bu_ball es = [Some "aaaa"; Some "bbb"; Some "ccc"] /\ (forall e, e ∈ es -> bu_store e = p) /\
  bs_fs x p = Some (File "bbaa") /\ bs_each x = [BOwn "aaaa" true; BOwn "bbb" true; BCached "bbaa"].
Proof.
  exists [bx "aaaa"; bx "bbb"; bx "ccc"], cache_fs, bx_store. eexists. split; [done|].
  split; [unfold build_happens, build_started; cbn [map]|].
  - bx_step 0 ltac:(by apply b_missing).
    bx_step 1 ltac:(by apply b_missing).
    bx_step 0 ltac:(by apply b_builds).
    bx_step 1 ltac:(by apply b_builds).
    bx_step 0 ltac:(by apply b_make).
    bx_step 0 ltac:(by eapply (bx_copy _ _ 0 2); [reflexivity|vm_compute; reflexivity|cbn; lia]).
    bx_step 1 ltac:(by apply b_make).
    bx_step 1 ltac:(by eapply (bx_copy _ _ 0 3); [reflexivity|vm_compute; reflexivity|cbn; lia]).
    bx_step 1 ltac:(by apply bx_copied).
    bx_step 0 ltac:(by eapply (bx_copy _ _ 2 4); [reflexivity|vm_compute; reflexivity|cbn; lia]).
    bx_step 0 ltac:(by apply bx_copied).
    bx_step 2 ltac:(by apply b_found).
    bx_step 2 ltac:(by apply bx_read; vm_compute).
    apply rtc_refl.
  - split; [|split; [done|split; [|split; by vm_compute]]].
    + intros [|[|[|i]]] e n c Hi _ Ha; done.
    + intros e He. rewrite !elem_of_cons, elem_of_nil in He. by destruct He as [-> |[-> |[-> |[]]]].
Qed.

(** A run installs a binary that another run is still copying, though all build the same. *)
Theorem C149_part_refuted : exists es f p c x, same_ball es p c /\ f p = None /\ build_happens es f x /\ is_at x 1 (BCached "a") /\
  is_at x 0 (BCopy 1 c) /\ c = "abc".
Proof.
  exists [bx "abc"; bx "abc"; bx "abc"], cache_fs, bx_store, "abc". eexists. split; [apply C149_example|]. split; [done|].
  split; [unfold build_happens, build_started; cbn [map]|].
  - bx_step 0 ltac:(by apply b_missing).
    bx_step 0 ltac:(by apply b_builds).
    bx_step 0 ltac:(by apply b_make).
    bx_step 0 ltac:(by eapply (bx_copy _ _ 0 1); [reflexivity|vm_compute; reflexivity|cbn; lia]).
    bx_step 1 ltac:(by apply b_found).
    bx_step 1 ltac:(by apply bx_read; vm_compute).
    apply rtc_refl.
  - split; [by vm_compute|]. split; by vm_compute.
Qed.

Print Assumptions C149_apart.
Print Assumptions C149_own.
Print Assumptions C149_whole.
Print Assumptions C149_bytes.
Print Assumptions C149_goes_on.
Print Assumptions C149_mixed_refuted.
Print Assumptions C149_part_refuted.
