(** C146: databases that are used at the same time. *)
From stdpp Require Import strings list gmap relations.
From Coq Require Import Ascii ZArith Lia.
From Verif.model Require Import GoStr Version Desc Nexus RepoDb DbCache Fs Preview Fetchers.
From Verif.spec Require Import DbCacheSpec FetchersSpec.
From Verif.proofs Require Import GoStrLemmas UrlProofs FetchersProofs.
From Verif.props Require Import P_DbCache.

Local Open Scope string_scope.

(** However goroutines go on at the same time: if they use different files, each gets what
    it gets alone and leaves its file as it would alone; other places stay as they
    were. *)
Theorem C146_apart g us d x : NoDup (map fe_file us) -> no_links d -> happens g us d x ->
  (forall i f r, us !! i = Some f -> got x i r -> use_db g (fe_use f) (place d (fe_file f)) = (r, place (fs_disk x) (fe_file f))) /\
  (forall q, q ∉ map fe_file us -> place (fs_disk x) q = place d q).
Proof.
  intros Hnd Hn H. destruct (all_happens _ _ _ _ Hnd Hn H) as (_ & _ & A & F). split; [|done].
  intros i f r Hi Hg. by apply (A i f (FDone r)).
Qed.

(** The number of bytes written stays below the limit, whatever the others do. *)
Lemma written_below g us d x : happens g us d x -> length (fs_each x) = length us /\
  (forall i f l k n, us !! i = Some f -> fs_each x !! i = Some (FWrite l k n) -> n <= limit (fe_use f)).
Proof.
  revert x. apply happens_ind.
  - split; [cbn; by rewrite map_length|]. intros i f l k n Hi E. cbn [started fs_each] in E. rewrite list_lookup_fmap, Hi in E. done.
  - intros y z Hs [L W]. inversion Hs as [y' i f a b d' Hi Ha Hst]; subst. cbn [fs_each].
    split; [by rewrite insert_length|]. intros j f' l k n Hj E. destruct (decide (j = i)) as [-> |Hji].
    + assert (f' = f) as -> by congruence. rewrite list_lookup_insert in E by (by eapply lookup_lt_Some). injection E as ->.
      inversion Hst; subst; try lia; by repeat match goal with E : (if ?c then _ else _) = _ |- _ => destruct c end.
    + rewrite list_lookup_insert_ne in E by done. by eapply W.
Qed.

(** Nobody waits for the others: whoever is not done can go on, if the disk has room for
    another file. *)
Theorem C146_goes_on g us d x i a : happens g us d x -> fs_each x !! i = Some a -> (exists k, free_in x k) ->
  (exists r, a = FDone r) \/ (exists b d', b <> a /\ fetchers_step g us x (Fetchers d' (<[i := b]> (fs_each x)))).
Proof.
  intros H Ha [k0 Hk0]. destruct (written_below _ _ _ _ H) as [L W].
  assert (exists f, us !! i = Some f) as [f Hf].
  { apply lookup_lt_is_Some_2. rewrite <- L. by eapply lookup_lt_Some. }
  assert (forall b d', b <> a -> fetch_step g (fe_use f) (fe_file f) (free_in x) (a, fs_disk x) (b, d') ->
    (exists r, a = FDone r) \/ (exists b d', b <> a /\ fetchers_step g us x (Fetchers d' (<[i := b]> (fs_each x))))) as K.
  { intros b d' Hb Hs. right. exists b, d'. split; [done|]. by econstructor. }
  destruct a as [| | | |l|l k n|r].
  - destruct (dk_at (fs_disk x) (fe_file f)) as [|k|] eqn:E.
    + eapply K; [|by apply st_look_none]. done.
    + eapply K; [|by apply st_look_file]. by destruct (_ >? _)%Z.
    + eapply K; [|by apply st_look_bad]. done.
  - destruct (u_rm (fe_use f)) eqn:Er; [|eapply K; [|apply st_not_removed; by left]; done].
    destruct (dk_at (fs_disk x) (fe_file f)) as [|k|] eqn:E.
    + eapply K; [|by apply st_remove; [|rewrite E]]. done.
    + eapply K; [|by apply st_remove; [|rewrite E]]. done.
    + eapply K; [|apply st_not_removed; by right]. done.
  - destruct (dk_at (fs_disk x) (fe_file f)) as [|k|] eqn:E.
    + eapply K; [|apply st_gone; by rewrite E]. done.
    + eapply K; [|by apply st_read]. done.
    + eapply K; [|apply st_gone; by rewrite E]. done.
  - destruct (u_arrivals (fe_use f)) as [ar|] eqn:Ea; [|eapply K; [|by apply st_fatal]; done].
    destruct (collect_indexes ar (u_types (fe_use f)) 0) as [l e] eqn:Ec.
    eapply K; [|by eapply st_fetch]. by destruct (_ && _)%bool.
  - assert (u_how (fe_use f) = NotCreated \/ u_how (fe_use f) <> NotCreated) as [Eh|Eh] by (destruct (u_how (fe_use f)); auto); [eapply K; [|apply st_not_created; by left]; done|].
    destruct (dk_at (fs_disk x) (fe_file f)) as [|k|] eqn:E.
    + eapply K; [|by eapply st_create]. done.
    + eapply K; [|by eapply st_empty]. done.
    + eapply K; [|apply st_not_created; by right]. done.
  - pose proof (W _ _ _ _ _ Hf Ha) as Hn. destruct (decide (n = limit (fe_use f))) as [-> |Hne].
    + eapply K; [|apply st_end]. done.
    + eapply K; [|apply (st_write _ _ _ _ _ l k n (limit (fe_use f))); lia]. intros [= E]. lia.
  - left. eauto.
Qed.

(** While all files are young enough, nothing is written, and everybody gets what is in
    the file, also when files are shared. *)
Theorem C146_young g us d x : (forall f, f ∈ us -> fresh (fe_use f) (place d (fe_file f))) -> happens g us d x ->
  fs_disk x = d /\
  forall i f r, us !! i = Some f -> got x i r -> use_db g (fe_use f) (place d (fe_file f)) = (r, place d (fe_file f)).
Proof.
  intros Hy H.
  assert (fs_disk x = d /\ forall i f a, us !! i = Some f -> fs_each x !! i = Some a ->
    a = FStart \/ a = FOpen \/ exists r, a = FDone r /\ use_db g (fe_use f) (place d (fe_file f)) = (r, place d (fe_file f))) as [E A].
  { revert x H. apply happens_ind.
    - split; [done|]. intros i f a Hi Ha. cbn [started fs_each] in Ha. rewrite list_lookup_fmap, Hi in Ha. injection Ha as <-. by left.
    - intros y z Hs [E A]. inversion Hs as [y' i f a b d' Hi Ha Hst]; subst. cbn [fs_each fs_disk].
      destruct (Hy f (elem_of_list_lookup_2 _ _ _ Hi)) as (t & s & Hp & Ht).
      assert (exists k, dk_at (fs_disk y) (fe_file f) = SFile k /\ dk_node (fs_disk y) k = (t, s)) as (k & Hk & Hks).
      { unfold place in Hp. destruct (dk_at (fs_disk y) (fe_file f)) as [|k|]; try done. exists k. split; [done|].
        destruct (dk_node (fs_disk y) k). by injection Hp as <- <-. }
      assert (d' = fs_disk y /\ (b = FOpen \/ exists r, b = FDone r /\
        use_db g (fe_use f) (place (fs_disk y) (fe_file f)) = (r, place (fs_disk y) (fe_file f)))) as [-> Hb].
      { assert ((t + max_age (u_env (fe_use f)) >? u_now (fe_use f))%Z = true) as Ey by (apply Z.gtb_lt; lia).
        destruct (A i f a Hi Ha) as [-> |[-> |(r & -> & _)]].
        - inversion Hst; subst; try congruence. split; [done|]. left.
          match goal with E : dk_at _ _ = SFile ?j |- _ => assert (j = k) as -> by congruence end. rewrite Hks. cbn [fst]. by rewrite Ey.
        - inversion Hst as [| | | | |d1 k1 E1|d1 E1| | | | | | |]; subst.
          + split; [done|]. right. assert (k1 = k) as -> by congruence. eexists. split; [done|]. rewrite Hp.
            unfold use_db, fetch_db. by rewrite Ey, Hks.
          + by destruct (E1 k).
        - inversion Hst. }
      split; [done|]. intros j f' a' Hj Ha'. destruct (decide (j = i)) as [-> |Hji].
      + assert (f' = f) as -> by congruence. rewrite list_lookup_insert in Ha' by (by eapply lookup_lt_Some). injection Ha' as <-. by right.
      + rewrite list_lookup_insert_ne in Ha' by done. by eapply A. }
  split; [done|]. intros i f r Hi Hg. destruct (A i f _ Hi Hg) as [?|[?|(r' & [= <-] & Hr)]]; done.
Qed.

(** The goroutines of cran/pkg_nexus.go 36-41 for the databases of a run. *)
Definition run_fetchers (s : plan_setting) (w : fetch_world) (i : nat) (dbs : list repo_db) : list fetcher :=
  imap (fun j db => Fetcher (use_of w (i + j) db) (file_of s db)) dbs.

Lemma run_fetchers_cons s w i db dbs :
  run_fetchers s w i (db :: dbs) = Fetcher (use_of w i db) (file_of s db) :: run_fetchers s w (S i) dbs.
Proof.
  unfold run_fetchers. cbn. rewrite Nat.add_0_r. f_equal. apply imap_ext. intros j db' _. cbn. by rewrite Nat.add_succ_r.
Qed.

Lemma run_fetchers_files s w i dbs : map fe_file (run_fetchers s w i dbs) = map (file_of s) dbs.
Proof. revert i. induction dbs as [|db dbs IH]; intros i; [done|]. rewrite run_fetchers_cons. cbn. by rewrite IH. Qed.

(** What [fetch_all] gives for places that are used by each alone. *)
Lemma fetch_all_each s w dbs : forall i (P Q : path -> db_place) (rs : list fetched),
  NoDup (map (file_of s) dbs) -> length rs = length dbs ->
  (forall j f r, run_fetchers s w i dbs !! j = Some f -> rs !! j = Some r ->
     use_db (pv_gob s) (fe_use f) (P (fe_file f)) = (r, Q (fe_file f))) ->
  (forall q, q ∉ map (file_of s) dbs -> Q q = P q) ->
  match fetch_all s w i dbs P with
  | Some (l, P') => rs = map (fun db => DbOk (db_types db)) l /\ (forall q, P' q = Q q)
  | None => exists r, r ∈ rs /\ forall l, r <> DbOk l
  end.
Proof.
  induction dbs as [|db dbs IH]; intros i P Q rs Hnd HL HU HF.
  - destruct rs; [|done]. cbn. split; [done|]. intros q. symmetry. apply HF. apply not_elem_of_nil.
  - destruct rs as [|r rs]; [done|]. cbn [map] in Hnd. apply NoDup_cons in Hnd as [Hn Hnd]. rewrite run_fetchers_cons in HU.
    pose proof (HU 0 _ _ eq_refl eq_refl) as H0. cbn [fe_use fe_file] in H0. cbn [fetch_all]. rewrite H0.
    destruct r as [l| | |]; try (eexists; split; [by left|done]).
    specialize (IH (S i) (fun q => if bool_decide (q = file_of s db) then Q (file_of s db) else P q) Q rs Hnd).
    destruct (fetch_all s w (S i) dbs _) as [[l' P']|].
    + destruct IH as [-> HP].
      * by injection HL.
      * intros j f r Hj Hr. rewrite bool_decide_eq_false_2; [by apply (HU (S j))|]. intros E. apply Hn.
        rewrite <- E, <- (run_fetchers_files s w (S i) dbs). apply elem_of_list_fmap. exists f. split; [done|]. by eapply elem_of_list_lookup_2.
      * intros q Hq. cbn. destruct (bool_decide_reflect (q = file_of s db)) as [-> |Hne]; [done|]. apply HF. cbn [map].
        rewrite elem_of_cons. tauto.
      * split; [done|exact HP].
    + destruct IH as (r & Hr & Hr').
      * by injection HL.
      * intros j f r Hj Hr. rewrite bool_decide_eq_false_2; [by apply (HU (S j))|]. intros E. apply Hn.
        rewrite <- E, <- (run_fetchers_files s w (S i) dbs). apply elem_of_list_fmap. exists f. split; [done|]. by eapply elem_of_list_lookup_2.
      * intros q Hq. cbn. destruct (bool_decide_reflect (q = file_of s db)) as [-> |Hne]; [done|]. apply HF. cbn [map].
        rewrite elem_of_cons. tauto.
      * exists r. split; [by right|done].
Qed.

(** The databases of a run, fetched at the same time: if their files differ, the run has
    the databases it has when they are fetched one after the other, and the files are the
    same; and it goes on if and only if it does then. *)
Theorem C146_one_after_the_other s w dbs d x rs : NoDup (map (file_of s) dbs) -> no_links d ->
  happens (pv_gob s) (run_fetchers s w 0 dbs) d x -> fs_each x = map FDone rs ->
  match fetch_all s w 0 dbs (place d) with
  | Some (l, P) => rs = map (fun db => DbOk (db_types db)) l /\ (forall q, P q = place (fs_disk x) q)
  | None => exists r, r ∈ rs /\ forall l, r <> DbOk l
  end.
Proof.
  intros Hnd Hn H Hrs. destruct (C146_apart _ _ _ _ ltac:(by rewrite run_fetchers_files) Hn H) as [HU HF].
  rewrite run_fetchers_files in HF. apply fetch_all_each; [done|..].
  - destruct (written_below _ _ _ _ H) as [L _]. rewrite Hrs, map_length in L. rewrite L. unfold run_fetchers. apply imap_length.
  - intros j f r Hj Hr. eapply HU; [exact Hj|]. unfold got. rewrite Hrs. rewrite list_lookup_fmap, Hr. done.
  - exact HF.
Qed.

(** A small gob with two texts for the same maps: Go goes through maps in any order. *)
Definition ft_gob : gob := {|
  g_text l s := l = dc_all /\ (s = "ab" \/ s = "cd");
  g_read s := if (String.eqb s "ab" || String.eqb s "cd")%bool then Some dc_all else None
|}.

Example ft_gob_ok : gob_ok ft_gob.
Proof.
  split.
  - by intros l s [-> [-> | ->]].
  - intros l a b [_ K] Hb. cbn.
    destruct (String.eqb_spec a "ab") as [-> |Ha]; [destruct K as [K|K]; cbn in K; [injection K as ->|]; done|].
    destruct (String.eqb_spec a "cd") as [-> |Hb']; [destruct K as [K|K]; cbn in K; [|injection K as ->]; done|]. done.
Qed.

(** A use at the time 100 that writes a text. *)
Definition ft_use (text : string) : db_use := {|
  u_now := 100; u_env := None; u_types := dc_types;
  u_arrivals := Some [(STSource, Some dc_map); (STBinary, Some dc_map)]; u_text := text; u_how := Written; u_rm := true |}.

Lemma ft_texts us : (forall u, u ∈ us -> u = ft_use "ab" \/ u = ft_use "cd") -> texts_ok ft_gob us.
Proof.
  intros H u l Hu (ar & n & E & G & _). cbn. destruct (H u Hu) as [-> | ->]; injection E as <-;
    inversion G as [|? ? ? ? ? G1|]; subst; inversion G1 as [|? ? ? ? ? G2|]; subst; inversion G2; subst; auto.
Qed.

(** A disk without files. *)
Definition ft_disk : disk := Disk (fun _ => SNothing) (fun _ => (0%Z, "")).

Lemma ft_no_links : no_links ft_disk.
Proof. intros p q k E. done. Qed.

Lemma ft_fetch g t p free d : fetch_step g (ft_use t) p free (FFetch, d) (FCreate dc_all, d).
Proof. by apply (st_fetch g (ft_use t) p free d [(STSource, Some dc_map); (STBinary, Some dc_map)] dc_all 0). Qed.

Lemma ft_look g t p free d k s : dk_at d p = SFile k -> dk_node d k = (100%Z, s) ->
  fetch_step g (ft_use t) p free (FStart, d) (FOpen, d).
Proof. intros E1 E2. pose proof (st_look_file g (ft_use t) p free d k E1) as H. by rewrite E2 in H. Qed.

Lemma ft_write g t p free d l k n m s s' : (dk_node d k).2 = s -> overlay n (substring n (m - n) t) s = s' -> n < m <= String.length t ->
  fetch_step g (ft_use t) p free (FWrite l k n, d) (FWrite l k m, set_node k (100%Z, s') d).
Proof. intros <- <- H. by apply st_write. Qed.

Lemma ft_end g t p free d k n : n = String.length t -> fetch_step g (ft_use t) p free (FWrite dc_all k n, d) (FDone (DbOk dc_all), d).
Proof. intros ->. apply (st_end g (ft_use t) p free d dc_all k). Qed.

Lemma ft_go g us i f a b d d' es z : us !! i = Some f -> es !! i = Some a ->
  fetch_step g (fe_use f) (fe_file f) (free_in (Fetchers d es)) (a, d) (b, d') ->
  rtc (fetchers_step g us) (Fetchers d' (<[i := b]> es)) z -> rtc (fetchers_step g us) (Fetchers d es) z.
Proof. intros H1 H2 H3 H4. eapply rtc_l; [|exact H4]. by apply (fst_one g us (Fetchers d es) i f a b d'). Qed.

(** One step of the goroutine [i], for a computation. *)
Ltac ft_step i c := eapply (ft_go _ _ i); [reflexivity|reflexivity|c|]; cbn [insert list_insert].
Ltac ft_free k := split; [intros q; cbn; repeat match goal with |- context [bool_decide ?P] => destruct (bool_decide P) end; done|intros l n; cbn; rewrite !elem_of_cons, elem_of_nil; intros K; repeat (destruct K as [K|K]; [done|]); done].

(** Two goroutines that use different files. *)
Example C146_example : exists x,
  happens ft_gob [Fetcher (ft_use "ab") ["one.db"]; Fetcher (ft_use "cd") ["two.db"]] ft_disk x /\
  got x 0 (DbOk dc_all) /\ got x 1 (DbOk dc_all) /\ NoDup (map fe_file [Fetcher (ft_use "ab") ["one.db"]; Fetcher (ft_use "cd") ["two.db"]]) /\
  place (fs_disk x) ["one.db"] = PFile 100 "ab" /\ place (fs_disk x) ["two.db"] = PFile 100 "cd".
Proof.
  eexists. split; [unfold happens, started; cbn [map]|].
  - ft_step 0 ltac:(by apply st_look_none).
    ft_step 1 ltac:(by apply st_look_none).
    ft_step 0 ltac:(apply ft_fetch).
    ft_step 0 ltac:(apply (st_create _ _ _ _ _ _ 0); [done|reflexivity|ft_free 0]).
    ft_step 1 ltac:(apply ft_fetch).
    ft_step 0 ltac:(eapply (ft_write _ _ _ _ _ _ _ 0 1); [reflexivity|vm_compute; reflexivity|cbn; lia]).
    ft_step 1 ltac:(apply (st_create _ _ _ _ _ _ 1); [done|reflexivity|ft_free 1]).
    ft_step 1 ltac:(eapply (ft_write _ _ _ _ _ _ _ 0 2); [reflexivity|vm_compute; reflexivity|cbn; lia]).
    ft_step 0 ltac:(eapply (ft_write _ _ _ _ _ _ _ 1 2); [reflexivity|vm_compute; reflexivity|cbn; lia]).
    ft_step 1 ltac:(by apply ft_end).
    ft_step 0 ltac:(by apply ft_end).
    apply rtc_refl.
  - split; [by vm_compute|]. split; [by vm_compute|]. split; [by apply (bool_decide_unpack _); vm_compute|]. split; by vm_compute.
Qed.

(** Two runs with the same file: the second reads what the first has written so far, and
    fails, though each succeeds alone. *)
Theorem C146_early_refuted : exists g u v p x, gob_ok g /\ texts_ok g [u; v] /\ all_fetched u /\ all_fetched v /\ all_written [u; v] /\
  happens g [Fetcher u p; Fetcher v p] ft_disk x /\ got x 0 (DbOk dc_all) /\ got x 1 DbError /\
  (exists q, uses g [u; v] (place ft_disk p) = ([DbOk dc_all; DbOk dc_all], q)).
Proof.
  exists ft_gob, (ft_use "ab"), (ft_use "cd"), ["one.db"]. eexists. split; [apply ft_gob_ok|].
  split; [apply ft_texts; intros u Hu; rewrite !elem_of_cons, elem_of_nil in Hu; tauto|].
  split; [eexists; split; [reflexivity|repeat constructor]|]. split; [eexists; split; [reflexivity|repeat constructor]|].
  split; [intros u Hu; rewrite !elem_of_cons, elem_of_nil in Hu; destruct Hu as [-> |[-> |[]]]; done|].
  split; [unfold happens, started; cbn [map]|].
  - ft_step 0 ltac:(by apply st_look_none).
    ft_step 0 ltac:(apply ft_fetch).
    ft_step 0 ltac:(apply (st_create _ _ _ _ _ _ 0); [done|reflexivity|ft_free 0]).
    ft_step 0 ltac:(eapply (ft_write _ _ _ _ _ _ _ 0 1); [reflexivity|vm_compute; reflexivity|cbn; lia]).
    ft_step 1 ltac:(by eapply ft_look).
    ft_step 1 ltac:(apply (st_read _ _ _ _ _ 0); reflexivity).
    ft_step 0 ltac:(eapply (ft_write _ _ _ _ _ _ _ 1 2); [reflexivity|vm_compute; reflexivity|cbn; lia]).
    ft_step 0 ltac:(by apply ft_end).
    apply rtc_refl.
  - split; [by vm_compute|]. split; [by vm_compute|]. eexists. by vm_compute.
Qed.

(** Two runs that write the same file: both succeed, with the same maps, and leave a file
    that is neither, with which every use within the hour fails. *)
Theorem C146_mixed_refuted : exists g u v p x, gob_ok g /\ texts_ok g [u; v] /\ all_fetched u /\ all_fetched v /\ all_written [u; v] /\
  happens g [Fetcher u p; Fetcher v p] ft_disk x /\ got x 0 (DbOk dc_all) /\ got x 1 (DbOk dc_all) /\
  (forall t, u_env t = None -> (u_now t < u_now u + 3600)%Z -> (use_db g t (place (fs_disk x) p)).1 = DbError).
Proof.
  exists ft_gob, (ft_use "ab"), (ft_use "cd"), ["one.db"]. eexists. split; [apply ft_gob_ok|].
  split; [apply ft_texts; intros u Hu; rewrite !elem_of_cons, elem_of_nil in Hu; tauto|].
  split; [eexists; split; [reflexivity|repeat constructor]|]. split; [eexists; split; [reflexivity|repeat constructor]|].
  split; [intros u Hu; rewrite !elem_of_cons, elem_of_nil in Hu; destruct Hu as [-> |[-> |[]]]; done|].
  split; [unfold happens, started; cbn [map]|].
  - ft_step 0 ltac:(by apply st_look_none).
    ft_step 1 ltac:(by apply st_look_none).
    ft_step 0 ltac:(apply ft_fetch).
    ft_step 1 ltac:(apply ft_fetch).
    ft_step 0 ltac:(apply (st_create _ _ _ _ _ _ 0); [done|reflexivity|ft_free 0]).
    ft_step 1 ltac:(apply (st_empty _ _ _ _ _ _ 0); [done|reflexivity]).
    ft_step 0 ltac:(eapply (ft_write _ _ _ _ _ _ _ 0 1); [reflexivity|vm_compute; reflexivity|cbn; lia]).
    ft_step 1 ltac:(eapply (ft_write _ _ _ _ _ _ _ 0 2); [reflexivity|vm_compute; reflexivity|cbn; lia]).
    ft_step 0 ltac:(eapply (ft_write _ _ _ _ _ _ _ 1 2); [reflexivity|vm_compute; reflexivity|cbn; lia]).
    ft_step 0 ltac:(by apply ft_end).
    ft_step 1 ltac:(by apply ft_end).
    apply rtc_refl.
  - split; [by vm_compute|]. split; [by vm_compute|]. intros t Et Ht.
    assert (forall y, y = PFile 100 "cb" -> (use_db ft_gob t y).1 = DbError) as K.
    { intros y ->. unfold use_db, fetch_db. rewrite Et. cbn [max_age]. cbn [u_now ft_use] in Ht.
      destruct (100 + 3600 >? u_now t)%Z eqn:E; [done|]. rewrite Z.gtb_ltb in E. apply Z.ltb_ge in E. lia. }
    apply K. by vm_compute.
Qed.

Print Assumptions C146_apart.
Print Assumptions C146_goes_on.
Print Assumptions C146_young.
Print Assumptions C146_one_after_the_other.
Print Assumptions C146_early_refuted.
Print Assumptions C146_mixed_refuted.
