(** Builds of several runs with one cache of binaries. *)
From stdpp Require Import strings list gmap relations.
From Coq Require Import Ascii ZArith Lia.
From Verif.model Require Import GoStr Desc Nexus RepoDb Fs Install Download Fetching DbCache Fetchers Sharing Builds.
From Verif.spec Require Import SharingSpec BuildsSpec.
From Verif.proofs Require Import GoStrLemmas UrlProofs FetchersProofs SharingProofs.

Local Open Scope string_scope.

(** The files go as with downloads whose server sends the binary. *)
Definition as_getter (e : builder) : getter :=
  Getter empty_wanted (bu_store e) (match bu_ball e with Some c => Body c true | None => NoConnection end).

Definition as_getting (e : builder) (a : building) : getting :=
  match a with
  | BLook => GLook
  | BBuild => GAsk
  | BMake c => GMake c true
  | BCopy n c => GCopy n c true
  | BUse | BUnread | BCached _ => GEnd {| d_path := Some (bu_store e); d_new := false; d_wanted := empty_wanted |} false
  | BFail => GEnd {| d_path := None; d_new := false; d_wanted := empty_wanted |} true
  | BOwn _ true => GEnd {| d_path := Some (bu_store e); d_new := true; d_wanted := empty_wanted |} false
  | BOwn _ false => GEnd {| d_path := None; d_new := false; d_wanted := empty_wanted |} true
  end.

Lemma as_step e a f b f' : build_step e (a, f) (b, f') ->
  get_step (as_getter e) (as_getting e a, f) (as_getting e b, f') \/ (as_getting e b = as_getting e a /\ f' = f).
Proof.
  intros H. inversion H; subst; cbn [as_getting].
  - left. by apply (g_there (as_getter e)).
  - left. by apply (g_absent (as_getter e)).
  - by right.
  - by right.
  - left. apply (g_refused (as_getter e)). cbn [as_getter ge_reply]. by rewrite H1.
  - left. apply (g_body (as_getter e)). cbn [as_getter ge_reply]. by rewrite H1.
  - left. by apply (g_make (as_getter e)).
  - left. by apply (g_no_make (as_getter e)).
  - left. by apply (g_copy (as_getter e)).
  - left. apply (g_copied (as_getter e)).
Qed.

Definition as_getters (es : list builder) (x : builders) : getters :=
  Getters (bs_fs x) (zip_with as_getting es (bs_each x)).

Lemma build_happens_ind es f (P : builders -> Prop) : P (build_started es f) -> (forall y z, builders_step es y z -> P y -> P z) ->
  forall x, build_happens es f x -> P x.
Proof.
  intros H0 HS x H. unfold build_happens in H. revert H0. induction H as [|y z w Hyz _ IH]; [done|]. intros H0. apply IH. by eapply HS.
Qed.

Lemma zip_start (es : list builder) : zip_with as_getting es (map (fun _ => BLook) es) = map (fun _ => GLook) (map as_getter es).
Proof. induction es as [|e es IH]; [done|]. cbn. by rewrite IH. Qed.

Lemma zip_insert (es : list builder) : forall (l : list building) i e b, es !! i = Some e -> i < length l ->
  zip_with as_getting es (<[i := b]> l) = <[i := as_getting e b]> (zip_with as_getting es l).
Proof.
  induction es as [|e' es IH]; intros [|a l] [|i] e b Hi Hl; cbn in *; try done; try lia.
  - by injection Hi as ->.
  - f_equal. apply IH; [done|lia].
Qed.

Lemma zip_at (es : list builder) (l : list building) i e a : es !! i = Some e -> l !! i = Some a ->
  zip_with as_getting es l !! i = Some (as_getting e a).
Proof. intros H1 H2. rewrite lookup_zip_with, H1. cbn. by rewrite H2. Qed.

Lemma as_happens es f x : build_happens es f x -> get_happens (map as_getter es) f (as_getters es x).
Proof.
  revert x. apply build_happens_ind.
  - unfold get_happens, as_getters, build_started, get_started. cbn [bs_fs bs_each]. rewrite zip_start. apply rtc_refl.
  - intros y z Hs H. inversion Hs as [y' i e a b f' Hi Ha Hst]; subst. unfold get_happens in *.
    assert (i < length (bs_each y)) as Hl by (by eapply lookup_lt_Some). unfold as_getters at 1. cbn [bs_fs bs_each].
    rewrite (zip_insert es _ i e b Hi Hl).
    destruct (as_step _ _ _ _ _ Hst) as [K|[K1 K2]].
    + eapply rtc_r; [exact H|]. apply (gst_one _ (as_getters es y) i (as_getter e) (as_getting e a)); [|by apply zip_at|done].
      rewrite list_lookup_fmap. by rewrite Hi.
    + rewrite K1, K2, list_insert_id; [done|]. by apply zip_at.
Qed.

(** A step by cases. *)
Lemma build_step_cases e a f b f' : build_step e (a, f) (b, f') ->
  (a = BLook /\ fs_exists f (bu_store e) = true /\ b = BUse /\ f' = f) \/
  (a = BLook /\ fs_exists f (bu_store e) = false /\ b = BBuild /\ f' = f) \/
  (exists s, a = BUse /\ f (bu_store e) = Some (File s) /\ b = BCached s /\ f' = f) \/
  (a = BUse /\ f (bu_store e) = Some Dir /\ b = BUnread /\ f' = f) \/
  (a = BBuild /\ bu_ball e = None /\ b = BFail /\ f' = f) \/
  (exists c, a = BBuild /\ bu_ball e = Some c /\ b = BMake c /\ f' = f) \/
  (exists c, a = BMake c /\ fs_dir_exists f (removelast (bu_store e)) = true /\ fs_dir_exists f (bu_store e) = false /\
     b = BCopy 0 c /\ f' = write_file (bu_store e) "" f) \/
  (exists c, a = BMake c /\ (fs_dir_exists f (removelast (bu_store e)) = false \/ fs_dir_exists f (bu_store e) = true) /\
     b = BOwn c false /\ f' = f) \/
  (exists n m c s, a = BCopy n c /\ n < m <= String.length c /\ f (bu_store e) = Some (File s) /\ b = BCopy m c /\
     f' = write_file (bu_store e) (overlay n (substring n (m - n) c) s) f) \/
  (exists c, a = BCopy (String.length c) c /\ b = BOwn c true /\ f' = f).
Proof.
  intros H. inversion H; subst.
  - left. done.
  - right; left. done.
  - do 2 right; left. eexists. done.
  - do 3 right; left. done.
  - do 4 right; left. done.
  - do 5 right; left. eexists. done.
  - do 6 right; left. eexists. done.
  - do 7 right; left. eexists. done.
  - do 8 right; left. eexists _, _, _, _. done.
  - do 9 right. eexists. done.
Qed.

Ltac build_cases H := apply build_step_cases in H;
  destruct H as [(-> & ?E & -> & ->)|[(-> & ?E & -> & ->)|[(?s & -> & ?E & -> & ->)|[(-> & ?E & -> & ->)|[(-> & ?E & -> & ->)|[(?c & -> & ?E & -> & ->)|
    [(?c & -> & ?E & ?E & -> & ->)|[(?c & -> & ?E & -> & ->)|[(?n & ?m & ?c & ?s & -> & ?Hm & ?E & -> & ->)|(?c & -> & -> & ->)]]]]]]]]].

(** What R has built, at each place. *)
Definition own (e : builder) (a : building) : Prop :=
  match a with BMake c | BOwn c _ => bu_ball e = Some c | BCopy n c => bu_ball e = Some c /\ n <= String.length c | BFail => bu_ball e = None | _ => True end.

Lemma own_step e a f b f' : build_step e (a, f) (b, f') -> own e a -> own e b.
Proof. intros H Ho. build_cases H; cbn in *; try done; try tauto; split; tauto || lia. Qed.

Lemma all_own es f x : build_happens es f x -> length (bs_each x) = length es /\
  forall i e a, es !! i = Some e -> bs_each x !! i = Some a -> own e a.
Proof.
  revert x. apply build_happens_ind.
  - split; [cbn; by rewrite map_length|]. intros i e a Hi Ha. cbn [build_started bs_each] in Ha. rewrite list_lookup_fmap, Hi in Ha. by injection Ha as <-.
  - intros y z Hs [L A]. inversion Hs as [y' i e a b f' Hi Ha Hst]; subst. cbn [bs_each]. split; [by rewrite insert_length|].
    intros j e' a' Hj Ha'. destruct (decide (j = i)) as [-> |Hji].
    + assert (e' = e) as -> by congruence. rewrite list_lookup_insert in Ha' by (by eapply lookup_lt_Some). injection Ha' as <-.
      eapply own_step; [exact Hst|]. by eapply A.
    + rewrite list_lookup_insert_ne in Ha' by done. by eapply A.
Qed.

(** A step changes no file but the own one. *)
Lemma build_other e a f b f' q : build_step e (a, f) (b, f') -> q <> bu_store e -> f' q = f q.
Proof. intros H Hq. build_cases H; try done; by apply write_other. Qed.

(** A file that is there stays there. *)
Lemma build_there e a f b f' q : build_step e (a, f) (b, f') -> fs_exists f q = true -> fs_exists f' q = true.
Proof.
  intros H Hq. unfold fs_exists in *. destruct (decide (q = bu_store e)) as [-> |Hn]; [|by rewrite (build_other _ _ _ _ _ _ H)].
  build_cases H; try done; by rewrite write_same.
Qed.

(** Who has found a file has it. *)
Lemma use_there es f x : build_happens es f x -> forall i e, es !! i = Some e -> bs_each x !! i = Some BUse -> fs_exists (bs_fs x) (bu_store e) = true.
Proof.
  revert x. apply (build_happens_ind es f (fun x => forall i e, es !! i = Some e -> bs_each x !! i = Some BUse -> fs_exists (bs_fs x) (bu_store e) = true)).
  - intros i e Hi Ha. cbn [build_started bs_each] in Ha. rewrite list_lookup_fmap, Hi in Ha. done.
  - intros y z Hs A. inversion Hs as [y' i e a b f' Hi Ha Hst]; subst. cbn [bs_each bs_fs].
    intros j e' Hj Ha'. destruct (decide (j = i)) as [-> |Hji].
    + assert (e' = e) as -> by congruence. rewrite list_lookup_insert in Ha' by (by eapply lookup_lt_Some). injection Ha' as Eb.
      build_cases Hst; done.
    + rewrite list_lookup_insert_ne in Ha' by done. eapply build_there; [exact Hst|]. by eapply A.
Qed.

(** What is known about an installation that has its file for itself, from the files [f0]. *)
Definition alone (e : builder) (f0 : fsys) (a : building) (f : fsys) : Prop :=
  match a with
  | BLook => f (bu_store e) = f0 (bu_store e)
  | BUse => f (bu_store e) = f0 (bu_store e)
  | BBuild | BMake _ | BFail => f (bu_store e) = None /\ f0 (bu_store e) = None
  | BCopy n c => f0 (bu_store e) = None /\ fs_dir_exists f0 (removelast (bu_store e)) = true /\ f (bu_store e) = Some (File (substring 0 n c))
  | BUnread => f0 (bu_store e) = Some Dir /\ f (bu_store e) = Some Dir
  | BCached s => f0 (bu_store e) = Some (File s) /\ f (bu_store e) = Some (File s)
  | BOwn c stored => f0 (bu_store e) = None /\ fs_dir_exists f0 (removelast (bu_store e)) = stored /\
      f (bu_store e) = if stored then Some (File c) else None
  end.

Lemma alone_step e a f b f' f0 : build_step e (a, f) (b, f') -> own e a -> (forall q, fs_dir_exists f q = fs_dir_exists f0 q) ->
  alone e f0 a f -> alone e f0 b f' /\ (forall q, fs_dir_exists f' q = fs_dir_exists f0 q).
Proof.
  intros H Ho HD Ha. build_cases H; cbn [alone own] in *; try done.
  - split; [|done]. unfold fs_exists in E. rewrite <- Ha. by destruct (f (bu_store e)).
  - split; [|done]. split; congruence.
  - split; [|done]. split; congruence.
  - split; [rewrite write_same, <- HD; destruct Ha; by destruct c|]. intros q. rewrite write_dirs; [apply HD|done].
  - split; [|done]. destruct Ha as [Ha Ha0]. destruct E as [E|E]; [|unfold fs_dir_exists in E; by rewrite Ha in E]. by rewrite <- HD.
  - destruct Ha as (Ha0 & Hd & Ha). rewrite Ha in E. injection E as <-. split.
    + rewrite write_same. split; [done|]. split; [done|]. by rewrite overlay_more by lia.
    + intros q. rewrite write_dirs; [apply HD|]. unfold fs_dir_exists. by rewrite Ha.
  - split; [|done]. destruct Ha as (Ha0 & Hd & Ha). by rewrite Ha, substring_whole_text.
Qed.

Lemma all_alone es f0 x : NoDup (map bu_store es) -> build_happens es f0 x ->
  (forall q, fs_dir_exists (bs_fs x) q = fs_dir_exists f0 q) /\
  (forall i e a, es !! i = Some e -> bs_each x !! i = Some a -> alone e f0 a (bs_fs x)) /\
  (forall q, q ∉ map bu_store es -> bs_fs x q = f0 q).
Proof.
  intros Hnd H.
  cut ((forall i e a, es !! i = Some e -> bs_each x !! i = Some a -> own e a) /\
    (forall q, fs_dir_exists (bs_fs x) q = fs_dir_exists f0 q) /\
    (forall i e a, es !! i = Some e -> bs_each x !! i = Some a -> alone e f0 a (bs_fs x)) /\
    (forall q, q ∉ map bu_store es -> bs_fs x q = f0 q)); [tauto|].
  revert x H. apply build_happens_ind.
  - assert (forall i e a, es !! i = Some e -> bs_each (build_started es f0) !! i = Some a -> a = BLook) as K.
    { intros i e a Hi Ha. cbn [build_started bs_each] in Ha. rewrite list_lookup_fmap, Hi in Ha. by injection Ha as <-. }
    split; [intros i e a Hi Ha; by rewrite (K i e a Hi Ha)|]. split; [done|]. split; [intros i e a Hi Ha; by rewrite (K i e a Hi Ha)|done].
  - intros y z Hs (S & D & A & F). inversion Hs as [y' i e a b f' Hi Ha Hst]; subst. cbn [bs_fs bs_each].
    destruct (alone_step _ _ _ _ _ f0 Hst (S _ _ _ Hi Ha) D (A _ _ _ Hi Ha)) as (A' & D').
    split; [|split; [done|split]].
    + intros j e' a' Hj Ha'. destruct (decide (j = i)) as [-> |Hji].
      * assert (e' = e) as -> by congruence. rewrite list_lookup_insert in Ha' by (by eapply lookup_lt_Some). injection Ha' as <-.
        eapply own_step; [exact Hst|]. by eapply S.
      * rewrite list_lookup_insert_ne in Ha' by done. by eapply S.
    + intros j e' a' Hj Ha'. destruct (decide (j = i)) as [-> |Hji].
      * assert (e' = e) as -> by congruence. rewrite list_lookup_insert in Ha' by (by eapply lookup_lt_Some). by injection Ha' as <-.
      * rewrite list_lookup_insert_ne in Ha' by done.
        assert (bu_store e' <> bu_store e) as Hne.
        { intros E. apply Hji. eapply (NoDup_lookup (map bu_store es)); [done|..]; rewrite list_lookup_fmap; [by rewrite Hj|]. rewrite Hi. cbn. by rewrite E. }
        specialize (A j e' a' Hj Ha'). pose proof (build_other _ _ _ _ _ _ Hst Hne) as Eo. destruct a'; cbn [alone] in *; rewrite Eo; done.
    + intros q Hq. rewrite (build_other _ _ _ _ _ q Hst); [by apply F|]. intros ->. apply Hq. apply elem_of_list_fmap. exists e. split; [done|]. by eapply elem_of_list_lookup_2.
Qed.

(** Zero bytes fill a text that is too short. *)
Lemma get_begin_any n s k b : String.get k (begin n s) = Some b -> String.get k s = Some b \/ b = Ascii.zero.
Proof.
  revert s k. induction n as [|n IH]; intros s k; [by destruct k|]. destruct s as [|c s]; destruct k as [|k]; cbn; intros H.
  - right. by injection H.
  - destruct (IH "" k H) as [K|K]; [by destruct k|by right].
  - by left.
  - by apply IH.
Qed.

Lemma overlay_any n m c s k b : n <= m <= String.length c -> String.get k (overlay n (substring n (m - n) c) s) = Some b ->
  String.get k c = Some b \/ String.get k s = Some b \/ b = Ascii.zero.
Proof.
  intros Hm H. destruct (decide (k < n)) as [Hk|Hk].
  - right. unfold overlay in H. rewrite get_app_left in H by (by rewrite begin_length). by apply get_begin_any in H.
  - destruct (decide (k < m)) as [Hk2|Hk2]; [left|right; left].
    + by rewrite overlay_in in H by lia.
    + by rewrite overlay_behind in H by lia.
Qed.

Lemma all_bytes es f x : build_happens es f x -> forall p s k b, bs_fs x p = Some (File s) -> String.get k s = Some b ->
  byte_of es f p k b \/ b = Ascii.zero.
Proof.
  intros H. cut ((forall i e a, es !! i = Some e -> bs_each x !! i = Some a -> own e a) /\
    forall p s k b, bs_fs x p = Some (File s) -> String.get k s = Some b -> byte_of es f p k b \/ b = Ascii.zero); [tauto|].
  revert x H. apply build_happens_ind.
  - split; [|intros p s k b Hp Hb; left; right; by exists s].
    intros i e a Hi Ha. cbn [build_started bs_each] in Ha. rewrite list_lookup_fmap, Hi in Ha. by injection Ha as <-.
  - intros y z Hs [S A]. inversion Hs as [y' i e a b0 f' Hi Ha Hst]; subst. cbn [bs_fs bs_each]. pose proof (S _ _ _ Hi Ha) as So. split.
    + intros j e' a' Hj Ha'. destruct (decide (j = i)) as [-> |Hji].
      * assert (e' = e) as -> by congruence. rewrite list_lookup_insert in Ha' by (by eapply lookup_lt_Some). injection Ha' as <-.
        by eapply own_step.
      * rewrite list_lookup_insert_ne in Ha' by done. by eapply S.
    + intros p s k b Hp Hb. destruct (decide (p = bu_store e)) as [-> |Hn].
      2:{ rewrite (build_other _ _ _ _ _ _ Hst Hn) in Hp. by eapply A. }
      build_cases Hst; try (by eapply A).
      * rewrite write_same in Hp. injection Hp as <-. by destruct k.
      * rewrite write_same in Hp. injection Hp as <-. destruct So as [So Hc]. apply overlay_any in Hb; [|lia].
        destruct Hb as [Hb|[Hb|Hb]]; [|by eapply A|by right]. left. left. exists e, c. split; [by eapply elem_of_list_lookup_2|]. done.
Qed.

(** With one binary for [p], as for downloads with one body. *)
Lemma as_same es p c : same_ball es p c -> same_body (map as_getter es) p c.
Proof.
  intros H g c' ok (e & -> & He)%elem_of_list_fmap Hd Hr. cbn in *. destruct (bu_ball e) as [c0|] eqn:E; [|done]. injection Hr as <- <-.
  split; [|done]. by eapply H.
Qed.

Lemma as_rest es f x p : build_happens es f x -> not_copied es x p -> at_rest (map as_getter es) (as_getters es x) p.
Proof.
  intros Hh H i g n c ok Hg Hd Ha. rewrite list_lookup_fmap in Hg. destruct (es !! i) as [e|] eqn:Ee; [|done]. injection Hg as <-. cbn in Hd.
  cbn [as_getters gs_each] in Ha. rewrite lookup_zip_with, Ee in Ha. cbn in Ha. destruct (bs_each x !! i) as [a|] eqn:E; [|done]. cbn in Ha.
  injection Ha as Ha. destruct a as [| | |c1|n1 c1| | |s1|c1 []]; try done. cbn in Ha. injection Ha as -> -> <-. by apply (H i e n c Ee Hd).
Qed.
