(** Downloads of several runs into one cache. *)
From stdpp Require Import strings list gmap relations.
From Coq Require Import Ascii ZArith Lia.
From Verif.model Require Import GoStr Desc Nexus RepoDb Fs Install Download Fetching DbCache Fetchers Sharing.
From Verif.spec Require Import SharingSpec.
From Verif.proofs Require Import GoStrLemmas UrlProofs FetchersProofs.

Local Open Scope string_scope.

Lemma begin_length n s : String.length (begin n s) = n.
Proof. revert s. induction n as [|n IH]; intros [|c s]; cbn; by rewrite ?IH. Qed.

Lemma get_begin n s k : k < n -> k < String.length s -> String.get k (begin n s) = String.get k s.
Proof. revert s k. induction n as [|n IH]; intros [|c s] [|k] H1 H2; cbn in *; try lia; [done|]. apply IH; lia. Qed.

Lemma get_drop n s k : String.get k (drop_bytes n s) = String.get (k + n) s.
Proof.
  revert s. induction n as [|n IH]; intros s; [by rewrite Nat.add_0_r; destruct s|]. destruct s as [|c s]; [by destruct k|].
  cbn [drop_bytes]. rewrite IH. rewrite Nat.add_succ_r. done.
Qed.

Lemma get_none s k : String.length s <= k <-> String.get k s = None.
Proof. revert k. induction s as [|c s IH]; intros [|k]; cbn; split; try done; try lia; intros H; [apply IH|apply le_n_S, IH]; auto; lia. Qed.

Lemma get_app_left a b k : k < String.length a -> String.get k (a +:+ b) = String.get k a.
Proof. intros H. symmetry. by apply append_correct1. Qed.

Lemma get_app_right a b k : String.length a <= k -> String.get k (a +:+ b) = String.get (k - String.length a) b.
Proof. intros H. rewrite (append_correct2 a b (k - String.length a)). f_equal. lia. Qed.

Lemma substring_len s : forall n m, n + m <= String.length s -> String.length (substring n m s) = m.
Proof.
  induction s as [|c s IH]; intros [|n] [|m] H; cbn in *; try lia; try done; f_equal.
  - apply (IH 0). lia.
  - apply IH. lia.
  - apply IH. lia.
Qed.

(** Writing a piece of [c] at its place. *)
Lemma overlay_in n m c s k : n <= k < m -> m <= String.length c -> String.get k (overlay n (substring n (m - n) c) s) = String.get k c.
Proof.
  intros H1 H2. unfold overlay. rewrite get_app_right by (rewrite begin_length; lia). rewrite begin_length.
  rewrite get_app_left by (rewrite substring_len; lia). rewrite substring_correct1 by lia. f_equal. lia.
Qed.

Lemma overlay_before n m c s k : k < n -> k < String.length s -> String.get k (overlay n (substring n (m - n) c) s) = String.get k s.
Proof. intros H1 H2. unfold overlay. rewrite get_app_left by (by rewrite begin_length). by apply get_begin. Qed.

Lemma overlay_behind n m c s k : n <= m -> m <= k -> m <= String.length c ->
  String.get k (overlay n (substring n (m - n) c) s) = String.get k s.
Proof.
  intros H0 H1 H2. unfold overlay. rewrite get_app_right by (rewrite begin_length; lia). rewrite begin_length.
  rewrite get_app_right by (rewrite substring_len; lia). rewrite get_drop, substring_len by lia. f_equal. lia.
Qed.

Lemma get_happens_ind es f (P : getters -> Prop) : P (get_started es f) -> (forall y z, getters_step es y z -> P y -> P z) ->
  forall x, get_happens es f x -> P x.
Proof.
  intros H0 HS x H. unfold get_happens in H. revert H0. induction H as [|y z w Hyz _ IH]; [done|]. intros H0. apply IH. by eapply HS.
Qed.

(** A step by cases, with the goroutine and the files apart. *)
Lemma get_step_cases e a f b f' : get_step e (a, f) (b, f') ->
  (a = GLook /\ fs_exists f (ge_dest e) = true /\ b = GEnd {| d_path := Some (ge_dest e); d_new := false; d_wanted := ge_wanted e |} false /\ f' = f) \/
  (a = GLook /\ fs_exists f (ge_dest e) = false /\ b = GAsk /\ f' = f) \/
  (a = GAsk /\ ge_reply e = NoConnection /\ b = GEnd {| d_path := None; d_new := false; d_wanted := ge_wanted e |} true /\ f' = f) \/
  (a = GAsk /\ (exists k, ge_reply e = BadStatus k) /\ b = GEnd {| d_path := None; d_new := false; d_wanted := ge_wanted e |} false /\ f' = f) \/
  (exists c ok, a = GAsk /\ ge_reply e = Body c ok /\ b = GMake c ok /\ f' = f) \/
  (exists c ok, a = GMake c ok /\ fs_dir_exists f (removelast (ge_dest e)) = true /\ fs_dir_exists f (ge_dest e) = false /\
     b = GCopy 0 c ok /\ f' = write_file (ge_dest e) "" f) \/
  (exists c ok, a = GMake c ok /\ (fs_dir_exists f (removelast (ge_dest e)) = false \/ fs_dir_exists f (ge_dest e) = true) /\
     b = GEnd {| d_path := None; d_new := false; d_wanted := empty_wanted |} true /\ f' = f) \/
  (exists n m c ok s, a = GCopy n c ok /\ n < m <= String.length c /\ f (ge_dest e) = Some (File s) /\ b = GCopy m c ok /\
     f' = write_file (ge_dest e) (overlay n (substring n (m - n) c) s) f) \/
  (exists c ok, a = GCopy (String.length c) c ok /\ b = copied (ge_wanted e) (ge_dest e) ok /\ f' = f).
Proof.
  intros H. inversion H; subst.
  - left. done.
  - right; left. done.
  - do 2 right; left. done.
  - do 3 right; left. by eauto.
  - do 4 right; left. eexists _, _. done.
  - do 5 right; left. eexists _, _. done.
  - do 6 right; left. eexists _, _. done.
  - do 7 right; left. eexists _, _, _, _, _. done.
  - do 8 right. eexists _, _. done.
Qed.

(** What the server has said, and how far the copy is. *)
Definition said (e : getter) (a : getting) : Prop :=
  match a with
  | GMake c ok => ge_reply e = Body c ok
  | GCopy n c ok => ge_reply e = Body c ok /\ n <= String.length c
  | _ => True
  end.

Lemma said_step e a f b f' : get_step e (a, f) (b, f') -> said e a -> said e b.
Proof.
  intros H%get_step_cases Ha.
  destruct H as [(-> & _ & -> & _)|[(-> & _ & -> & _)|[(-> & _ & -> & _)|[(-> & _ & -> & _)|[(c & ok & -> & E & -> & _)|
    [(c & ok & -> & _ & _ & -> & _)|[(c & ok & -> & _ & -> & _)|[(n & m & c & ok & s & -> & H & _ & -> & _)|(c & ok & -> & -> & _)]]]]]]]];
    cbn in *; try done.
  - split; [done|lia].
  - split; [tauto|lia].
  - by destruct ok.
Qed.

Lemma all_said es f x : get_happens es f x -> length (gs_each x) = length es /\
  forall i e a, es !! i = Some e -> gs_each x !! i = Some a -> said e a.
Proof.
  revert x. apply get_happens_ind.
  - split; [cbn; by rewrite map_length|]. intros i e a Hi Ha. cbn [get_started gs_each] in Ha. rewrite list_lookup_fmap, Hi in Ha. by injection Ha as <-.
  - intros y z Hs [L A]. inversion Hs as [y' i e a b f' Hi Ha Hst]; subst. cbn [gs_each]. split; [by rewrite insert_length|].
    intros j e' a' Hj Ha'. destruct (decide (j = i)) as [-> |Hji].
    + assert (e' = e) as -> by congruence. rewrite list_lookup_insert in Ha' by (by eapply lookup_lt_Some). injection Ha' as <-.
      eapply said_step; [exact Hst|]. by eapply A.
    + rewrite list_lookup_insert_ne in Ha' by done. by eapply A.
Qed.

(** What is known about one download alone on its file, from the files [f0]. *)
Definition got_alone (e : getter) (f0 : fsys) (a : getting) (f : fsys) : Prop :=
  match a with
  | GLook => f (ge_dest e) = f0 (ge_dest e)
  | GAsk => f (ge_dest e) = None /\ f0 (ge_dest e) = None
  | GMake c ok => f (ge_dest e) = None /\ f0 (ge_dest e) = None
  | GCopy n c ok => f0 (ge_dest e) = None /\ fs_dir_exists f0 (removelast (ge_dest e)) = true /\ f (ge_dest e) = Some (File (substring 0 n c))
  | GEnd d err => exists f', download_package (ge_dest e) (ge_wanted e) (ge_reply e) f0 = (d, err, f') /\ f (ge_dest e) = f' (ge_dest e)
  end.

Lemma write_same p c f : write_file p c f p = Some (File c).
Proof. unfold write_file. by rewrite bool_decide_eq_true_2. Qed.

Lemma write_other p c f q : q <> p -> write_file p c f q = f q.
Proof. intros H. unfold write_file. by rewrite bool_decide_eq_false_2. Qed.

Lemma write_dirs p c f q : fs_dir_exists f p = false -> fs_dir_exists (write_file p c f) q = fs_dir_exists f q.
Proof.
  intros H. destruct (decide (q = p)) as [-> |Hq]; unfold fs_dir_exists in *; [rewrite write_same|by rewrite write_other]. by rewrite H.
Qed.

Lemma got_step e a f b f' f0 : get_step e (a, f) (b, f') -> said e a -> (forall q, fs_dir_exists f q = fs_dir_exists f0 q) ->
  got_alone e f0 a f ->
  got_alone e f0 b f' /\ (forall q, fs_dir_exists f' q = fs_dir_exists f0 q) /\ (forall q, q <> ge_dest e -> f' q = f q).
Proof.
  intros H%get_step_cases Hs HD Ha.
  destruct H as [(-> & E & -> & ->)|[(-> & E & -> & ->)|[(-> & E & -> & ->)|[(-> & (k & E) & -> & ->)|[(c & ok & -> & E & -> & ->)|
    [(c & ok & -> & E1 & E2 & -> & ->)|[(c & ok & -> & E & -> & ->)|[(n & m & c & ok & s & -> & H & E & -> & ->)|(c & ok & -> & -> & ->)]]]]]]]];
    cbn [got_alone said] in *.
  - split; [|done]. eexists. unfold download_package. unfold fs_exists in *. rewrite <- Ha at 1. by destruct (f (ge_dest e)).
  - split; [|done]. unfold fs_exists in E. rewrite <- Ha. by destruct (f (ge_dest e)).
  - split; [|done]. destruct Ha as [Ha Ha0]. eexists. unfold download_package, fs_exists. rewrite Ha0, E. split; [done|]. congruence.
  - split; [|done]. destruct Ha as [Ha Ha0]. eexists. unfold download_package, fs_exists. rewrite Ha0, E. split; [done|]. congruence.
  - done.
  - destruct Ha as [Ha Ha0]. split; [|split].
    + rewrite write_same, <- HD. by destruct c.
    + intros q. rewrite write_dirs; [apply HD|done].
    + intros q Hq. by apply write_other.
  - split; [|done]. destruct Ha as [Ha Ha0]. eexists. unfold download_package, fs_exists. rewrite Ha0, Hs.
    destruct E as [E|E]; [|unfold fs_dir_exists in E; by rewrite Ha in E]. rewrite <- HD, E. split; [done|]. congruence.
  - destruct Ha as (Ha0 & Hd & Ha). rewrite Ha in E. injection E as <-. split; [|split].
    + rewrite write_same. split; [done|]. split; [done|]. rewrite overlay_more by lia. done.
    + intros q. rewrite write_dirs; [apply HD|]. unfold fs_dir_exists. by rewrite Ha.
    + intros q Hq. by apply write_other.
  - split; [|done]. destruct Ha as (Ha0 & Hd & Ha), Hs as [Hs _]. unfold copied.
    destruct ok; cbn [got_alone]; eexists; unfold download_package, fs_exists; rewrite Ha0, Hs, Hd; (split; [done|]);
      rewrite Ha, substring_whole_text; cbn; by rewrite bool_decide_eq_true_2.
Qed.

Lemma all_got es f0 x : NoDup (map ge_dest es) -> get_happens es f0 x ->
  (forall q, fs_dir_exists (gs_fs x) q = fs_dir_exists f0 q) /\
  (forall i e a, es !! i = Some e -> gs_each x !! i = Some a -> got_alone e f0 a (gs_fs x)) /\
  (forall q, q ∉ map ge_dest es -> gs_fs x q = f0 q).
Proof.
  intros Hnd H. assert (forall i e a, es !! i = Some e -> gs_each x !! i = Some a -> said e a) as _ by by apply (all_said _ _ _ H).
  cut ((forall i e a, es !! i = Some e -> gs_each x !! i = Some a -> said e a) /\
    (forall q, fs_dir_exists (gs_fs x) q = fs_dir_exists f0 q) /\
    (forall i e a, es !! i = Some e -> gs_each x !! i = Some a -> got_alone e f0 a (gs_fs x)) /\
    (forall q, q ∉ map ge_dest es -> gs_fs x q = f0 q)); [tauto|].
  revert x H. apply get_happens_ind.
  - assert (forall i e a, es !! i = Some e -> gs_each (get_started es f0) !! i = Some a -> a = GLook) as K.
    { intros i e a Hi Ha. cbn [get_started gs_each] in Ha. rewrite list_lookup_fmap, Hi in Ha. by injection Ha as <-. }
    split; [intros i e a Hi Ha; by rewrite (K i e a Hi Ha)|]. split; [done|]. split; [intros i e a Hi Ha; by rewrite (K i e a Hi Ha)|done].
  - intros y z Hs (S & D & A & F). inversion Hs as [y' i e a b f' Hi Ha Hst]; subst. cbn [gs_fs gs_each].
    destruct (got_step _ _ _ _ _ f0 Hst (S _ _ _ Hi Ha) D (A _ _ _ Hi Ha)) as (A' & D' & F').
    split; [|split; [done|split]].
    + intros j e' a' Hj Ha'. destruct (decide (j = i)) as [-> |Hji].
      * assert (e' = e) as -> by congruence. rewrite list_lookup_insert in Ha' by (by eapply lookup_lt_Some). injection Ha' as <-.
        eapply said_step; [exact Hst|]. by eapply S.
      * rewrite list_lookup_insert_ne in Ha' by done. by eapply S.
    + intros j e' a' Hj Ha'. destruct (decide (j = i)) as [-> |Hji].
      * assert (e' = e) as -> by congruence. rewrite list_lookup_insert in Ha' by (by eapply lookup_lt_Some). by injection Ha' as <-.
      * rewrite list_lookup_insert_ne in Ha' by done.
        assert (ge_dest e' <> ge_dest e) as Hne.
        { intros E. apply Hji. eapply (NoDup_lookup (map ge_dest es)); [done|..]; rewrite list_lookup_fmap; [by rewrite Hj|]. rewrite Hi. cbn. by rewrite E. }
        specialize (A j e' a' Hj Ha'). destruct a'; cbn [got_alone] in *; rewrite F' by done; done.
    + intros q Hq. rewrite F'; [by apply F|]. intros ->. apply Hq. apply elem_of_list_fmap. exists e. split; [done|]. by eapply elem_of_list_lookup_2.
Qed.

(** A file that several downloads with the same body write: somebody has written all that
    he counts, or the file is whole. *)
Definition shared (es : list getter) (p : list string) (c : string) (x : getters) : Prop :=
  (gs_fs x p = None /\ forall i e a, es !! i = Some e -> ge_dest e = p -> gs_each x !! i = Some a ->
     match a with GCopy _ _ _ => False | GEnd d _ => d_path d = None | _ => True end) \/
  (exists s, gs_fs x p = Some (File s) /\ String.length s <= String.length c /\
     (s = c \/ exists i e n ok, es !! i = Some e /\ ge_dest e = p /\ gs_each x !! i = Some (GCopy n c ok) /\
        forall k, k < n -> String.get k s = String.get k c)).

Lemma shared_step es p c y z : same_body es p c -> (forall i e a, es !! i = Some e -> gs_each y !! i = Some a -> said e a) ->
  getters_step es y z -> shared es p c y -> shared es p c z.
Proof.
  intros Hb HS Hs H. inversion Hs as [y' i e a b f' Hi Ha Hst]; subst. pose proof (HS _ _ _ Hi Ha) as Hsaid.
  assert (i < length (gs_each y)) as Hlt by (by eapply lookup_lt_Some).
  (* another file *)
  destruct (decide (ge_dest e = p)) as [Hp|Hp].
  2:{ assert (f' p = gs_fs y p) as E.
      { apply get_step_cases in Hst.
        destruct Hst as [(_ & _ & _ & ->)|[(_ & _ & _ & ->)|[(_ & _ & _ & ->)|[(_ & _ & _ & ->)|[(c1 & ok & _ & _ & _ & ->)|
          [(c1 & ok & _ & _ & _ & _ & ->)|[(c1 & ok & _ & _ & _ & ->)|[(n & m & c1 & ok & s & _ & _ & _ & _ & ->)|(c1 & ok & _ & _ & ->)]]]]]]]]; try done;
          by apply write_other. }
      destruct H as [[H1 H2]|(s & H1 & H2 & H3)]; [left|right].
      - cbn [gs_fs gs_each]. split; [congruence|]. intros j e' a' Hj Hd Ha'. destruct (decide (j = i)) as [-> |Hji]; [congruence|].
        rewrite list_lookup_insert_ne in Ha' by done. by eapply H2.
      - exists s. cbn [gs_fs gs_each]. split; [congruence|]. split; [done|]. destruct H3 as [H3|(j & e' & n & ok & Hj & Hd & Ha' & Hk)]; [by left|]. right.
        exists j, e', n, ok. split; [done|]. split; [done|]. split; [|done]. rewrite list_lookup_insert_ne; [done|]. intros <-. congruence. }
  assert (e ∈ es) as Hin by (by eapply elem_of_list_lookup_2).
  (* the files stay and the goroutine was not writing *)
  assert ((forall n c' ok, a <> GCopy n c' ok) -> f' = gs_fs y ->
    (gs_fs y p = None -> match b with GCopy _ _ _ => False | GEnd d _ => d_path d = None | _ => True end) ->
    shared es p c (Getters f' (<[i := b]> (gs_each y)))) as K.
  { intros Hn -> Hb'. destruct H as [[H1 H2]|(s & H1 & H2 & H3)]; [left|right].
    - cbn [gs_fs gs_each]. split; [done|]. intros j e' a' Hj Hd Ha'. destruct (decide (j = i)) as [-> |Hji].
      + rewrite list_lookup_insert in Ha' by done. injection Ha' as <-. by apply Hb'.
      + rewrite list_lookup_insert_ne in Ha' by done. by eapply H2.
    - exists s. cbn [gs_fs gs_each]. split; [done|]. split; [done|]. destruct H3 as [H3|(j & e' & n & ok & Hj & Hd & Ha' & Hk)]; [by left|]. right.
      exists j, e', n, ok. split; [done|]. split; [done|]. split; [|done]. rewrite list_lookup_insert_ne; [done|]. intros <-.
      rewrite Ha in Ha'. injection Ha' as ->. by destruct (Hn n c ok). }
  apply get_step_cases in Hst.
  destruct Hst as [(-> & E & -> & ->)|[(-> & E & -> & ->)|[(-> & E & -> & ->)|[(-> & (k & E) & -> & ->)|[(c' & ok & -> & E & -> & ->)|
    [(c' & ok & -> & E1 & E2 & -> & ->)|[(c' & ok & -> & E & -> & ->)|[(n & m & c' & ok & s & -> & Hm & E & -> & ->)|(c' & ok & -> & -> & ->)]]]]]]]].
  - apply K; [done|done|]. intros E'. unfold fs_exists in E. by rewrite Hp, E' in E.
  - by apply K.
  - by apply K.
  - by apply K.
  - by apply K.
  - cbn [said] in Hsaid. destruct (Hb _ _ _ Hin Hp Hsaid) as [-> ->]. right. exists "". cbn [gs_fs gs_each]. rewrite Hp, write_same.
    split; [done|]. split; [cbn; lia|]. right. exists i, e, 0, true. split; [done|]. split; [done|]. split; [by apply list_lookup_insert|]. intros k Hk. lia.
  - by apply K.
  - cbn [said] in Hsaid. destruct Hsaid as [Hr Hn]. destruct (Hb _ _ _ Hin Hp Hr) as [-> ->]. rewrite Hp in *.
    destruct H as [[H1 _]|(s' & H1 & H2 & H3)]; [congruence|]. assert (s' = s) as -> by congruence. right.
    exists (overlay n (substring n (m - n) c) s). cbn [gs_fs gs_each]. rewrite write_same. split; [done|].
    assert (forall k, String.length c <= k -> String.get k (overlay n (substring n (m - n) c) s) = None) as Hlong.
    { intros k Hk. rewrite overlay_behind by lia. apply get_none. lia. }
    split; [by apply get_none, Hlong|]. destruct H3 as [-> |(j & e' & n' & ok & Hj & Hd & Ha' & Hk)].
    + left. apply get_correct. intros k. destruct (decide (k < n)); [apply overlay_before; lia|].
      destruct (decide (k < m)); [apply overlay_in; lia|]. apply overlay_behind; lia.
    + right. destruct (decide (j = i)) as [-> |Hji].
      * rewrite Ha in Ha'. injection Ha' as <- <-. exists i, e, m, true. split; [done|]. split; [done|]. split; [by apply list_lookup_insert|].
        intros k Hkm. destruct (decide (k < n)) as [Hkn|Hkn]; [|apply overlay_in; lia].
        rewrite overlay_before; [by apply Hk|done|]. destruct (decide (k < String.length s)) as [?|Hge]; [done|].
        exfalso. assert (String.get k s = None) as E1 by (apply get_none; lia). rewrite Hk in E1 by done. apply get_none in E1. lia.
      * exists j, e', n', ok. split; [done|]. split; [done|]. split; [by rewrite list_lookup_insert_ne|].
        assert (n' <= String.length c) as Hn' by (by destruct (HS _ _ _ Hj Ha')).
        intros k Hkn'. destruct (decide (n <= k < m)) as [Hin1|Hout]; [apply overlay_in; lia|].
        destruct (decide (k < n)) as [Hkn|Hkn]; [|rewrite overlay_behind by lia; by apply Hk].
        rewrite overlay_before; [by apply Hk|done|]. destruct (decide (k < String.length s)) as [?|Hge]; [done|].
        exfalso. assert (String.get k s = None) as E1 by (apply get_none; lia). rewrite Hk in E1 by done. apply get_none in E1. lia.
  - cbn [said] in Hsaid. destruct Hsaid as [Hr _]. destruct (Hb _ _ _ Hin Hp Hr) as [-> ->].
    destruct H as [[H1 H2]|(s & H1 & H2 & H3)].
    + exfalso. by apply (H2 _ _ _ Hi Hp Ha).
    + right. exists s. cbn [gs_fs gs_each]. split; [done|]. split; [done|]. destruct H3 as [H3|(j & e' & n' & ok & Hj & Hd & Ha' & Hk)]; [by left|].
      destruct (decide (j = i)) as [-> |Hji].
      * left. rewrite Ha in Ha'. injection Ha' as <- <-. apply get_correct. intros k.
        destruct (decide (k < String.length c)) as [Hkc|Hkc]; [by apply Hk|].
        assert (String.get k c = None) as -> by (apply get_none; lia). apply get_none. lia.
      * right. exists j, e', n', ok. split; [done|]. split; [done|]. split; [by rewrite list_lookup_insert_ne|done].
Qed.

Lemma all_shared es p c f0 x : same_body es p c -> f0 p = None \/ f0 p = Some (File c) -> get_happens es f0 x -> shared es p c x.
Proof.
  intros Hb H0 H.
  cut ((forall i e a, es !! i = Some e -> gs_each x !! i = Some a -> said e a) /\ shared es p c x); [tauto|].
  revert x H. apply get_happens_ind.
  - assert (forall i e a, es !! i = Some e -> gs_each (get_started es f0) !! i = Some a -> a = GLook) as K.
    { intros i e a Hi Ha. cbn [get_started gs_each] in Ha. rewrite list_lookup_fmap, Hi in Ha. by injection Ha as <-. }
    split; [intros i e a Hi Ha; by rewrite (K i e a Hi Ha)|]. destruct H0 as [H0|H0]; [left|right].
    + split; [done|]. intros i e a Hi _ Ha. by rewrite (K i e a Hi Ha).
    + exists c. split; [done|]. split; [done|]. by left.
  - intros y z Hs [S H]. split; [|by eapply shared_step]. inversion Hs as [y' i e a b f' Hi Ha Hst]; subst. cbn [gs_each].
    intros j e' a' Hj Ha'. destruct (decide (j = i)) as [-> |Hji].
    + assert (e' = e) as -> by congruence. rewrite list_lookup_insert in Ha' by (by eapply lookup_lt_Some). injection Ha' as <-.
      eapply said_step; [exact Hst|]. by eapply S.
    + rewrite list_lookup_insert_ne in Ha' by done. by eapply S.
Qed.

(** The file that is being written is there. *)
Lemma copying es f0 x : get_happens es f0 x -> forall i e n c ok, es !! i = Some e -> gs_each x !! i = Some (GCopy n c ok) ->
  exists s, gs_fs x (ge_dest e) = Some (File s).
Proof.
  revert x. apply (get_happens_ind es f0 (fun x => forall i e n c ok, es !! i = Some e -> gs_each x !! i = Some (GCopy n c ok) ->
    exists s, gs_fs x (ge_dest e) = Some (File s))).
  - intros i e n c ok Hi Ha. cbn [get_started gs_each] in Ha. rewrite list_lookup_fmap, Hi in Ha. done.
  - intros y z Hs A. inversion Hs as [y' i e a b f' Hi Ha Hst]; subst. cbn [gs_fs gs_each].
    assert (forall q s, gs_fs y q = Some (File s) -> exists s', f' q = Some (File s')) as Hk.
    { intros q s E. apply get_step_cases in Hst.
      destruct Hst as [(_ & _ & _ & ->)|[(_ & _ & _ & ->)|[(_ & _ & _ & ->)|[(_ & _ & _ & ->)|[(c1 & ok & _ & _ & _ & ->)|
        [(c1 & ok & _ & _ & _ & _ & ->)|[(c1 & ok & _ & _ & _ & ->)|[(n & m & c1 & ok & s1 & _ & _ & _ & _ & ->)|(c1 & ok & _ & _ & ->)]]]]]]]]; eauto;
        (destruct (decide (q = ge_dest e)) as [-> |Hq]; [rewrite write_same; eauto|rewrite write_other by done; eauto]). }
    intros j e' n c ok Hj Ha'. destruct (decide (j = i)) as [-> |Hji].
    + assert (e' = e) as -> by congruence. rewrite list_lookup_insert in Ha' by (by eapply lookup_lt_Some). injection Ha' as ->.
      apply get_step_cases in Hst.
      destruct Hst as [(_ & _ & ? & _)|[(_ & _ & ? & _)|[(_ & _ & ? & _)|[(_ & _ & ? & _)|[(c1 & ok1 & _ & _ & ? & _)|
        [(c1 & ok1 & _ & _ & _ & _ & ->)|[(c1 & ok1 & _ & _ & ? & _)|[(n1 & m & c1 & ok1 & s1 & _ & _ & _ & _ & ->)|(c1 & ok1 & _ & E & _)]]]]]]]]; try done.
      * rewrite write_same. eauto.
      * rewrite write_same. eauto.
      * by destruct ok1.
    + rewrite list_lookup_insert_ne in Ha' by done. destruct (A _ _ _ _ _ Hj Ha') as [s Hs']. by eapply Hk.
Qed.
