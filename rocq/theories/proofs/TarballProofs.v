(** Packages given as tarballs. *)
From stdpp Require Import strings list gmap sorting.
From Coq Require Import Ascii ZArith Lia.
From Verif.model Require Import GoStr Version Desc Nexus RepoDb Fs Extract Install Tarballs.
From Verif.spec Require Import StrSpec LibSpec PlanSpec ExtractSpec InstallSpec TarballSpec.
From Verif.proofs Require Import GoStrLemmas FsProofs ExtractProofs InstallProofs ApartProofs.

Local Open Scope string_scope.
Local Arguments Ascii.eqb : simpl never.
Local Arguments char_eqb : simpl never.

Section unpack.

Context (u : unpacking) (cache : list string).
Hypothesis Hsums : sums (u_md5 u).

Lemma name_called t : called (u_md5 u) t (tarball_name u t).
Proof.
  unfold called, tarball_name. destruct (substring_all 16 (u_md5 u (tb_content t))) as (r & E & El); [rewrite Hsums; lia|].
  split; [done|]. by exists r.
Qed.

Lemma called_name t h : called (u_md5 u) t h -> h = tarball_name u t.
Proof.
  intros [Hl (r & E)]. destruct (name_called t) as [Hl' (r' & E')]. rewrite E in E'.
  assert (String.length r = String.length r') as Hr.
  { apply (f_equal String.length) in E'. rewrite !UrlProofs.append_length in E'. lia. }
  by apply same_length_app in E' as [-> _].
Qed.

(** The parts of the file system below the directory of a tarball agree. *)
Definition agree (h : string) (f g : fsys) : Prop := forall s, f (cache ++ h :: s)%list = g (cache ++ h :: s)%list.

Lemma holds_agree h n d f g : agree h f g -> holds (u_parse u) cache f h n d -> holds (u_parse u) cache g h n d.
Proof.
  intros Ha (H1 & H2 & c & H3 & H4). split; [by rewrite <- (Ha [n])|]. split.
  - intros n'. rewrite <- (Ha [n']). apply H2.
  - exists c. split; [|done]. by rewrite <- (Ha [n; "DESCRIPTION"]).
Qed.

(** Unpacking leaves the directories of other tarballs alone, and those that are there. *)
Lemma untar_agree a h h' f f' ok : untar a (cache ++ [h'])%list f = (f', ok) ->
  h <> h' \/ f (cache ++ [h])%list = Some Dir -> agree h f' f.
Proof.
  unfold untar. destruct (fs_dir_exists f (cache ++ [h'])%list) eqn:E.
  { by intros [= <- <-] _. }
  intros H Hh s. destruct (decide (h = h')) as [->|Hn].
  { destruct Hh as [Hh|Hh]; [done|]. unfold fs_dir_exists in E. by rewrite Hh in E. }
  destruct (extract_confined _ _ _ _ _ H (cache ++ h :: s)%list) as [Hq|((x & Hx) & _)].
  - intros [x Hx]. rewrite <- app_assoc in Hx. apply app_inv_head in Hx. cbn in Hx. congruence.
  - done.
  - exfalso. rewrite <- app_assoc in Hx. apply app_inv_head in Hx. cbn in Hx. congruence.
Qed.

Lemma first_dir l dir f p : names_of f dir l -> package_dir l dir f = Some p -> exists n, p = (dir ++ [n])%list /\ f p = Some Dir /\
  forall n', f (dir ++ [n'])%list = Some Dir -> byte_le n n'.
Proof.
  intros [Hs Hi]. unfold package_dir.
  destruct (List.filter _ l) as [|n k] eqn:E; [done|]. intros [= <-]. exists n. split; [done|].
  assert (n ∈ List.filter (fun n => fs_dir_exists f (dir ++ [n])%list) l) as Hn by (rewrite E; by left).
  apply elem_of_list_In, filter_In in Hn as [_ Hn]. split.
  { unfold fs_dir_exists in Hn. by destruct (f (dir ++ [n])%list) as [[]|]. }
  intros n' Hn'. assert (n' ∈ List.filter (fun n => fs_dir_exists f (dir ++ [n])%list) l) as Hn2.
  { apply elem_of_list_In, filter_In. split; [apply elem_of_list_In, Hi; by rewrite Hn'|]. unfold fs_dir_exists. by rewrite Hn'. }
  clear Hi Hn Hn'.
  assert (StronglySorted byte_le (n :: k)) as Hsk.
  { rewrite <- E. clear -Hs. induction Hs as [|x l Hl IH Hx]; [constructor|]. cbn [List.filter].
    destruct (fs_dir_exists _ _); [|done]. constructor; [done|]. apply Forall_forall. intros y Hy.
    apply elem_of_list_In, filter_In in Hy as [Hy _]. rewrite Forall_forall in Hx. by apply Hx, elem_of_list_In. }
  rewrite E in Hn2. apply elem_of_cons in Hn2 as [-> |Hn2].
  - clear. induction n as [|c n IH]; cbn; auto.
  - inversion Hsk as [|? ? _ HF]; subst. rewrite Forall_forall in HF. by apply HF.
Qed.

Lemma one_holds t f f1 d a : names_of f1 (cache ++ [tarball_name u t])%list (tb_names t) -> unpack_one u cache t f = Some (f1, d, a) ->
  exists n, ad_path a = (cache ++ [tarball_name u t; n])%list /\ ad_origin a = tb_path t /\
    holds (u_parse u) cache f1 (tarball_name u t) n d.
Proof.
  intros Hl. unfold unpack_one. destruct (untar _ _ f) as [g [|]] eqn:E; [|done].
  destruct (package_dir _ _ g) as [p|] eqn:Ep; [|done].
  destruct (g (p ++ ["DESCRIPTION"])%list) as [[c|]|] eqn:Ef; [|done|done].
  destruct (u_parse u c) as [d'|] eqn:Ec; [|done]. intros [= <- <- <-].
  apply (first_dir _ _ _ _ Hl) in Ep as (n & -> & H1 & H2). rewrite <- !app_assoc in *. cbn [app] in *. exists n. split; [done|]. split; [done|].
  split; [done|]. split; [|by exists c]. intros n' Hn'. apply H2. by rewrite <- app_assoc.
Qed.

Lemma one_untar t f f1 d a : unpack_one u cache t f = Some (f1, d, a) ->
  untar (tb_archive t) (cache ++ [tarball_name u t])%list f = (f1, true).
Proof.
  unfold unpack_one. destruct (untar _ _ f) as [g [|]] eqn:E; [|done]. intros H.
  destruct (package_dir _ _ g); [|done]. destruct (g _) as [[c|]|]; [|done|done]. destruct (u_parse u c); [|done]. congruence.
Qed.

Lemma untar_dir a dir f f' : untar a dir f = (f', true) -> f' dir = Some Dir.
Proof.
  unfold untar. destruct (fs_dir_exists f dir) eqn:E.
  - intros [= <-]. unfold fs_dir_exists in E. by destruct (f dir) as [[]|].
  - intros H. by apply extract_complete in H as [H _].
Qed.

Lemma loop_agree ts : forall ds m f f' ds' m' h, unpack_loop u cache ts ds m f = Some (f', ds', m') ->
  f (cache ++ [h])%list = Some Dir -> agree h f' f /\ f' (cache ++ [h])%list = Some Dir.
Proof.
  induction ts as [|t ts IH]; intros ds m f f' ds' m' h; cbn [unpack_loop].
  - by intros [= <- <- <-] H.
  - destruct (unpack_one u cache t f) as [[[f1 d] a]|] eqn:E; [|done]. intros H Hd.
    apply one_untar in E. pose proof (untar_agree _ h _ _ _ _ E (or_intror Hd)) as Ha.
    destruct (IH _ _ _ _ _ _ h H) as [Ha' Hd']; [by rewrite (Ha [])|].
    split; [|done]. intros s. by rewrite Ha', Ha.
Qed.

(** What is unpacked, in order; the map is filled from left to right. *)
Inductive recorded (g : fsys) : list tarball -> list desc -> list (string * additional) -> Prop :=
| re_nil : recorded g [] [] []
| re_cons t ts d ds a l n : holds (u_parse u) cache g (tarball_name u t) n d ->
    ad_path a = (cache ++ [tarball_name u t; n])%list -> ad_origin a = tb_path t ->
    recorded g ts ds l -> recorded g (t :: ts) (d :: ds) ((d_package d, a) :: l).

Lemma loop_recorded ts : forall ds m f f' ds' m', names_read (u_md5 u) cache f' ts -> unpack_loop u cache ts ds m f = Some (f', ds', m') ->
  exists es l, ds' = (ds ++ es)%list /\ recorded f' ts es l /\ m' = fold_left (fun m kv => <[kv.1 := kv.2]> m) l m.
Proof.
  induction ts as [|t ts IH]; intros ds m f f' ds' m'; cbn [unpack_loop].
  - intros _ [= <- <- <-]. exists [], []. rewrite app_nil_r. split; [done|]. split; [constructor|done].
  - destruct (unpack_one u cache t f) as [[[f1 d] a]|] eqn:E; [|done]. intros Hl H.
    destruct (loop_agree _ _ _ _ _ _ _ (tarball_name u t) H) as [Ha _]; [by apply one_untar, untar_dir in E|].
    destruct (one_holds t f f1 d a) as (n & P1 & P2 & P3); [|done|].
    { destruct (Hl t _ ltac:(by left) (name_called t)) as [L1 L2]. split; [done|]. intros k. rewrite L2, <- !app_assoc. cbn.
      by rewrite (Ha [k]). }
    destruct (IH _ _ _ _ _ _ ltac:(intros t' h' Ht'; apply Hl; by right) H) as (es & l & -> & Hr & ->).
    exists (d :: es), ((d_package d, a) :: l). split; [by rewrite <- app_assoc|]. split; [|done].
    econstructor; [|done|done|done].
    eapply holds_agree; [|done]. intros s. by rewrite Ha.
Qed.

Lemma fold_insert_last (l : list (string * additional)) : forall (m : gmap string additional) p a,
  fold_left (fun m kv => <[kv.1 := kv.2]> m) l m !! p = Some a <->
  (exists x y, l = (x ++ (p, a) :: y)%list /\ ~ p ∈ y.*1) \/ (~ p ∈ l.*1 /\ m !! p = Some a).
Proof.
  induction l as [|[k v] l IH]; intros m p a; cbn [fold_left].
  - split; [intros H; right; split; [apply not_elem_of_nil|done]|]. intros [(x & y & H & _)|[_ H]]; [|done].
    by apply app_cons_not_nil in H.
  - rewrite IH. cbn [fst snd fmap list_fmap]. split.
    + intros [(x & y & -> & Hn)|[Hn Hm]]; [left; by exists ((k, v) :: x), y|].
      destruct (decide (k = p)) as [->|Hk].
      * rewrite lookup_insert in Hm. injection Hm as ->. left. by exists [], l.
      * rewrite lookup_insert_ne in Hm by done. right. split; [|done]. rewrite elem_of_cons. intros [->|?]; done.
    + intros [(x & y & E & Hn)|[Hn Hm]].
      * destruct x as [|[k' v'] x]; cbn in E.
        -- injection E as -> -> ->. right. split; [done|]. by rewrite lookup_insert.
        -- injection E as -> -> ->. left. by exists x, y.
      * apply not_elem_of_cons in Hn as [Hk Hn]. right. split; [done|]. by rewrite lookup_insert_ne.
Qed.

Lemma holds_unique f h n d n' d' : holds (u_parse u) cache f h n d -> holds (u_parse u) cache f h n' d' -> n = n' /\ d = d'.
Proof.
  intros (H1 & H2 & c & H3 & H4) (H1' & H2' & c' & H3' & H4').
  assert (n = n') as <-.
  { pose proof (H2 _ H1') as A. pose proof (H2' _ H1) as B. clear -A B. revert n' A B.
    induction n as [|x n IH]; intros [|y n'] A B; cbn in *; try done.
    destruct A as [A|[-> A]]; destruct B as [B|[E B]]; try lia; [subst; lia|]. f_equal. by apply IH. }
  split; [done|]. rewrite H3 in H3'. injection H3' as <-. congruence.
Qed.

Lemma recorded_each g ts ds l : recorded g ts ds l ->
  Forall2 (fun t d => exists h n, called (u_md5 u) t h /\ holds (u_parse u) cache g h n d) ts ds.
Proof.
  induction 1 as [|t ts d ds a l n H1 H2 H3 _ IH]; constructor; [|done].
  exists (tarball_name u t), n. split; [apply name_called|done].
Qed.

Lemma recorded_in g ts ds l x p a y : recorded g ts ds l -> l = (x ++ (p, a) :: y)%list ->
  exists tx t ty h n d, ts = (tx ++ t :: ty)%list /\ called (u_md5 u) t h /\ holds (u_parse u) cache g h n d /\
    d_package d = p /\ ad_path a = (cache ++ [h; n])%list /\ ad_origin a = tb_path t /\
    (forall q, q ∈ y.*1 <-> exists t' h' n' d', t' ∈ ty /\ called (u_md5 u) t' h' /\
       holds (u_parse u) cache g h' n' d' /\ d_package d' = q).
Proof.
  intros Hr. revert x. induction Hr as [|t ts d ds a' l n H1 H2 H3 Hr IH]; intros x E.
  { by apply app_cons_not_nil in E. }
  destruct x as [|[k v] x]; cbn in E.
  - injection E as <- -> <-. exists [], t, ts, (tarball_name u t), n, d.
    split; [done|]. split; [apply name_called|]. split; [done|]. split; [done|]. split; [done|]. split; [done|].
    clear -Hr Hsums. intros q. induction Hr as [|t ts d ds a l n H1 H2 H3 Hr IH].
    + split; [intros H; by apply elem_of_nil in H|]. intros (t' & ? & ? & ? & H & _). by apply elem_of_nil in H.
    + cbn [fmap list_fmap fst]. rewrite elem_of_cons, IH. split.
      * intros [-> |(t' & h' & n' & d' & A & B)].
        -- exists t, (tarball_name u t), n, d. split; [by left|]. split; [apply name_called|]. done.
        -- exists t', h', n', d'. split; [by right|done].
      * intros (t' & h' & n' & d' & A & B & C & <-). apply elem_of_cons in A as [-> |A].
        -- left. apply called_name in B as ->. by destruct (holds_unique _ _ _ _ _ _ C H1) as [_ ->].
        -- right. by exists t', h', n', d'.
  - injection E as _ _ El. destruct (IH x El) as (tx & t1 & ty & h & n1 & d1 & -> & K).
    exists (t :: tx), t1, ty, h, n1, d1. by split.
Qed.

Lemma recorded_split g tx t ty : forall ds l, recorded g (tx ++ t :: ty)%list ds l -> exists x n d a y,
  l = (x ++ (d_package d, a) :: y)%list /\ length x = length tx /\ holds (u_parse u) cache g (tarball_name u t) n d /\
  ad_path a = (cache ++ [tarball_name u t; n])%list /\ ad_origin a = tb_path t /\ exists ds', recorded g ty ds' y.
Proof.
  induction tx as [|t0 tx IH]; intros ds l H; inversion H; subst.
  - eexists [], _, _, _, _. split; [done|]. split; [done|]. split; [done|]. split; [done|]. split; [done|]. by eexists.
  - destruct (IH _ _ ltac:(eassumption)) as (x & n' & d' & a' & y & -> & K1 & K).
    eexists (_ :: x), n', d', a', y. split; [done|]. split; [by cbn; f_equal|done].
Qed.

Theorem unpack_each ts f f' ds m : names_read (u_md5 u) cache f' ts -> unpack_tarballs u cache ts f = Some (f', ds, m) ->
  Forall2 (fun t d => exists h n, called (u_md5 u) t h /\ holds (u_parse u) cache f' h n d) ts ds.
Proof.
  intros Hl H. apply (loop_recorded _ _ _ _ _ _ _ Hl) in H as (es & l & -> & Hr & _). by eapply recorded_each.
Qed.

Theorem unpack_map ts f f' ds m p a : names_read (u_md5 u) cache f' ts -> unpack_tarballs u cache ts f = Some (f', ds, m) ->
  (m !! p = Some a <->
   exists tx t ty h n d, ts = (tx ++ t :: ty)%list /\ called (u_md5 u) t h /\ holds (u_parse u) cache f' h n d /\
     d_package d = p /\ a = {| ad_path := (cache ++ [h; n])%list; ad_origin := tb_path t |} /\
     forall t' h' n' d', t' ∈ ty -> called (u_md5 u) t' h' -> holds (u_parse u) cache f' h' n' d' -> d_package d' <> p).
Proof.
  intros Hl H. apply (loop_recorded _ _ _ _ _ _ _ Hl) in H as (es & l & -> & Hr & ->). rewrite fold_insert_last. split.
  - intros [(x & y & E & Hn)|[_ Hm]]; [|by rewrite lookup_empty in Hm].
    destruct (recorded_in _ _ _ _ _ _ _ _ Hr E) as (tx & t & ty & h & n & d & K1 & K2 & K3 & K4 & K5 & K6 & K7).
    exists tx, t, ty, h, n, d. split; [done|]. split; [done|]. split; [done|]. split; [done|].
    split; [destruct a; cbn in *; by subst|].
    intros t' h' n' d' A B C D. apply Hn, K7. by exists t', h', n', d'.
  - intros (tx & t & ty & h & n & d & -> & K2 & K3 & K4 & -> & K6). left.
    destruct (recorded_split _ _ _ _ _ _ Hr) as (x & n1 & d1 & a1 & y & -> & _ & R1 & R2 & R3 & ds' & R4).
    apply called_name in K2 as ->. destruct (holds_unique _ _ _ _ _ _ K3 R1) as [<- <-].
    exists x, y. split; [subst p; destruct a1; cbn in *; by subst|].
    intros Hy. apply elem_of_list_fmap in Hy as ([q b] & Eq & Hy). cbn in Eq. subst q.
    apply elem_of_list_split in Hy as (x' & y' & ->).
    destruct (recorded_in _ _ _ _ _ _ _ _ R4 eq_refl) as (tx' & t' & ty' & h' & n' & d' & -> & L2 & L3 & L4 & _).
    refine (K6 t' h' n' d' _ L2 L3 L4). apply elem_of_app. right. by left.
Qed.

(** A tarball whose directory was not there is unpacked completely. *)
Theorem unpack_fresh ts f f' ds m t h : unpack_tarballs u cache ts f = Some (f', ds, m) -> t ∈ ts ->
  called (u_md5 u) t h -> f (cache ++ [h])%list <> Some Dir ->
  (forall t', t' ∈ ts -> called (u_md5 u) t' h -> tb_archive t' = tb_archive t) ->
  complete (tb_archive t) (cache ++ [h])%list f'.
Proof.
  unfold unpack_tarballs. generalize (@nil desc) as ds0, (∅ : gmap string additional) as m0.
  revert f. induction ts as [|t0 ts IH]; intros f ds0 m0 H Hin Hc Hf Hsame; [by apply elem_of_nil in Hin|].
  cbn [unpack_loop] in H. destruct (unpack_one u cache t0 f) as [[[f1 d] a]|] eqn:E; [|done].
  apply one_untar in E. destruct (decide (tarball_name u t0 = h)) as [Eh|Eh].
  - rewrite Eh in E. pose proof (untar_dir _ _ _ _ E) as Hdir.
    destruct (loop_agree _ _ _ _ _ _ _ h H Hdir) as [Ha Hd'].
    apply untar_complete in E; [|done].
    rewrite <- (Hsame t0) by (first [by left|rewrite <- Eh; apply name_called]).
    destruct E as (E1 & E2 & E3).
    assert (forall q, f' ((cache ++ [h]) ++ q)%list = f1 ((cache ++ [h]) ++ q)%list) as Hq.
    { intros q. rewrite <- app_assoc. cbn. apply Ha. }
    split; [done|]. split.
    + intros e He. destruct (E2 e He) as (l & p & P1 & P2 & P3). exists l, p. split; [done|]. split; [done|].
      destruct (en_kind e); by rewrite ?Hq.
    + intros p c. rewrite Hq. apply E3.
  - apply elem_of_cons in Hin as [-> |Hin].
    { by rewrite (called_name _ _ Hc) in Eh. }
    apply (IH f1 _ _ H Hin Hc).
    + pose proof (untar_agree _ h _ _ _ _ E) as Ha. rewrite (Ha ltac:(left; congruence) []). done.
    + intros t' Ht'. apply Hsame. by right.
Qed.

End unpack.

(** ** Installing *)

Section install.

Context (R : rprog) (name : fsys -> list string -> string) (s : surroundings) (pkgr : string) (lib : list string).
Hypothesis Honly : r_only R name.

Lemma lock_not_name p q : r_name p -> p <> "00LOCK-" +:+ q.
Proof. intros H ->. cbn in H. destruct H as [H _]. unfold letter in H. cbv in H. lia. Qed.

Lemma snoc_in_dir (x y q : string) (s1 : list string) : in_dir (lib ++ [x])%list (lib ++ y :: s1)%list -> x = y.
Proof. intros [z E]. rewrite <- app_assoc in E. apply app_inv_head in E. cbn in E. congruence. Qed.

Lemma step_frame p a f code err f1 t q : r_name p -> (forall g, name g (ad_path a) = p) ->
  install R s (additional_request lib pkgr p a) (ad_path a) lib true (removelast (ad_path a)) f = (code, err, f1, t) ->
  f1 q <> f q ->
  in_dir (lib ++ [p])%list q \/ in_dir (lib ++ ["00LOCK-" +:+ p])%list q \/ in_dir (removelast (ad_path a)) q.
Proof.
  intros Hn Hname H Hq. apply (install_frame_one R name Honly) with (q := q) in H as (H & _); [|done|done].
  cbn [q_pkg additional_request] in H. rewrite Hname in H. naive_solver.
Qed.

Lemma installable_tail p a l : installable name lib ((p, a) :: l) -> installable name lib l.
Proof.
  intros [I1 I2 I3 I4 I5]. split.
  - intros p' a' Hp. apply I1. by right.
  - by apply NoDup_cons_1_2 in I2.
  - intros p' a' Hp. apply (I3 p'). by right.
  - intros p' a' q' b' Hp Hp'. apply I4; by right.
  - intros p' a' Hp. apply (I5 p'). by right.
Qed.

Lemma additional_frame l : forall f err f' t q, installable name lib l ->
  install_additional R s pkgr lib l f = (err, f', t) -> f' q <> f q ->
  exists p a, (p, a) ∈ l /\ (in_dir (lib ++ [p])%list q \/ in_dir (lib ++ ["00LOCK-" +:+ p])%list q \/ in_dir (removelast (ad_path a)) q).
Proof.
  induction l as [|[p a] l IH]; intros f err f' t q Hi; cbn [install_additional].
  - by intros [= <- <- <-].
  - destruct (install _ _ _ _ _ _ _ f) as [[[code e] f1] t1] eqn:E.
    destruct (install_additional R s pkgr lib l f1) as [[es f2] t2] eqn:E2. intros [= <- <- <-] Hq.
    destruct (decide (f1 q = f q)) as [Eq|Hne].
    + rewrite <- Eq in Hq. destruct (IH f1 es f2 t2 q (installable_tail _ _ _ Hi) E2 Hq) as (p' & a' & Hin & K).
      exists p', a'. split; [by right|done].
    + exists p, a. split; [by left|]. destruct (in_names _ _ _ Hi p a) as [K1 K2]; [by left|]. by eapply step_frame.
Qed.

Lemma parent_in (q : list string) : q <> [] -> in_dir (removelast q) q.
Proof. intros H. exists [List.last q ""]. by apply app_removelast_last. Qed.

Lemma in_dir_trans (a b c : list string) : in_dir a b -> in_dir b c -> in_dir a c.
Proof. intros [x ->] [y ->]. exists (x ++ y)%list. by rewrite app_assoc. Qed.

(** Two directories with something in common: one is in the other. *)
Lemma in_dir_meet (a b q : list string) : in_dir a q -> in_dir b q -> in_dir a b \/ in_dir b a.
Proof. intros [x ->] H. destruct (in_dir_cases a x b H) as [K|K]; auto. Qed.

(** The source of another tarball is not touched. *)
Lemma source_kept p a l q b f code err f1 t : installable name lib ((p, a) :: l) -> (q, b) ∈ l ->
  install R s (additional_request lib pkgr p a) (ad_path a) lib true (removelast (ad_path a)) f = (code, err, f1, t) ->
  f1 (ad_path b) = f (ad_path b).
Proof.
  intros Hi Hq H. destruct (decide (f1 (ad_path b) = f (ad_path b))) as [|Hne]; [done|exfalso].
  destruct (in_names _ _ _ Hi p a) as [K1 K2]; [by left|].
  pose proof (in_paths _ _ _ Hi q b ltac:(by right)) as Hb.
  destruct (in_library _ _ _ Hi q b ltac:(by right)) as [L1 L2].
  assert (p <> q) as Hpq.
  { intros ->. pose proof (in_distinct _ _ _ Hi) as Hnd. cbn in Hnd. apply NoDup_cons_1_1 in Hnd. apply Hnd.
    apply elem_of_list_fmap. by exists (q, b). }
  destruct (in_apart _ _ _ Hi p a q b ltac:(by left) ltac:(by right) Hpq) as [A1 A2].
  pose proof (parent_in _ Hb) as Hp.
  assert (forall x, ~ in_dir (lib ++ [x])%list (ad_path b)) as Hx.
  { intros x Hx. destruct (in_dir_meet lib (removelast (ad_path b)) (ad_path b)) as [Hm|Hm]; try done.
    destruct Hx as [z ->]. exists (x :: z). by rewrite <- app_assoc. }
  destruct (step_frame _ _ _ _ _ _ _ _ K1 K2 H Hne) as [Hc|[Hc|Hc]]; [by apply (Hx p)|by apply (Hx ("00LOCK-" +:+ p))|].
  destruct (in_dir_meet _ _ _ Hc Hp); done.
Qed.

Lemma additional_errors l : forall f err f' t, installable name lib l -> (forall p a, (p, a) ∈ l -> f (ad_path a) <> None) ->
  install_additional R s pkgr lib l f = (err, f', t) ->
  map rc_source t = map (fun pa => ad_path pa.2) l /\ (forall c, c ∈ t -> rc_library c = lib) /\
  (err = false -> r_installs R name -> forall p a, (p, a) ∈ l -> f' (lib ++ [p])%list = Some Dir).
Proof.
  induction l as [|[p a] l IH]; intros f err f' t Hi Hs; cbn [install_additional].
  { intros [= <- <- <-]. split; [done|]. split; [intros c H; by apply elem_of_nil in H|]. intros _ _ p a H. by apply elem_of_nil in H. }
  destruct (install _ _ _ _ _ _ _ f) as [[[code e] f1] t1] eqn:E.
  destruct (install_additional R s pkgr lib l f1) as [[es f2] t2] eqn:E2. intros [= <- <- <-].
  pose proof (installable_tail _ _ _ Hi) as Ht.
  destruct (IH f1 es f2 t2 Ht) as (I1 & I2 & I3); [|done|].
  { intros q b Hq. rewrite (source_kept _ _ _ _ _ _ _ _ _ _ Hi Hq E). apply (Hs q b). by right. }
  destruct (in_names _ _ _ Hi p a) as [K1 K2]; [by left|].
  pose proof (Hs p a ltac:(by left)) as Hsrc. pose proof E as E0. unfold install, fs_exists in E0.
  destruct (f (ad_path a)) as [nd|]; [|done]. clear Hsrc.
  set (c := {| rc_dir := _; rc_library := lib; rc_build := true; rc_source := ad_path a |}) in *.
  destruct (R c f) as [code' g] eqn:ER.
  assert (t1 = [c]) as -> by (destruct (code' =? 0)%Z; congruence).
  split; [cbn; by rewrite I1|]. split.
  { intros c' Hc'. apply elem_of_app in Hc' as [Hc'|Hc']; [|by apply I2]. apply elem_of_list_singleton in Hc' as ->. done. }
  intros Herr Hin q b Hq. apply orb_false_iff in Herr as [He Hes].
  apply elem_of_cons in Hq as [[= -> ->]|Hq]; [|by apply (I3 Hes Hin q b)].
  assert (f1 (lib ++ [p])%list = Some Dir) as Hf1.
  { destruct (Z.eqb_spec code' 0) as [->|]; [|congruence].
    assert (write_description s (additional_request lib pkgr p a) lib g = f1) as <- by congruence.
    apply write_description_dir. pose proof (Hin _ _ _ ER) as Hd. cbn [rc_library rc_source c] in Hd. by rewrite K2 in Hd. }
  rewrite <- Hf1. destruct (decide (f2 (lib ++ [p])%list = f1 (lib ++ [p])%list)) as [|Hne]; [done|exfalso].
  destruct (additional_frame l f1 es f2 t2 _ Ht E2 Hne) as (q & b & Hq & [Hc|[Hc|Hc]]).
  - apply snoc_in_dir in Hc as ->; [|exact p]. pose proof (in_distinct _ _ _ Hi) as Hnd. cbn in Hnd. apply NoDup_cons_1_1 in Hnd.
    apply Hnd, elem_of_list_fmap. by exists (p, b).
  - apply snoc_in_dir in Hc; [|exact p]. by apply (lock_not_name p q).
  - destruct (in_library _ _ _ Hi q b ltac:(by right)) as [L1 L2].
    assert (in_dir lib (lib ++ [p])%list) as Hl by (by exists [p]).
    destruct (in_dir_meet _ _ _ Hc Hl); done.
Qed.

(** The error flag says whether R failed for one of them. *)
Lemma additional_flag l : forall f err f' t, install_additional R s pkgr lib l f = (err, f', t) ->
  (err = true <-> exists l1 p a l2, l = (l1 ++ (p, a) :: l2)%list /\
     let g := (install_additional R s pkgr lib l1 f).1.2 in
     g (ad_path a) <> None /\
     (R {| rc_dir := removelast (ad_path a); rc_library := lib; rc_build := true; rc_source := ad_path a |} g).1 <> 0%Z).
Proof.
  induction l as [|[p a] l IH]; intros f err f' t; cbn [install_additional].
  { intros [= <- <- <-]. split; [done|]. intros (l1 & p & a & l2 & E & _). by apply app_cons_not_nil in E. }
  destruct (install _ _ _ _ _ _ _ f) as [[[code e] f1] t1] eqn:E.
  destruct (install_additional R s pkgr lib l f1) as [[es f2] t2] eqn:E2. intros [= <- <- <-].
  assert (e = true <-> f (ad_path a) <> None /\
    (R {| rc_dir := removelast (ad_path a); rc_library := lib; rc_build := true; rc_source := ad_path a |} f).1 <> 0%Z) as He.
  { unfold install, fs_exists in E. destruct (f (ad_path a)); [|injection E as <- <- <- <-; naive_solver].
    destruct (R _ f) as [c g]. cbn [fst]. destruct (Z.eqb_spec c 0); injection E as <- <- <- <-; naive_solver. }
  rewrite orb_true_iff, He, (IH _ _ _ _ E2). split.
  - intros [K|(l1 & p' & a' & l2 & -> & K)]; [by exists [], p, a, l|].
    exists ((p, a) :: l1), p', a', l2. split; [done|]. cbn [install_additional]. rewrite E.
    destruct (install_additional R s pkgr lib l1 f1) as [[e' g'] t']. done.
  - intros (l1 & p' & a' & l2 & El & K). destruct l1 as [|[k v] l1]; cbn in El.
    + injection El as <- <- <-. by left.
    + injection El as <- <- ->. right. exists l1, p', a', l2. split; [done|]. cbn [install_additional] in K. rewrite E in K.
      destruct (install_additional R s pkgr lib l1 f1) as [[e' g'] t']. done.
Qed.

End install.
