(** Tarballs unpacked by several runs: C155. *)
From stdpp Require Import strings list gmap relations.
From Coq Require Import Ascii ZArith Lia.
From Verif.model Require Import GoStr Fs Env Extract Install Fetching Fetchers Unpackers.
From Verif.spec Require Import LibSpec ExtractSpec UnpackersSpec.
From Verif.proofs Require Import FsProofs ExtractProofs FetchersProofs SharingProofs.

Local Open Scope string_scope.

(** Unpacking reads the directory, what is below it and what is above it. *)
Definition zone (d q : list string) : Prop := in_dir d q \/ in_dir q d.

Definition agree (d : list string) (f g : fsys) : Prop := forall q, zone d q -> f q = g q.

Lemma agree_dir d f g q : agree d f g -> zone d q -> fs_dir_exists f q = fs_dir_exists g q.
Proof. intros H Hq. unfold fs_dir_exists. by rewrite (H q Hq). Qed.

Lemma zone_below d s : zone d (d ++ s)%list.
Proof. left. by exists s. Qed.

Lemma zone_self d : zone d d.
Proof. left. exists []. by rewrite app_nil_r. Qed.

Lemma in_dir_trans (a b c : list string) : in_dir a b -> in_dir b c -> in_dir a c.
Proof. intros [s ->] [t ->]. exists (s ++ t)%list. by rewrite app_assoc. Qed.

Lemma zone_prefix d s q : in_dir q (d ++ s)%list -> zone d q.
Proof. intros H. apply in_dir_cases in H as [H|H]; [by right|by left]. Qed.

Lemma removelast_in_dir (p : list string) : in_dir (removelast p) p.
Proof.
  destruct (decide (p = [])) as [->|H]; [by exists []|]. exists [List.last p ""]. by apply app_removelast_last.
Qed.

Lemma in_dir_dec (a b : list string) : in_dir a b \/ ~ in_dir a b.
Proof. destruct (below a b) eqn:E; [left|right]; rewrite <- below_spec; congruence. Qed.

Lemma mkdir_agree d p f g f' : agree d f g -> (forall q, in_dir q p -> zone d q) -> mkdir_all p f = Some f' ->
  exists g', mkdir_all p g = Some g' /\ agree d f' g'.
Proof.
  intros Ha Hp. unfold mkdir_all. 
  assert (existsb (fun q => match f q with Some (File _) => true | _ => false end) (prefixes p) =
          existsb (fun q => match g q with Some (File _) => true | _ => false end) (prefixes p)) as ->.
  { assert (forall q, q ∈ prefixes p -> f q = g q) as H by (intros q Hq; apply Ha, Hp; by apply prefixes_spec).
    induction (prefixes p) as [|x l IH]; [done|]. cbn [existsb]. rewrite H by by left. f_equal. apply IH.
    intros q Hq. apply H. by right. }
  destruct (existsb _ _); [done|]. intros [= <-]. eexists. split; [done|].
  intros q Hq. destruct (below q p); [done|]. by apply Ha.
Qed.

Lemma agree_sym d f g : agree d f g -> agree d g f.
Proof. intros H q Hq. symmetry. by apply H. Qed.

Lemma agree_trans d f g h : agree d f g -> agree d g h -> agree d f h.
Proof. intros H1 H2 q Hq. rewrite H1 by done. by apply H2. Qed.

Lemma mkdir_agree_none d p f g : agree d f g -> (forall q, in_dir q p -> zone d q) -> mkdir_all p f = None -> mkdir_all p g = None.
Proof.
  intros Ha Hp H. destruct (mkdir_all p g) as [g'|] eqn:E; [|done].
  destruct (mkdir_agree d p g f g' (agree_sym _ _ _ Ha) Hp E) as (? & ? & _). congruence.
Qed.

Lemma follow_agree d f g l : forall s, agree d f g -> follow f (length s) (d ++ s)%list l = follow g (length s) (d ++ s)%list l.
Proof.
  induction l as [|c l IH]; intros s Ha; cbn [follow]; [done|].
  destruct (String.eqb c "" || String.eqb c "."); [by apply IH|].
  rewrite (agree_dir d f g _ Ha (zone_below d s)).
  destruct (String.eqb c "..").
  - destruct (decide (s = [])) as [->|Hs]; [done|].
    rewrite (app_removelast_last "" Hs). rewrite app_length, Nat.add_1_r.
    destruct (fs_dir_exists g _); [|done]. rewrite app_assoc, removelast_last. by apply IH.
  - destruct (fs_dir_exists g _); [|done]. rewrite <- app_assoc.
    replace (S (length s)) with (length (s ++ [c])) by (rewrite app_length; simpl; lia). by apply IH.
Qed.

Lemma follow_below d f l : forall s p, follow f (length s) (d ++ s)%list l = Some p -> in_dir d p.
Proof.
  induction l as [|c l IH]; intros s p; cbn [follow]; [intros [= <-]; by exists s|].
  destruct (String.eqb c "" || String.eqb c "."); [by apply IH|].
  destruct (String.eqb c "..").
  - destruct (decide (s = [])) as [->|Hs]; [done|].
    rewrite (app_removelast_last "" Hs). rewrite app_length, Nat.add_1_r.
    destruct (fs_dir_exists f _); [|done]. rewrite app_assoc, removelast_last. by apply IH.
  - destruct (fs_dir_exists f _); [|done]. rewrite <- app_assoc.
    replace (S (length s)) with (length (s ++ [c])) by (rewrite app_length; simpl; lia). by apply IH.
Qed.

Lemma follow_agree0 d f g l : agree d f g -> follow f 0 d l = follow g 0 d l.
Proof. intros H. pose proof (follow_agree d f g l [] H) as E. by rewrite app_nil_r in E. Qed.

Lemma follow_below0 d f l p : follow f 0 d l = Some p -> in_dir d p.
Proof. intros H. apply (follow_below d f l []). by rewrite app_nil_r. Qed.

(** Creating a file: what the others have to agree on, and the file that comes of it. *)
Lemma create_cases d name c f : 
  (create_excl d name c f = None /\ forall c', create_excl d name c' f = None) \/
  exists p, follow f 0 d (split_slash name) = Some p /\ in_dir d p /\ forall c', create_excl d name c' f = Some (write_file p c' f).
Proof.
  unfold create_excl. destruct (follow f 0 d (split_slash name)) as [p|] eqn:E; [|by left].
  destruct (fs_exists f p || negb (fs_dir_exists f (removelast p))); [by left|].
  right. exists p. split; [done|]. split; [by apply follow_below0 in E|]. done.
Qed.

Lemma create_agree d name c f g : agree d f g ->
  (create_excl d name c f = None <-> create_excl d name c g = None).
Proof.
  intros Ha. unfold create_excl. rewrite (follow_agree0 d f g _ Ha).
  destruct (follow g 0 d (split_slash name)) as [p|] eqn:E; [|done].
  pose proof (follow_below0 _ _ _ _ E) as Hp.
  assert (fs_exists f p = fs_exists g p) as -> by (unfold fs_exists; rewrite (Ha p); [done|by left]).
  assert (fs_dir_exists f (removelast p) = fs_dir_exists g (removelast p)) as ->.
  { apply (agree_dir d); [done|]. destruct Hp as [s ->]. apply (zone_prefix d s), removelast_in_dir. }
  destruct (_ || _); [done|]. split; discriminate.
Qed.

Lemma write_agree d p c f g : agree d f g -> agree d (write_file p c f) (write_file p c g).
Proof. intros H q Hq. unfold write_file. destruct (bool_decide (q = p)); [done|]. by apply H. Qed.

Lemma remove_agree d p f g : agree d f g -> agree d (remove_all p f) (remove_all p g).
Proof. intros H q Hq. unfold remove_all. destruct (below p q); [done|]. by apply H. Qed.

(** The names of entries. *)
Lemma local_path d name : is_local name = true -> exists p, join_path d name = (d ++ p)%list.
Proof.
  intros H. destruct (local_names _ H) as [p Hp]. exists p. unfold join_path.
  rewrite <- (names_add d [] _ p Hp). by rewrite app_nil_r.
Qed.

Lemma zone_parent d p q : in_dir q (removelast (d ++ p)%list) -> zone d q.
Proof. intros H. apply (zone_prefix d p). by apply (in_dir_trans _ _ _ H), removelast_in_dir. Qed.

Lemma extract_all_app root l1 l2 : forall f g, extract_all root l1 f = (g, true) ->
  extract_all root (l1 ++ l2)%list f = extract_all root l2 g.
Proof.
  induction l1 as [|e l1 IH]; intros f g; cbn [extract_all app]; [by intros [= ->]|].
  destruct (extract_file root e f) as [f1 [|]]; [apply IH|done].
Qed.

Lemma body_cases e c b : body_of e = Some (c, b) -> en_kind e = (if b then KReg c else KBroken c).
Proof. unfold body_of. destruct (en_kind e); intros H; [discriminate|by injection H as <- <-|by injection H as <- <-|discriminate]. Qed.

Section One.
Context (u : unpacker) (f0 : fsys).
Notation d := (up_dir u).
Notation ar := (up_archive u).

(** Nothing was in the directory when it was looked for, and the archive can be opened. *)
Definition fresh : Prop := fs_dir_exists f0 d = false /\ a_known ar = true.

(** The archive is unpacked up to [l], with these files. *)
Definition reached (l : list entry) (g : fsys) : Prop :=
  fresh /\ exists dn f1, mkdir_all d (remove_all d f0) = Some f1 /\ a_entries ar = (dn ++ l)%list /\ extract_all d dn f1 = (g, true).

(** The files are as they could be if nobody else were there. *)
Definition as_alone (a : unpacks) (f : fsys) : Prop :=
  match a with
  | ULook => agree d f f0
  | UClear => fresh /\ agree d f f0
  | UMake => fresh /\ agree d f (remove_all d f0)
  | UEntries l => exists g, reached l g /\ agree d f g /\ f d = Some Dir
  | UOpen e l => exists g g1 c b, reached (e :: l) g /\ is_local (en_name e) = true /\ body_of e = Some (c, b) /\
      mkdir_all (removelast (join_path d (en_name e))) g = Some g1 /\ agree d f g1 /\ f d = Some Dir
  | UCopy p n e l => exists g g1 c b, reached (e :: l) g /\ is_local (en_name e) = true /\ body_of e = Some (c, b) /\
      mkdir_all (removelast (join_path d (en_name e))) g = Some g1 /\
      create_excl d (en_name e) c g1 = Some (write_file p c g1) /\ n <= String.length c /\ in_dir d p /\
      agree d f (write_file p (substring 0 n c) g1) /\ f d = Some Dir
  | UDone => exists f', untar ar d f0 = (f', true) /\ agree d f f'
  | UFail => exists f', untar ar d f0 = (f', false) /\ agree d f f'
  end.

Lemma untar_reached l g : reached l g ->
  untar ar d f0 = match extract_all d l g with (f2, ok) => (f2, ok && a_complete ar) end.
Proof.
  intros [[H1 H2] (dn & f1 & H3 & H4 & H5)]. unfold untar, extract. rewrite H1, H2, H3. cbn [negb].
  by rewrite H4, (extract_all_app _ _ _ _ _ H5).
Qed.

Lemma reached_next e l g g' : reached (e :: l) g -> extract_file d e g = (g', true) -> reached l g'.
Proof.
  intros [H1 (dn & f1 & H3 & H4 & H5)] He. split; [done|]. exists (dn ++ [e])%list, f1. split; [done|].
  split; [by rewrite <- app_assoc|]. rewrite (extract_all_app _ _ [e] _ _ H5). cbn [extract_all]. by rewrite He.
Qed.

Lemma reached_fail e l g g' : reached (e :: l) g -> extract_file d e g = (g', false) -> untar ar d f0 = (g', false).
Proof. intros H He. rewrite (untar_reached _ _ H). cbn [extract_all]. by rewrite He. Qed.

Lemma as_alone_agree a f f' : agree d f f' -> as_alone a f -> as_alone a f'.
Proof.
  intros H. pose proof (agree_sym _ _ _ H) as H'. pose proof (H d (zone_self d)) as Hd.
  destruct a; cbn [as_alone].
  - intros Ha. by apply (agree_trans _ _ f).
  - intros [Hf Ha]. split; [done|]. by apply (agree_trans _ _ f).
  - intros [Hf Ha]. split; [done|]. by apply (agree_trans _ _ f).
  - intros (g & Hr & Ha & Hx). exists g. split; [done|]. split; [by apply (agree_trans _ _ f)|]. congruence.
  - intros (g & g1 & c & b & H1 & H2 & H3 & H4 & Ha & Hx). exists g, g1, c, b. do 4 (split; [done|]).
    split; [by apply (agree_trans _ _ f)|]. congruence.
  - intros (g & g1 & c & b & H1 & H2 & H3 & H4 & H5 & H6 & H7 & Ha & Hx). exists g, g1, c, b. do 7 (split; [done|]).
    split; [by apply (agree_trans _ _ f)|]. congruence.
  - intros (g & Hu & Ha). exists g. split; [done|]. by apply (agree_trans _ _ f).
  - intros (g & Hu & Ha). exists g. split; [done|]. by apply (agree_trans _ _ f).
Qed.

Context (cache : list string) (h : string) (Hdir : d = (cache ++ [h])%list).

Lemma above_dir q : in_dir q d -> q = d \/ in_dir q cache.
Proof.
  intros [s Hs]. rewrite Hdir in *. destruct (decide (s = [])) as [->|Hn].
  - left. by rewrite app_nil_r in Hs.
  - right. rewrite (app_removelast_last "" Hn), app_assoc in Hs. apply app_inj_tail in Hs as [Hs _]. exists (removelast s). done.
Qed.

Lemma dirs_above_dir f : dirs_above cache f -> f d = Some Dir -> dirs_above d f.
Proof. intros H1 H2 q Hq. apply above_dir in Hq as [->|Hq]; [done|]. by apply H1. Qed.

(** A step of one that has the directory for itself. *)
Lemma alone_step a f b f' : dirs_above cache f -> as_alone a f -> unpack_step u (a, f) (b, f') ->
  as_alone b f' /\ only_inside d f f'.
Proof.
  intros Hc Ha Hs. inversion Hs; subst; cbn [as_alone] in Ha.
  - split; [|by intros ?]. exists f0. split; [|done]. unfold untar. rewrite <- (agree_dir d f' f0 d Ha (zone_self d)).
    by rewrite H0.
  - split; [|by intros ?]. split; [|done]. split; [|done]. by rewrite <- (agree_dir d f' f0 d Ha (zone_self d)).
  - split; [|by intros ?]. exists f0. split; [|done]. unfold untar, extract. rewrite <- (agree_dir d f' f0 d Ha (zone_self d)).
    by rewrite H2, H4.
  - destruct Ha as [Hf Ha]. split.
    + split; [done|]. by apply remove_agree.
    + intros q Hq. unfold remove_all. destruct (below d q) eqn:E; [|done]. by apply below_spec in E.
  - destruct Ha as [Hf Ha].
    assert (forall q, in_dir q d -> zone d q) as Hz by (intros q Hq; by right).
    destruct (mkdir_agree d d f _ f' Ha Hz H0) as (g' & Hg & Hag).
    pose proof (mkdir_root _ _ _ H0) as Hroot.
    split.
    + exists g'. split; [|split; [done|]]; [|apply Hroot; exists []; by rewrite app_nil_r].
      split; [done|]. exists [], g'. done.
    + intros q Hq. destruct (mkdir_spec _ _ _ H0) as (M1 & M2 & _). destruct (in_dir_dec q d) as [Hi|Hi]; [|by apply M2].
      destruct (above_dir _ Hi) as [->|Hi']; [destruct Hq; exists []; by rewrite app_nil_r|].
      rewrite M1, Hc by done. done.
  - destruct Ha as [Hf Ha]. split; [|by intros ?]. eexists. split; [|exact Ha].
    assert (mkdir_all d (remove_all d f0) = None) as Hn.
    { apply (mkdir_agree_none d d f'); [done|by intros q Hq; right|done]. }
    destruct Hf as [F1 F2]. unfold untar, extract. by rewrite F1, F2, Hn.
  - destruct Ha as (g & Hr & Ha & Hx). split; [|by intros ?].
    pose proof (untar_reached _ _ Hr) as Hu. cbn [extract_all andb] in Hu.
    destruct (a_complete ar); exists g; by split.
  - destruct Ha as (g & Hr & Ha & Hx). split; [|by intros ?]. exists g. split; [|done].
    apply (reached_fail e l g g Hr). unfold extract_file. by rewrite H0.
  - destruct Ha as (g & Hr & Ha & Hx). split; [|by intros ?]. exists g. split; [|done].
    apply (reached_fail e l g g Hr). unfold extract_file. rewrite H2, H4. done.
  - destruct Ha as (g & Hr & Ha & Hx). destruct (local_path d _ H3) as [p Hp]. rewrite Hp in H5.
    destruct (mkdir_agree d _ f g f' Ha (zone_prefix d p) H5) as (g' & Hg & Hag).
    destruct (mkdir_inside d p f f' (dirs_above_dir f Hc Hx) H5) as (I1 & I2 & _). split; [|done].
    exists g'. split; [|split; [done|]]; [|apply I1; exists []; by rewrite app_nil_r].
    apply (reached_next e l g); [done|]. unfold extract_file. rewrite H3, H4, Hp, Hg. done.
  - destruct Ha as (g & Hr & Ha & Hx). split; [|by intros ?]. destruct (local_path d _ H3) as [p Hp]. rewrite Hp in H5.
    pose proof (mkdir_agree_none d _ f' g Ha (zone_prefix d p) H5) as Hg.
    exists g. split; [|done]. apply (reached_fail e l g g Hr). unfold extract_file. by rewrite H3, H4, Hp, Hg.
  - destruct Ha as (g & Hr & Ha & Hx). destruct (local_path d _ H3) as [p Hp]. rewrite Hp in H5. destruct cb as [c b].
    destruct (mkdir_agree d _ f g f' Ha (zone_parent d p) H5) as (g' & Hg & Hag).
    destruct (parent_mkdir d p f f' (dirs_above_dir f Hc Hx) H5) as (I1 & I2 & _). split; [|done].
    exists g, g', c, b. rewrite Hp. do 5 (split; [done|]). apply I1. exists []. by rewrite app_nil_r.
  - destruct Ha as (g & Hr & Ha & Hx). split; [|by intros ?]. destruct (local_path d _ H3) as [p Hp]. rewrite Hp in H5.
    destruct cb as [c b]. pose proof (body_cases _ _ _ H4) as Hk.
    pose proof (mkdir_agree_none d _ f' g Ha (zone_parent d p) H5) as Hg.
    exists g. split; [|done]. apply (reached_fail e l g g Hr). unfold extract_file. rewrite H3, Hk, Hp.
    destruct b; by rewrite Hg.
  - destruct Ha as (g & g1 & c & b & Hr & Hl & Hb & Hm & Ha & Hx).
    destruct (create_cases d (en_name e) "" f) as [[Hn _]|(r & F1 & F2 & F3)]; [congruence|].
    assert (r = p) as -> by congruence.
    assert (f' = write_file p "" f) as -> by (specialize (F3 ""); congruence).
    destruct (create_cases d (en_name e) "" g1) as [[Hn _]|(r & G1 & G2 & G3)].
    { apply (create_agree d _ _ f g1 Ha) in Hn. congruence. }
    rewrite <- (follow_agree0 d f g1 _ Ha) in G1. assert (r = p) as -> by congruence.
    assert (p <> d) as Hpd.
    { intros ->. unfold create_excl in H4. rewrite F1 in H4. unfold fs_exists in H4. rewrite Hx in H4. done. }
    split.
    + exists g, g1, c, b. do 4 (split; [done|]). split; [apply G3|]. split; [lia|]. split; [done|].
      split; [|by rewrite write_other].
      assert (substring 0 0 c = "") as -> by by destruct c. by apply write_agree.
    + intros q Hq. apply write_other. intros ->. done.
  - destruct Ha as (g & g1 & c & b & Hr & Hl & Hb & Hm & Ha & Hx). split; [|by intros ?].
    assert (create_excl d (en_name e) c g1 = None) as Hn.
    { apply (create_agree d _ _ f' g1 Ha). destruct (create_cases d (en_name e) "" f') as [[_ Hn]|(r & _ & _ & F3)]; [done|].
      specialize (F3 ""). congruence. }
    exists g1. split; [|done]. apply (reached_fail e l g g1 Hr). unfold extract_file. pose proof (body_cases _ _ _ Hb) as Hk.
    rewrite Hl, Hk. destruct b; by rewrite Hm, Hn.
  - destruct Ha as (g & g1 & c' & b' & Hr & Hl & Hb & Hm & Hcr & Hn & Hp & Ha & Hx).
    assert (c' = c) as -> by congruence. assert (b' = b0) as -> by congruence.
    assert (p <> d) as Hpd. { intros ->. congruence. }
    split.
    + exists g, g1, c, b0. do 5 (split; [done|]). split; [lia|]. split; [done|]. split; [|by rewrite write_other].
      intros q Hq. destruct (decide (q = p)) as [->|Hne].
      * rewrite !write_same. rewrite (Ha p Hq), write_same in H5. injection H5 as <-.
        rewrite overlay_more by lia. done.
      * rewrite !write_other by done. rewrite (Ha q Hq). by rewrite write_other.
    + intros q Hq. apply write_other. intros ->. done.
  - destruct Ha as (g & g1 & c' & b' & Hr & Hl & Hb & Hm & Hcr & Hn & Hp & Ha & Hx).
    assert (c' = c) as -> by congruence. assert (b' = true) as -> by congruence. pose proof (body_cases _ _ _ Hb) as Hk.
    split; [|by intros ?]. exists (write_file p c g1). split; [|split; [|done]].
    + apply (reached_next e l g); [done|]. unfold extract_file. rewrite Hl, Hk, Hm, Hcr. done.
    + by rewrite substring_whole_text in Ha.
  - destruct Ha as (g & g1 & c' & b' & Hr & Hl & Hb & Hm & Hcr & Hn & Hp & Ha & Hx).
    assert (c' = c) as -> by congruence. assert (b' = false) as -> by congruence. pose proof (body_cases _ _ _ Hb) as Hk.
    split; [|by intros ?]. exists (write_file p c g1). split; [|by rewrite substring_whole_text in Ha].
    apply (reached_fail e l g); [done|]. unfold extract_file. rewrite Hl, Hk, Hm, Hcr. done.
Qed.
End One.

(** Directories next to each other do not meet. *)
Lemma next_to cache (a b : string) q : a <> b -> zone (cache ++ [a])%list q -> ~ in_dir (cache ++ [b])%list q.
Proof.
  intros Hab Hz [s Hs]. subst q. destruct Hz as [[t Ht]|[t Ht]]; rewrite <- !app_assoc in Ht; apply app_inv_head in Ht;
    cbn [app] in Ht; congruence.
Qed.

Lemma not_above cache (a : string) q : in_dir q cache -> ~ in_dir (cache ++ [a])%list q.
Proof.
  intros [s ->] [t Ht]. apply (f_equal length) in Ht. rewrite !app_length in Ht. cbn [length] in Ht. lia.
Qed.

Section All.
Context (es : list unpacker) (f0 : fsys) (cache : list string) (Hone : one_cache cache es f0).

Lemma dir_name i u : es !! i = Some u -> exists h, up_dir u = (cache ++ [h])%list.
Proof. intros H. destruct Hone as (_ & H2 & _). apply H2. by apply (elem_of_list_lookup_2 _ i). Qed.

Lemma dirs_differ i j u v : i <> j -> es !! i = Some u -> es !! j = Some v -> up_dir u <> up_dir v.
Proof.
  intros Hij Hu Hv E. destruct Hone as (_ & _ & H3). apply Hij. apply (NoDup_lookup _ i j (up_dir u) H3).
  - by rewrite list_lookup_fmap, Hu.
  - by rewrite list_lookup_fmap, Hv, E.
Qed.

Definition all_alone (x : unpackers) : Prop :=
  length (us_each x) = length es /\ dirs_above cache (us_fs x) /\
  (forall i u a, es !! i = Some u -> us_each x !! i = Some a -> as_alone u f0 a (us_fs x)) /\
  (forall q, (forall u, u ∈ es -> ~ in_dir (up_dir u) q) -> us_fs x q = f0 q).

Lemma all_start : all_alone (unpack_started es f0).
Proof.
  destruct Hone as (H1 & _ & _). split; [cbn; by rewrite map_length|]. split; [done|]. split; [|done].
  intros i u a Hu Ha. cbn in Ha. rewrite list_lookup_fmap, Hu in Ha. injection Ha as <-. by intros q _.
Qed.

Lemma all_step x y : all_alone x -> unpackers_step es x y -> all_alone y.
Proof.
  intros (Hl & Hc & Ha & Ho) Hs. destruct Hs as [x i u a b f' Hu Hi Hs].
  destruct (dir_name _ _ Hu) as [h Hh].
  destruct (alone_step u f0 cache h Hh a (us_fs x) b f' Hc (Ha _ _ _ Hu Hi) Hs) as [Hb Hin].
  split; [cbn; by rewrite insert_length|]. cbn [us_fs us_each]. split; [|split].
  - intros q Hq. rewrite Hin; [by apply Hc|]. rewrite Hh. by apply not_above.
  - intros j v a' Hv Hj. destruct (decide (j = i)) as [->|Hij].
    + rewrite list_lookup_insert in Hj by by apply lookup_lt_Some in Hi. assert (v = u) as -> by congruence. by injection Hj as <-.
    + rewrite list_lookup_insert_ne in Hj by done. apply (as_alone_agree v f0 a' (us_fs x)); [|by apply (Ha j)].
      intros q Hq. symmetry. apply Hin. destruct (dir_name _ _ Hv) as [k Hk]. rewrite Hh. rewrite Hk in Hq.
      apply (next_to cache k h q); [|done]. intros ->. apply (dirs_differ j i v u Hij Hv Hu). congruence.
  - intros q Hq. rewrite Hin; [by apply Ho|]. apply Hq. by apply (elem_of_list_lookup_2 _ i).
Qed.

Lemma all_happens x : unpack_happens es f0 x -> all_alone x.
Proof.
  unfold unpack_happens. intros H. assert (all_alone (unpack_started es f0)) as H0 by apply all_start.
  induction H as [x|x y z Hs _ IH]; [done|]. apply IH. by apply (all_step x).
Qed.

(** C155 *)
Lemma unpacked_alone x i u ok : unpack_happens es f0 x -> es !! i = Some u -> up_at x i (if (ok : bool) then UDone else UFail) ->
  exists f', untar (up_archive u) (up_dir u) f0 = (f', ok) /\ forall q, in_dir (up_dir u) q -> us_fs x q = f' q.
Proof.
  intros Hx Hu Hi. destruct (all_happens _ Hx) as (_ & _ & Ha & _). specialize (Ha i u _ Hu Hi).
  destruct ok; destruct Ha as (f' & H1 & H2); exists f'; (split; [done|]); intros q Hq; apply H2; by left.
Qed.

Lemma unpacked_complete x i u : unpack_happens es f0 x -> es !! i = Some u -> f0 (up_dir u) <> Some Dir -> up_at x i UDone ->
  complete (up_archive u) (up_dir u) (us_fs x).
Proof.
  intros Hx Hu Hn Hi. destruct (unpacked_alone x i u true Hx Hu Hi) as (f' & H1 & H2).
  destruct (untar_complete _ _ _ _ Hn H1) as (C1 & C2 & C3).
  assert (forall s, us_fs x (up_dir u ++ s)%list = f' (up_dir u ++ s)%list) as E by (intros s; apply H2; by exists s).
  split; [rewrite H2; [done|]; exists []; by rewrite app_nil_r|]. split.
  - intros e He. destruct (C2 e He) as (l & p & P1 & P2 & P3). exists l, p. rewrite E. done.
  - intros p c. rewrite E. apply C3.
Qed.

Lemma unpacked_others x q : unpack_happens es f0 x -> (forall u, u ∈ es -> ~ in_dir (up_dir u) q) -> us_fs x q = f0 q.
Proof. intros Hx. by destruct (all_happens _ Hx) as (_ & _ & _ & Ho); apply Ho. Qed.

Lemma unpack_goes_on x i u a : unpack_happens es f0 x -> es !! i = Some u -> up_at x i a -> a <> UDone -> a <> UFail ->
  exists b f', unpack_step u (a, us_fs x) (b, f').
Proof.
  intros Hx Hu Hi N1 N2. destruct (all_happens _ Hx) as (_ & _ & Ha & _). specialize (Ha i u a Hu Hi). set (f := us_fs x) in *.
  destruct a as [| | |l|e l|p n e l| |]; try done.
  - destruct (fs_dir_exists f (up_dir u)) eqn:E; [exists UDone, f; by constructor|].
    destruct (a_known (up_archive u)) eqn:E'; eexists _, f; [by apply u_absent|by apply u_unknown].
  - eexists _, _. constructor.
  - destruct (mkdir_all (up_dir u) f) as [g|] eqn:E; eexists _, _; [by apply u_make|by apply u_no_make].
  - destruct l as [|e l]; [eexists _, _; constructor|]. destruct (is_local (en_name e)) eqn:El; [|eexists _, _; by apply u_not_local].
    destruct (body_of e) as [cb|] eqn:Eb.
    + destruct (mkdir_all (removelast (join_path (up_dir u) (en_name e))) f) as [g|] eqn:E; eexists _, _;
        [by eapply u_parents|by eapply u_no_parents].
    + unfold body_of in Eb. destruct (en_kind e) eqn:Ek; try done; [|eexists _, _; by apply u_other].
      destruct (mkdir_all (join_path (up_dir u) (en_name e)) f) as [g|] eqn:E; eexists _, _; [by apply u_dir|by apply u_no_dir].
  - destruct (create_cases (up_dir u) (en_name e) "" f) as [[E _]|(p & E1 & _ & E2)].
    + eexists _, _. by apply u_no_open.
    + eexists _, _. apply (u_open _ _ _ _ _ p); [done|apply E2].
  - destruct Ha as (g & g1 & c & b & _ & _ & Hb & _ & _ & Hn & Hp & Hag & _).
    assert (f p = Some (File (substring 0 n c))) as Hf by (rewrite (Hag p) by (by left); by rewrite write_same).
    destruct (decide (n = String.length c)) as [->|Hne].
    + destruct b; eexists _, _; [by eapply u_copied|by eapply u_broken].
    + eexists _, _. eapply (u_copy _ _ _ (String.length c)); [done|lia|done].
Qed.
End All.

(** Unpacking ends. *)
Definition entry_cost (e : entry) : nat := 3 + match body_of e with Some (c, _) => String.length c | None => 0 end.

Definition entries_cost (l : list entry) : nat := 1 + sum_list (map entry_cost l).

Definition left_over (u : unpacker) (a : unpacks) : nat :=
  match a with
  | ULook => 3 + entries_cost (a_entries (up_archive u))
  | UClear => 2 + entries_cost (a_entries (up_archive u))
  | UMake => 1 + entries_cost (a_entries (up_archive u))
  | UEntries l => entries_cost l
  | UOpen e l => 2 + (match body_of e with Some (c, _) => String.length c | None => 0 end) + entries_cost l
  | UCopy _ n e l => 1 + (match body_of e with Some (c, _) => String.length c | None => 0 end - n) + entries_cost l
  | UDone | UFail => 0
  end.

Lemma left_less u a f b f' : unpack_step u (a, f) (b, f') -> left_over u b < left_over u a.
Proof.
  assert (forall e l, entries_cost (e :: l) = entry_cost e + entries_cost l) as Hc by (intros e l; unfold entries_cost; cbn; lia).
  assert (forall l, 0 < entries_cost l) as Hp by (intros l; unfold entries_cost; lia).
  intros H. inversion H; subst; cbn [left_over]; rewrite ?Hc; unfold entry_cost; try (pose proof (Hp (a_entries (up_archive u)))); try lia.
  - destruct (a_complete _); cbn [left_over]; apply (Hp []).
  - match goal with E : body_of e = _ |- _ => rewrite E end. lia.
Qed.

Definition all_left (es : list unpacker) (l : list unpacks) : nat := sum_list (zip_with left_over es l).

Lemma all_left_less es : forall l i u a b, es !! i = Some u -> l !! i = Some a -> left_over u b < left_over u a ->
  all_left es (<[i := b]> l) < all_left es l.
Proof.
  induction es as [|e es IH]; intros [|y l] [|i] u a b; cbn [lookup list_lookup]; try done.
  - intros [= ->] [= ->] H. unfold all_left.
    change (left_over u b + sum_list (zip_with left_over es l) < left_over u a + sum_list (zip_with left_over es l)). lia.
  - intros Hu Ha H. specialize (IH l i u a b Hu Ha H). unfold all_left in *.
    change (left_over e y + sum_list (zip_with left_over es (<[i := b]> l)) < left_over e y + sum_list (zip_with left_over es l)). lia.
Qed.

Lemma unpack_ends es f n x : nsteps (unpackers_step es) n (unpack_started es f) x -> n <= all_left es (map (fun _ => ULook) es).
Proof.
  assert (forall y z n, nsteps (unpackers_step es) n y z -> n + all_left es (us_each z) <= all_left es (us_each y)) as H.
  { intros y z m Hn. induction Hn as [y|m y w z Hs _ IH]; [lia|]. destruct Hs as [y i u a b f' Hu Hi Hs].
    pose proof (all_left_less es _ i u a b Hu Hi (left_less _ _ _ _ _ Hs)). cbn [us_each] in *. lia. }
  intros Hn. specialize (H _ _ _ Hn). cbn [unpack_started us_each] in H. lia.
Qed.
