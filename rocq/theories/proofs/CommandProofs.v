(** Lemmas about removing several packages, cleaning everything, and descriptions. *)
From stdpp Require Import strings list gmap.
From Coq Require Import Ascii Lia.
From Verif.model Require Import GoStr Version Desc Nexus RepoDb Graph Plan Control Yml Fs Extract Install Tarballs Clean Commands.
From Verif.spec Require Import StrSpec LibSpec EnvSpec YmlSpec RepoSpec PlanSpec ControlSpec InstallSpec CleanSpec TarballSpec.
From Verif.proofs Require Import GoStrLemmas YmlProofs ControlProofs FsProofs CleanProofs TarballProofs PlanProofs.

Local Open Scope string_scope.
Local Arguments Ascii.eqb : simpl never.
Local Arguments char_eqb : simpl never.

(** * remove *)

Lemma text_split s : exists lines last, s = text lines +:+ last /\ (forall l, l ∈ lines -> is_line l) /\ is_line last.
Proof.
  induction s as [|c s (lines & last & E & H1 & H2)].
  - exists [], "". split; [done|]. split; [intros l Hl; by apply elem_of_nil in Hl|done].
  - destruct (Ascii.eqb_spec c lf) as [-> |Hc].
    + exists ("" :: lines), last. split; [cbn; by rewrite E|]. split; [|done].
      intros l Hl. apply elem_of_cons in Hl as [-> |Hl]; [done|by apply H1].
    + assert (K : forall l, is_line l -> is_line (String c l)).
      { intros l Hl. unfold is_line in *. apply Ascii.eqb_neq in Hc.
        change (negb (Ascii.eqb c lf) && all_bytes (fun c => negb (Ascii.eqb c lf)) l = true). by rewrite Hc, Hl. }
      destruct lines as [|l lines].
      * exists [], (String c last). split; [cbn in *; by rewrite E|]. split; [done|by apply K].
      * exists (String c l :: lines), last. split; [cbn in *; by rewrite E|]. split; [|done].
        intros x Hx. apply elem_of_cons in Hx as [-> |Hx]; [apply K, H1; by left|apply H1; by right].
Qed.

Lemma remove_one name lines last : (forall l, l ∈ lines -> is_line l) -> is_line last ->
  remove_package (text lines +:+ last) name =
  text (List.filter (fun l => negb (removed name l)) lines) +:+ (if removed name last then "" else last).
Proof. intros H1 H2. unfold remove_package. by rewrite split_text, remove_text. Qed.

Lemma not_removed_empty name : removed name "" = false.
Proof. reflexivity. Qed.

Lemma remove_several names : forall lines last, (forall l, l ∈ lines -> is_line l) -> is_line last ->
  remove_packages (text lines +:+ last) names =
  text (List.filter (fun l => negb (existsb (fun n => removed n l) names)) lines) +:+
  (if existsb (fun n => removed n last) names then "" else last).
Proof.
  induction names as [|n names IH]; intros lines last H1 H2.
  - cbn. f_equal. f_equal. symmetry. clear. induction lines as [|l lines IH]; [done|]. cbn. by rewrite IH.
  - cbn [remove_packages fold_left]. rewrite remove_one by done.
    change (fold_left remove_package names) with (fun s => remove_packages s names). cbv beta.
    rewrite IH.
    + f_equal.
      * f_equal. clear. induction lines as [|l lines IH]; [done|]. cbn. destruct (removed n l); cbn; [done|]. by rewrite IH.
      * assert (Z : existsb (fun n0 => removed n0 "") names = false).
        { clear. induction names as [|m names IH]; [done|]. exact IH. }
        cbn [existsb]. destruct (removed n last); [|done]. by rewrite Z.
    + intros l Hl. apply elem_of_list_In, filter_In in Hl as [Hl _]. apply H1. by apply elem_of_list_In.
    + by destruct (removed n last).
Qed.

(** * Cleaning everything *)

Lemma unpacked_dirs u cache ts : forall ds m f f' ds' m' t, unpack_loop u cache ts ds m f = Some (f', ds', m') -> t ∈ ts ->
  f' (cache ++ [tarball_name u t])%list = Some Dir.
Proof.
  induction ts as [|t0 ts IH]; intros ds m f f' ds' m' t H Ht; [by apply elem_of_nil in Ht|]. cbn [unpack_loop] in H.
  destruct (unpack_one u cache t0 f) as [[[f1 d] a]|] eqn:E; [|done].
  apply elem_of_cons in Ht as [-> |Ht]; [|by eapply IH].
  apply one_untar, untar_dir in E. by destruct (loop_agree u cache _ _ _ _ _ _ _ _ H E) as [_ ?].
Qed.

Lemma clean_pkgdbs_frame md5 b dir configured dbs rv f q :
  (forall db, db ∈ dbs -> ~ in_dir (dir ++ [md5 (hash_text b (db_repo db) (db_types db) (rv_full rv))])%list q) ->
  clean_pkgdbs md5 b dir "ALL" configured dbs rv f q = f q.
Proof. intros H. apply remove_dbs_frame. intros n db _ Hd _. by apply H. Qed.

(** * Descriptions *)

Lemma unpack_descriptions_some read paths ds : unpack_descriptions read paths = Some ds <->
  Forall2 (fun p d => exists text, read p = Some text /\ parse_desc text = Some d) paths ds.
Proof.
  revert ds. induction paths as [|p ps IH]; intros ds; cbn [unpack_descriptions].
  - split; [intros [= <-]; constructor|]. by inversion 1.
  - split.
    + destruct (read p) as [text|] eqn:E; [|done]. destruct (parse_desc text) as [d|] eqn:Ed; [|done].
      destruct (unpack_descriptions read ps) as [ds'|]; [|done]. intros [= <-]. constructor; [by exists text|by apply IH].
    + inversion 1 as [|? d ? ds' (text & E & Ed) H2]; subst. apply IH in H2. by rewrite E, Ed, H2.
Qed.

Lemma unpack_descriptions_none read paths : unpack_descriptions read paths = None <->
  exists p, p ∈ paths /\ (read p = None \/ exists text, read p = Some text /\ parse_desc text = None).
Proof.
  induction paths as [|p ps IH]; cbn [unpack_descriptions].
  - split; [done|]. intros (p & Hp & _). by apply elem_of_nil in Hp.
  - split.
    + destruct (read p) as [text|] eqn:E; [|intros _; exists p; split; [by left|by left]].
      destruct (parse_desc text) as [d|] eqn:Ed.
      * destruct (unpack_descriptions read ps) as [ds|]; [done|]. intros _. destruct (proj1 IH eq_refl) as (q & Hq & K).
        exists q. split; [by right|done].
      * intros _. exists p. split; [by left|]. right. by exists text.
    + intros (q & Hq & K). apply elem_of_cons in Hq as [-> |Hq].
      * destruct K as [-> |(text & -> & ->)]; done.
      * assert (unpack_descriptions read ps = None) as -> by (apply IH; by exists q).
        destruct (read p); [|done]. by destruct (parse_desc s).
Qed.

Lemma named_unique e n n' : named e n -> named e n' -> n = n'.
Proof.
  intros (p & r & -> & Hp & Hr & Hs) (p' & r' & E & Hp' & Hr' & Hs').
  assert (p = p') as <-.
  { clear Hs Hs'. revert p' E Hp'. induction p as [|c p IH]; intros p' E Hp'.
    - destruct p' as [|c' p']; [done|]. cbn in E. exfalso. destruct Hr as [-> |(x & ->)]; [done|].
      injection E as <- _. done.
    - destruct p' as [|c' p'].
      + cbn in E. exfalso. destruct Hr' as [-> |(x & ->)]; [done|]. injection E as -> _. done.
      + cbn in E. injection E as <- E. cbn in Hp, Hp'. apply andb_true_iff in Hp as [_ Hp]. apply andb_true_iff in Hp' as [_ Hp'].
        f_equal. by apply IH. }
  apply stripped_trim in Hs, Hs'. congruence.
Qed.

Lemma dependencies_filed es m : dependencies es m -> deps_ok m.
Proof. intros H k v E. apply H in E as (e & He & (l1 & l2 & -> & (y & Hy & <-) & _)). congruence. Qed.

Lemma last_named es n : (forall e, e ∈ es -> is_Some (parse_dep e)) -> (exists e, e ∈ es /\ named e n) ->
  exists e x, parse_dep e = Some x /\ last_such (fun e => exists y, parse_dep e = Some y /\ dep_name y = n) es e.
Proof.
  induction es as [|e es IH]; intros H1 (e0 & He0 & Hn); [by apply elem_of_nil in He0|].
  assert (D : (exists e', e' ∈ es /\ named e' n) \/ ~ exists e', e' ∈ es /\ named e' n).
  { assert (Dn : forall e', e' ∈ es -> named e' n \/ ~ named e' n).
    { intros e' He'. destruct (H1 e') as [y Hy]; [by right|]. apply parse_dep_named in Hy.
      destruct (decide (dep_name y = n)) as [<- |Hne]; [by left|]. right. intros K. apply Hne. by eapply named_unique. }
    clear -Dn. induction es as [|a es IH].
    - right. intros (e' & He' & _). by apply elem_of_nil in He'.
    - destruct (Dn a) as [Ha|Ha]; [by left| |].
      + left. exists a. split; [by left|done].
      + destruct IH as [(e' & He' & K)|K].
        * intros e' He'. apply Dn. by right.
        * left. exists e'. split; [by right|done].
        * right. intros (e' & He' & K'). apply elem_of_cons in He' as [-> |He']; [done|]. apply K. by exists e'. }
  destruct D as [D|D].
  - destruct IH as (e1 & x & K1 & (l1 & l2 & -> & K2)); [intros e' He'; apply H1; by right|done|].
    exists e1, x. split; [done|]. by exists (e :: l1), l2.
  - apply elem_of_cons in He0 as [-> |He0]; [|destruct D; by exists e0].
    destruct (H1 e) as [x Hx]; [by left|]. exists e, x. split; [done|]. exists [], es. split; [done|].
    pose proof (parse_dep_named _ _ Hx) as Hx'. split; [exists x; split; [done|by eapply named_unique]|].
    intros e' He' (y & Hy & Hny). apply D. exists e'. split; [done|]. apply parse_dep_named in Hy. by rewrite <- Hny.
Qed.

(** The packages of a field are those named in it. *)
Lemma dependencies_are es m n : dependencies es m -> (forall e, e ∈ es -> is_Some (parse_dep e)) ->
  is_Some (m !! n) <-> exists e, e ∈ es /\ named e n.
Proof.
  intros H1 H2. split.
  - intros [x Hx]. by eapply dependencies_named.
  - intros H. destruct (last_named es n H2 H) as (e & x & K1 & K2). exists x. apply H1. by exists e.
Qed.
