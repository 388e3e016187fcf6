(** plan as a preview of install. *)
From stdpp Require Import strings list gmap.
From Coq Require Import Ascii ZArith Lia.
From Verif.model Require Import GoStr Version Desc Control Nexus RepoDb DbCache Graph Plan Pacman Fs Extract Install OsRelease Download Urls Tarballs
  Clean Commands Preview.
From Verif.spec Require Import StrSpec RepoSpec GraphSpec PlanSpec LibSpec ExtractSpec InstallSpec TarballSpec DbCacheSpec PreviewSpec.
From Verif.proofs Require Import GoStrLemmas UrlProofs FsProofs ExtractProofs InstallProofs ApartProofs TarballProofs GraphProofs LayerProofs PlanProofs PlanProps SettingsProofs.
From Verif.props Require Import P_DbCache.

Local Open Scope string_scope.

(** ** Databases *)

Lemma set_descs_keys st m l : st ∈ l.*1 -> (set_descs st m l).*1 = l.*1.
Proof.
  induction l as [|[t x] l IH]; cbn [set_descs]; [intros H; by apply elem_of_nil in H|].
  destruct (decide (t = st)); [done|]. cbn. intros H. f_equal. apply IH. apply elem_of_cons in H as [->|H]; done.
Qed.

Lemma gathered_keys ar l l' : gathered ar l l' -> (forall st m, (st, m) ∈ ar -> st ∈ l.*1) -> l'.*1 = l.*1.
Proof.
  induction 1 as [|st m ar l l' _ IH|st ar l l' _ IH]; intros H; [done|..].
  - assert (st ∈ l.*1) as Hst by (apply (H st (Some m)); by left).
    rewrite IH; [by apply set_descs_keys|]. intros st' m' H'. rewrite set_descs_keys by done. apply (H st' m'). by right.
  - apply IH. intros st' m' H'. apply (H st' m'). by right.
Qed.

Lemma set_descs_at (l1 : db_maps) st m x l2 : st ∉ l1.*1 -> set_descs st m (l1 ++ (st, x) :: l2)%list = (l1 ++ (st, m) :: l2)%list.
Proof.
  induction l1 as [|[t y] l1 IH]; cbn; intros H.
  - by destruct (decide (st = st)).
  - apply not_elem_of_cons in H as [H1 H2]. destruct (decide (t = st)) as [-> |]; [done|]. f_equal. by apply IH.
Qed.

Lemma merge_self (l types : db_maps) : l.*1 = types.*1 -> NoDup types.*1 ->
  fold_left (fun l tm => set_descs tm.1 tm.2 l) l types = l.
Proof.
  enough (forall l1 : db_maps, (l1 ++ l)%list.*1 = (l1 ++ types)%list.*1 -> NoDup (l1 ++ types)%list.*1 ->
    fold_left (fun l tm => set_descs tm.1 tm.2 l) l (l1 ++ types)%list = (l1 ++ l)%list) as K by (intros; by apply (K [])).
  revert types. induction l as [|[t m] l IH]; intros types l1 E N.
  - destruct types; [done|]. rewrite !fmap_app in E. apply app_inv_head in E. done.
  - destruct types as [|[t' x] types]; [rewrite !fmap_app in E; by apply app_inv_head in E|].
    assert (t' = t) as -> by (rewrite !fmap_app in E; apply app_inv_head in E; cbn in E; congruence).
    cbn [fold_left fst snd]. rewrite set_descs_at.
    + rewrite (app_assoc l1 [(t, m)] types : (l1 ++ (t, m) :: types)%list = _).
      rewrite (app_assoc l1 [(t, m)] l : (l1 ++ (t, m) :: l)%list = _). apply IH.
      * rewrite <- !app_assoc. cbn. rewrite !fmap_app in *. by apply E.
      * rewrite <- app_assoc. cbn. rewrite fmap_app in *. exact N.
    + rewrite fmap_app in N. apply NoDup_app in N as (_ & N & _). intros H. apply (N t H). by left.
Qed.

Lemma use_again g u v p r p' : gob_ok g -> use_db g u p = (DbOk r, p') ->
  NoDup (u_types u).*1 -> (forall ar st m, u_arrivals u = Some ar -> (st, m) ∈ ar -> st ∈ (u_types u).*1) ->
  (forall l, fetched_by u l -> g_text g l (u_text u)) -> u_types v = u_types u ->
  (exists t b, p' = PFile t b /\ (u_now v < t + max_age (u_env v))%Z) -> use_db g v p' = (DbOk r, p').
Proof.
  intros [G1 _] H N Ha Ht Et (t' & b' & E' & Hy).
  apply C142_exact in H as [(t & s & l & -> & _ & Er & G & ->)|(_ & _ & Hf & _ & ->)].
  - apply C142_exact. left. injection E' as <- <-. exists t, s, l. by rewrite Et.
  - injection E' as <- <-. apply C142_exact. left. exists (u_now u), (u_text u), r. split; [done|]. split; [done|].
    split; [by apply G1, Ht|]. split; [|done]. rewrite Et.
    rewrite <- (merge_self r (u_types u)) at 2; [apply merge_gathered| |done].
    destruct Hf as (ar & n & Ea & Hg & _). apply (gathered_keys _ _ _ Hg). intros st m Hm. by apply (Ha ar st m).
Qed.

Lemma fetch_frame s w dbs : forall i P l P', fetch_all s w i dbs P = Some (l, P') ->
  forall q, q ∉ map (file_of s) dbs -> P' q = P q.
Proof.
  induction dbs as [|db dbs IH]; intros i P l P' H q Hq; cbn [fetch_all] in H; [by injection H as <- <-|].
  destruct (use_db _ _ _) as [[r| | |] p']; [|done..].
  destruct (fetch_all _ _ _ dbs _) as [[l1 P1]|] eqn:E; [|done]. injection H as <- <-.
  cbn in Hq. apply not_elem_of_cons in Hq as [H1 H2]. rewrite (IH _ _ _ _ E q H2).
  by rewrite bool_decide_eq_false_2.
Qed.

Definition file_ok (dbs : list repo_db) : Prop := forall db, db ∈ dbs -> NoDup (db_types db).*1.

Lemma fetch_again s w w2 dbs : gob_ok (pv_gob s) -> forall i P Q l P', fetch_all s w i dbs P = Some (l, P') ->
  NoDup (map (file_of s) dbs) -> file_ok dbs ->
  (forall k db, dbs !! k = Some db ->
    (forall ar st m, fw_arrivals w (i + k) = Some ar -> (st, m) ∈ ar -> st ∈ (db_types db).*1) /\
    (forall l, fetched_by (use_of w (i + k) db) l -> g_text (pv_gob s) l (fw_text w (i + k)))) ->
  (forall db, db ∈ dbs -> still_used w2 (P' (file_of s db))) ->
  (forall q, q ∈ map (file_of s) dbs -> Q q = P' q) ->
  exists Q', fetch_all s w2 i dbs Q = Some (l, Q') /\ forall q, Q' q = Q q.
Proof.
  intros HG. induction dbs as [|db dbs IH]; intros i P Q l P' H N K A F HQ; cbn [fetch_all] in *.
  { injection H as <- <-. by exists Q. }
  destruct (use_db (pv_gob s) (use_of w i db) _) as [[r| | |] p'] eqn:Eu; [|done..].
  destruct (fetch_all _ w _ dbs _) as [[l1 P1]|] eqn:E; [|done]. injection H as <- <-.
  cbn [map] in N. apply NoDup_cons in N as [N1 N2].
  assert (P1 (file_of s db) = p') as Ep.
  { rewrite (fetch_frame _ _ _ _ _ _ _ E _ N1). by rewrite bool_decide_eq_true_2. }
  assert (Q (file_of s db) = p') as Eq.
  { rewrite HQ; [done|by left]. }
  assert (use_db (pv_gob s) (use_of w2 i db) p' = (DbOk r, p')) as Eu2.
  { destruct (A 0 db eq_refl) as [A1 A2]. rewrite Nat.add_0_r in A1, A2.
    eapply (use_again _ (use_of w i db)); [done|exact Eu|apply K; by left|exact A1|exact A2|done|].
    rewrite <- Ep. apply (F db). by left. }
  rewrite Eq, Eu2.
  edestruct (IH (S i) _ (fun q => if bool_decide (q = file_of s db) then p' else Q q) l1 P1 E) as (Q' & EQ & HQ').
  - done.
  - intros d Hd. apply K. by right.
  - intros k d Hk. destruct (A (S k) d Hk) as [A1 A2]. rewrite <- plus_n_Sm in A1, A2. done.
  - intros d Hd. apply F. by right.
  - intros q Hq. destruct (bool_decide_reflect (q = file_of s db)) as [-> |_]; [done|]. apply HQ. by right.
  - rewrite EQ. exists Q'. split; [done|]. intros q. rewrite HQ'.
    destruct (bool_decide_reflect (q = file_of s db)) as [-> |_]; done.
Qed.

Lemma fetch_ext s w dbs : forall i P Q l P', fetch_all s w i dbs P = Some (l, P') -> (forall q, P q = Q q) ->
  exists Q', fetch_all s w i dbs Q = Some (l, Q') /\ forall q, P' q = Q' q.
Proof.
  induction dbs as [|db dbs IH]; intros i P Q l P' H E; cbn [fetch_all] in *; [injection H as <- <-; by exists Q|].
  rewrite <- E. destruct (use_db _ _ _) as [[r| | |] p']; [|done..].
  destruct (fetch_all _ _ _ dbs _) as [[l1 P1]|] eqn:E1; [|done]. injection H as <- <-.
  destruct (IH _ _ (fun q => if bool_decide (q = file_of s db) then p' else Q q) _ _ E1) as (Q' & -> & HQ); [|by exists Q'].
  intros q. by destruct (bool_decide _).
Qed.

(** What is fetched is filed as the indexes and the files in the cache are. *)
Definition maps_filed (l : db_maps) : Prop := forall t m, (t, m) ∈ l -> filed m.

Lemma set_descs_in t m st x (l : db_maps) : (t, m) ∈ set_descs st x l -> m = x \/ (t, m) ∈ l.
Proof.
  induction l as [|[t' y] l IH]; cbn [set_descs].
  - intros H. apply elem_of_list_singleton in H. injection H as -> ->. by left.
  - destruct (decide (t' = st)); rewrite !elem_of_cons; [intros [[= -> ->]|H]; auto|]. intros [H|H]; [auto|]. destruct (IH H); auto.
Qed.

Lemma gathered_filed ar l l' : gathered ar l l' -> maps_filed l -> (forall t m, (t, Some m) ∈ ar -> filed m) -> maps_filed l'.
Proof.
  induction 1 as [|st m ar l l' _ IH|st ar l l' _ IH]; intros H1 H2; [done|..].
  - apply IH; [|intros t' m' H; apply (H2 t'); by right]. intros t' m' H. apply set_descs_in in H as [-> |H]; [|by apply (H1 t')].
    apply (H2 st). by left.
  - apply IH; [done|]. intros t' m' H. apply (H2 t'). by right.
Qed.

Lemma use_filed g u p r p' : use_db g u p = (DbOk r, p') -> maps_filed (u_types u) ->
  (forall ar t m, u_arrivals u = Some ar -> (t, Some m) ∈ ar -> filed m) ->
  (forall t b l, p = PFile t b -> g_read g b = Some l -> maps_filed l) -> maps_filed r.
Proof.
  intros H H1 H2 H3. apply C142_exact in H as [(t & s & l & -> & _ & Er & G & _)|(_ & _ & (ar & n & Ea & G & _) & _)].
  - apply (gathered_filed _ _ _ G); [done|]. intros t' m Hm. apply elem_of_list_fmap in Hm as ([t2 m2] & [= -> ->] & Hm).
    by apply (H3 t s l eq_refl Er t2).
  - apply (gathered_filed _ _ _ G); [done|]. intros t' m. by apply H2.
Qed.

Lemma fetch_filed s w dbs : forall i P l P', fetch_all s w i dbs P = Some (l, P') ->
  NoDup (map (file_of s) dbs) ->
  (forall db, db ∈ dbs -> maps_filed (db_types db)) ->
  (forall i ar t m, fw_arrivals w i = Some ar -> (t, Some m) ∈ ar -> filed m) ->
  (forall q t b l, q ∈ map (file_of s) dbs -> P q = PFile t b -> g_read (pv_gob s) b = Some l -> maps_filed l) ->
  forall db, db ∈ l -> maps_filed (db_types db).
Proof.
  induction dbs as [|db dbs IH]; intros i P l P' H N H1 H2 H3 d Hd; cbn [fetch_all] in H.
  { injection H as <- <-. by apply elem_of_nil in Hd. }
  destruct (use_db _ _ _) as [[r| | |] p'] eqn:Eu; [|done..].
  destruct (fetch_all _ _ _ dbs _) as [[l1 P1]|] eqn:E1; [|done]. injection H as <- <-.
  cbn [map] in N. apply NoDup_cons in N as [N1 N2].
  apply elem_of_cons in Hd as [-> |Hd].
  - apply (use_filed _ _ _ _ _ Eu); [apply H1; by left|apply (H2 i)|]. intros t b l0. apply (H3 (file_of s db)). by left.
  - apply (IH _ _ _ _ E1 N2); [|done| |done].
    + intros d' Hd'. apply H1. by right.
    + intros q t b l0 Hq. rewrite bool_decide_eq_false_2 by (intros ->; done). apply H3. by right.
Qed.

(** ** Tarballs *)

Lemma one_again u cache t f f1 d a g : unpack_one u cache t f = Some (f1, d, a) -> agree cache (tarball_name u t) g f1 ->
  unpack_one u cache t g = Some (g, d, a).
Proof.
  intros H Ha. pose proof (one_untar _ _ _ _ _ _ _ H) as Hu. pose proof (untar_dir _ _ _ _ Hu) as Hd.
  unfold unpack_one in *. rewrite Hu in H.
  assert (untar (tb_archive t) (cache ++ [tarball_name u t]) g = (g, true)) as ->.
  { unfold untar, fs_dir_exists. by rewrite (Ha []), Hd. }
  assert (package_dir (tb_names t) (cache ++ [tarball_name u t]) g = package_dir (tb_names t) (cache ++ [tarball_name u t]) f1) as ->.
  { unfold package_dir.
    rewrite (filter_ext _ (fun n => fs_dir_exists f1 ((cache ++ [tarball_name u t]) ++ [n])%list)); [done|].
    intros n. unfold fs_dir_exists. rewrite <- !app_assoc. cbn [app]. by rewrite (Ha [n]). }
  destruct (package_dir _ _ f1) as [p|] eqn:Ep; [|done].
  unfold package_dir in Ep. destruct (List.filter _ _) as [|n k] in Ep; [done|]. injection Ep as <-.
  revert H. rewrite <- !app_assoc. cbn [app]. rewrite (Ha [n; "DESCRIPTION"]).
  destruct (f1 (cache ++ [tarball_name u t; n; "DESCRIPTION"])%list) as [[c|]|]; [|done|done]. destruct (u_parse u c); [|done]. congruence.
Qed.

Lemma loop_again u cache ts : forall ds m f f' ds' m' g, unpack_loop u cache ts ds m f = Some (f', ds', m') ->
  (forall t, t ∈ ts -> agree cache (tarball_name u t) g f') ->
  unpack_loop u cache ts ds m g = Some (g, ds', m').
Proof.
  induction ts as [|t ts IH]; intros ds m f f' ds' m' g H Hg; cbn [unpack_loop] in *; [by injection H as -> -> ->|].
  destruct (unpack_one u cache t f) as [[[f1 d] a]|] eqn:E; [|done].
  pose proof (one_untar _ _ _ _ _ _ _ E) as Hu. pose proof (untar_dir _ _ _ _ Hu) as Hd.
  destruct (loop_agree _ _ _ _ _ _ _ _ _ _ H Hd) as [Ha _].
  rewrite (one_again _ _ _ _ _ _ _ g E); [|intros s; rewrite (Hg t); [apply Ha|by left]].
  apply (IH _ _ _ _ _ _ _ H). intros t' Ht'. apply Hg. by right.
Qed.

Lemma unpack_again u cache ts f f' ds m g : unpack_tarballs u cache ts f = Some (f', ds, m) -> (forall q, g q = f' q) ->
  unpack_tarballs u cache ts g = Some (g, ds, m).
Proof. intros H Hg. eapply loop_again; [exact H|]. intros t _ s. apply Hg. Qed.

Lemma loop_frame u cache ts : forall ds m f f' ds' m', unpack_loop u cache ts ds m f = Some (f', ds', m') ->
  forall q, f' q = f q \/ (exists t, t ∈ ts /\ in_dir (cache ++ [tarball_name u t])%list q /\ f (cache ++ [tarball_name u t])%list <> Some Dir) \/
    (in_dir q cache /\ f q = None /\ f' q = Some Dir).
Proof.
  induction ts as [|t ts IH]; intros ds m f f' ds' m' H q; cbn [unpack_loop] in H; [injection H as -> -> ->; by left|].
  destruct (unpack_one u cache t f) as [[[f1 d] a]|] eqn:E; [|done]. apply one_untar in E.
  pose proof E as Eu. unfold untar in E. destruct (fs_dir_exists f (cache ++ [tarball_name u t])%list) eqn:Ed.
  { injection E as <-. destruct (IH _ _ _ _ _ _ H q) as [K|[(t' & K1 & K)|K]]; [by left| |by right; right].
    right. left. exists t'. split; [by right|done]. }
  assert (f (cache ++ [tarball_name u t])%list <> Some Dir) as Hn by (unfold fs_dir_exists in Ed; by destruct (f _) as [[]|]).
  assert (in_dir (cache ++ [tarball_name u t]) q \/ ~ in_dir (cache ++ [tarball_name u t]) q) as [Hq|Hq].
  { destruct (below (cache ++ [tarball_name u t]) q) eqn:Eb; [left; by apply below_spec|right]. intros Hb. apply below_spec in Hb. congruence. }
  { right. left. exists t. split; [by left|done]. }
  assert (f1 q = f q \/ (in_dir q cache /\ f q = None /\ f1 q = Some Dir)) as H1.
  { destruct (extract_confined _ _ _ _ _ E q Hq) as [K|(K1 & K2 & K3)]; [by left|right]. split; [|done].
    destruct K1 as [s Es]. destruct s as [|x s _] using rev_ind.
    - exfalso. apply Hq. rewrite app_nil_r in Es. rewrite Es. exists []. by rewrite app_nil_r.
    - rewrite app_assoc in Es. apply app_inj_tail in Es as [-> _]. by exists s. }
  assert (forall t', f (cache ++ [tarball_name u t'])%list <> Some Dir \/ f1 (cache ++ [tarball_name u t'])%list = Some Dir) as H2.
  { intros t'. destruct (decide (f (cache ++ [tarball_name u t'])%list = Some Dir)) as [Hd|]; [|by left]. right.
    by rewrite (untar_agree cache _ (tarball_name u t') _ _ _ _ Eu (or_intror Hd) []). }
  destruct (IH _ _ _ _ _ _ H q) as [K|[(t' & K1 & K2 & K3)|(K1 & K2 & K3)]].
  - destruct H1 as [H1|(A & B & C)]; [left; congruence|]. right. right. split; [done|]. split; [done|]. congruence.
  - right. left. exists t'. split; [by right|]. split; [done|]. destruct (H2 t') as [|H3]; [done|]. by destruct K3.
  - right. right. split; [done|]. split; [|done]. destruct H1 as [H1|(_ & B & _)]; congruence.
Qed.

(** ** Reading the library *)

Lemma library_same (f g : fsys) cache lib : apart cache lib ->
  (forall q, g q = f q \/ (exists h, in_dir (cache ++ [h])%list q) \/ in_dir q cache) -> forall q, in_dir lib q -> g q = f q.
Proof.
  intros [A1 A2] H q [s ->]. destruct (H (lib ++ s)%list) as [|[(h & x & E)|(x & E)]]; [done|..]; exfalso.
  - assert (in_dir lib cache \/ in_dir cache lib) as [|]; [|done|done].
    assert (in_dir lib (lib ++ s)%list) as P1 by by exists s.
    assert (in_dir cache (lib ++ s)%list) as P2 by (rewrite E; exists ([h] ++ x)%list; by rewrite app_assoc).
    clear -P1 P2. revert P1 P2. generalize (lib ++ s)%list as q. intros q [x Ex] [y Ey]. rewrite Ex in Ey. clear Ex q.
    revert cache Ey. induction lib as [|a lib IH]; intros [|b cache] E; cbn in *.
    + left. by exists [].
    + left. by exists (b :: cache).
    + right. by exists (a :: lib).
    + injection E as <- E. destruct (IH _ E) as [[z ->]|[z ->]]; [left|right]; by exists z.
  - apply A2. rewrite E, <- app_assoc. by exists (s ++ x)%list.
Qed.

Lemma installed_same s f g : lists_ok s -> (forall q, in_dir (pv_library s) q -> g q = f q) ->
  installed_now s g = installed_now s f /\ fs_dir_exists g (pv_library s) = fs_dir_exists f (pv_library s).
Proof.
  intros Hl H. assert (g (pv_library s) = f (pv_library s)) as H0 by (apply H; exists []; by rewrite app_nil_r).
  assert (fs_dir_exists g (pv_library s) = fs_dir_exists f (pv_library s)) as E by (unfold fs_dir_exists; by rewrite H0).
  split; [|done]. unfold installed_now. rewrite E. destruct (fs_dir_exists f (pv_library s)); [|done]. f_equal.
  unfold library_dirs. rewrite (Hl g f); [|intros n; apply H; by exists [n]].
  rewrite (filter_ext _ (fun n => fs_dir_exists f (pv_library s ++ [n])%list));
    [|intros n; unfold fs_dir_exists; by rewrite H by (by exists [n])].
  apply map_ext. intros n. by rewrite H by by exists [n; "DESCRIPTION"].
Qed.

(** ** Whole plans *)

Lemma parse_deps_ok l : forall m m', parse_deps l m = Some m' -> deps_ok m -> deps_ok m'.
Proof.
  induction l as [|x l IH]; intros m m'; cbn [parse_deps]; [by intros [= <-]|].
  destruct (parse_dep x) as [d|]; [|done]. intros H Hm. apply (IH _ _ H). intros k v Hk.
  destruct (decide (k = dep_name d)) as [-> |Hn]; [rewrite lookup_insert in Hk; by injection Hk as <-|].
  rewrite lookup_insert_ne in Hk by done. by apply Hm.
Qed.

Lemma parse_desc_ok text d : parse_desc text = Some d -> desc_deps_ok d.
Proof.
  unfold parse_desc. destruct (read_fields _ _ _ _) as [vals|]; [|done]. unfold new_desc.
  assert (deps_ok ∅) as H0 by (intros k v Hk; by rewrite lookup_empty in Hk).
  destruct (parse_deps (raw_imports _) ∅) eqn:E1; [|done]. destruct (parse_deps (raw_suggests _) ∅) eqn:E2; [|done].
  destruct (parse_deps (raw_depends _) ∅) eqn:E3; [|done]. destruct (parse_deps (raw_linkingto _) ∅) eqn:E4; [|done].
  intros [= <-]. unfold desc_deps_ok. cbn [d_imports d_linkingto d_suggests d_depends].
  split; [by eapply parse_deps_ok|]. split; [by eapply parse_deps_ok|]. split; by eapply parse_deps_ok.
Qed.

Lemma descriptions_ok read paths : forall ds, unpack_descriptions read paths = Some ds -> Forall desc_deps_ok ds.
Proof.
  induction paths as [|p ps IH]; intros ds; cbn [unpack_descriptions]; [intros [= <-]; constructor|].
  destruct (read p) as [text|]; [|done]. destruct (parse_desc text) as [d|] eqn:Ed; [|done].
  destruct (unpack_descriptions read ps) as [ds'|]; [|done]. intros [= <-]. constructor; [by eapply parse_desc_ok|by apply IH].
Qed.

Lemma tarballs_ok u cache ts : (forall c d, u_parse u c = Some d -> desc_deps_ok d) ->
  forall ds m f f' ds' m', unpack_loop u cache ts ds m f = Some (f', ds', m') -> Forall desc_deps_ok ds -> Forall desc_deps_ok ds'.
Proof.
  intros Hp. induction ts as [|t ts IH]; intros ds m f f' ds' m' H Hd; cbn [unpack_loop] in H; [by injection H as <- <- <-|].
  destruct (unpack_one u cache t f) as [[[f1 d] a]|] eqn:E; [|done]. apply (IH _ _ _ _ _ _ H).
  apply Forall_app. split; [done|]. constructor; [|constructor]. unfold unpack_one in E.
  destruct (untar _ _ _) as [g [|]]; [|done]. destruct (package_dir _ _ _); [|done].
  destruct (g _) as [[c|]|]; [|done|done]. destruct (u_parse u c) as [d'|] eqn:Ec; [|done]. injection E as <- <- <-. by eapply Hp.
Qed.

Lemma missing_spec nx pkgs p : p ∈ ap_missing (get_packages nx pkgs) <-> p ∈ pkgs /\ ~ available nx p.
Proof.
  cbn [get_packages ap_missing]. rewrite elem_of_list_In, filter_In, <- elem_of_list_In.
  unfold get_package_go, available, offered. destruct (get_package nx p) as [[d c]|]; cbn; naive_solver.
Qed.

Lemma outcome_same o o' cfg nx ts ds inst le : oracle_ok o -> oracle_ok o' -> nexus_ok nx -> no_record nx "R" ->
  Forall desc_deps_ok ts -> Forall desc_deps_ok ds ->
  same_outcome (plan_install o cfg nx ts ds inst le) (plan_install o' cfg nx ts ds inst le).
Proof.
  intros Ho Ho' Hnx HR Ht Hd.
  assert (forall p, p ∈ plan_request (sub o 0) cfg ts ds <-> p ∈ plan_request (sub o' 0) cfg ts ds) as Hp.
  { intros p. rewrite !plan_request_spec by (done || by apply sub_ok). done. }
  destruct (plan_install_cases o cfg nx ts ds inst le Hnx HR) as [[E1 ->]|(deps & nx1 & E1 & A1 & A2 & A3 & A4 & A5)].
  { destruct (plan_install_cases o' cfg nx ts ds inst le Hnx HR) as [[_ ->]|(deps & nx1 & E2 & _)]; [done|congruence]. }
  destruct (plan_install_cases o' cfg nx ts ds inst le Hnx HR) as [[E2 _]|(deps2 & nx2 & E2 & _ & _ & _ & _ & B5)]; [congruence|].
  rewrite E1 in E2. injection E2 as <- <-.
  destruct A5 as [[(p & P1 & P2) ->]|[P ->]], B5 as [[(p' & P1' & P2') ->]|[P' ->]].
  - cbn [same_outcome]. intros q. rewrite !missing_spec. by rewrite Hp.
  - destruct P2. by apply P', Hp.
  - destruct P2'. by apply P, Hp.
  - pose proof (plan_same nx1 (cf_no_recommended cfg) (sub o 1) (sub o' 1) _ _ inst deps (negb (cf_no_update cfg)) le A1 A2
      (sub_ok o 1 Ho) (sub_ok o' 1 Ho') A3 Hp P) as K.
    destruct (resolve_installation_reqs (sub o 1) _ _ _ _ _ _ _), (resolve_installation_reqs (sub o' 1) _ _ _ _ _ _ _); done.
Qed.

Lemma configured_types os rel repos cs db : db ∈ configured_dbs os rel repos cs ->
  NoDup (db_types db).*1 /\ maps_filed (db_types db).
Proof.
  unfold configured_dbs. intros H. apply elem_of_list_fmap in H as (r & -> & _). unfold new_repo_db. cbn [db_types].
  assert (forall b, NoDup (initial_types b).*1 /\ maps_filed (initial_types b)) as K; [|apply K].
  intros []; (split; [apply (bool_decide_unpack _); by vm_compute|]); intros t m Hm; cbn in Hm; rewrite ?elem_of_cons, elem_of_nil in Hm;
    intros p d Hp; [destruct Hm as [[= -> ->]|[[= -> ->]|[]]]|destruct Hm as [[= -> ->]|[]]]; by rewrite lookup_empty in Hp.
Qed.

Lemma maps_nexus l rt : (forall db, db ∈ l -> maps_filed (db_types db)) -> nexus_ok (Nexus l ∅ rt) /\ no_record (Nexus l ∅ rt) "R".
Proof.
  intros H. assert (forall db st p d, db ∈ l -> has_record (db_types db) st p d -> d_package d = p /\ p <> "R") as K.
  { intros db st p d Hdb (m & (l1 & l2 & E & _) & Hp). apply (H db Hdb st m); [|done]. rewrite E. apply elem_of_app. right. by left. }
  split.
  - intros db st p d Hdb Hr. by apply (K db st p d).
  - intros db st d Hdb Hr. by destruct (K db st "R" d Hdb Hr).
Qed.
