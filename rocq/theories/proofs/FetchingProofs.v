(** Downloading packages to the cache. *)
From stdpp Require Import strings list gmap.
From Coq Require Import Ascii ZArith Lia.
From Verif.model Require Import GoStr Nexus RepoDb Fs Install Download Urls Fetching.
From Verif.spec Require Import StrSpec LibSpec InstallSpec DownloadSpec ApartSpec FetchingSpec.
From Verif.proofs Require Import GoStrLemmas FsProofs ExtractProofs CacheProofs DownloadProofs ApartProofs TogetherProofs.

Local Open Scope string_scope.

(** ** The goroutines do what those of Download.v do *)

Definition go_of (g : fgo) : gstate :=
  match g with FWait => GWait | FRun _ => GRun | FPut d => GPut d | FLeave => GLeave | FDone => GDone end.

Definition shadow (s : fstate) : dstate :=
  {| g_list := map (fun wg => (wg.1, go_of wg.2)) (f_list s); g_sem := f_sem s; g_map := f_map s; g_returned := f_returned s |}.

Lemma shadow_step x s l s' : fstep x s l s' ->
  (l = [] /\ shadow s' = shadow s) \/ exists a, l = [a] /\ dstep (shadow s) a (shadow s').
Proof.
  intros H. destruct H as [w l1 l2 n m f Hn|w k k' l1 l2 n m f f' Hk|w o l1 l2 n m f|w d l1 l2 n m f|w l1 l2 n m f|l n m f Hall|w k l1 l2 n m f Hk];
    unfold shadow; cbn [f_list f_sem f_map f_returned]; rewrite ?map_app; cbn [map fst snd go_of].
  - right. eexists. split; [done|]. by constructor.
  - by left.
  - right. eexists. split; [done|]. destruct o as [d|]; cbn [go_of].
    + apply (d_end w _ _ n m (Some d)).
    + apply (d_end w _ _ n m None).
  - right. eexists. split; [done|]. constructor.
  - right. eexists. split; [done|]. constructor.
  - right. eexists. split; [done|]. constructor. intros w g H. apply elem_of_list_fmap in H as ([w' g'] & E & H).
    injection E as -> ->. by rewrite (Hall _ _ H).
  - by left.
Qed.

Lemma shadow_exec x ds f ls s : fexec x (finitial ds f) ls s -> dexec (dinitial ds) ls (shadow s).
Proof.
  induction 1 as [|ls s1 l s2 H IH Hs].
  - replace (shadow (finitial ds f)) with (dinitial ds); [constructor|].
    unfold shadow, dinitial, finitial. cbn. f_equal. rewrite map_map. done.
  - destruct (shadow_step _ _ _ _ Hs) as [[-> E]|(a & -> & Hd)].
    + by rewrite app_nil_r, E.
    + by eapply dexec_snoc.
Qed.

(** ** Places *)

Lemma place_eq x w : sum_texts (x_md5 x) -> x_os x <> OtherOs -> sensible w ->
  exists dir n, place x w = (x_cache x ++ repo_dir (x_md5 x) (w_repo w) :: dir ++ [n])%list /\ file_name n /\
    (dir = ["src"] \/ dir = ["binary"; rv_short (x_rv x)]) /\
    exists y, n = w_pkg w +:+ "_" +:+ y.
Proof.
  intros Hs Ho Hw. destruct (download_path_eq (x_md5 x) (x_os x) (is_rhel (x_rel x)) (x_cache x) (x_rv x) w Hs Hw Ho) as (y & Hy & E & _).
  unfold place. rewrite E. destruct Hw as (Hp & Hv & _). apply r_name_chars in Hp as [Hp _].
  exists (if decide (effective_type (x_os x) (w_type w) = STBinary) then ["binary"; rv_short (x_rv x)] else ["src"]).
  eexists. split; [done|]. split; [by apply file_suffix|]. split; [destruct (decide _); auto|]. by eexists.
Qed.

Lemma place_dir x w : sum_texts (x_md5 x) -> x_os x <> OtherOs -> sensible w ->
  in_dir (x_cache x) (place x w) /\ in_dir (x_cache x) (removelast (place x w)) /\ place x w <> [] /\
  in_dir (removelast (place x w)) (place x w).
Proof.
  intros Hs Ho Hw. destruct (place_eq x w Hs Ho Hw) as (dir & n & E & _). rewrite E.
  rewrite app_comm_cons, app_assoc. rewrite removelast_last. split; [|split; [|split]].
  - rewrite <- app_assoc. by eexists.
  - by eexists.
  - intros H. by apply app_eq_nil in H as [_ H].
  - by eexists.
Qed.

Section fetching.

Context (x : fetch_env) (ds : list wanted) (f0 : fsys).
Hypothesis Hok : fetch_ok x ds.

Let Hs : sum_texts (x_md5 x) := fk_sums _ _ Hok.
Let Ho : x_os x <> OtherOs := fk_os _ _ Hok.

Lemma places_apart w w' : w ∈ ds -> w' ∈ ds -> w_pkg w <> w_pkg w' -> place x w <> place x w'.
Proof.
  intros H1 H2 Hne E. apply Hne.
  by apply (downloads_apart (x_md5 x) (x_os x) (is_rhel (x_rel x)) (x_cache x) (x_rv x) (x_rv x) w w' Hs Ho
    (fk_sensible _ _ Hok w H1) (fk_sensible _ _ Hok w' H2) E).
Qed.

Definition result_ok (g : fsys) (w : wanted) (d : download) : Prop :=
  d_wanted d = meant x w /\ (kept x f0 g w d \/ arrived x f0 g w d \/ not_had x f0 g w d).

Definition failed_ok (g : fsys) (w : wanted) : Prop := spoiled x f0 g w.

(** What is known about the download of [w]. *)
Definition good (g : fsys) (m : gmap string download) (w : wanted) (s : fgo) : Prop :=
  match s with
  | FWait | FRun KLook => g (place x w) = f0 (place x w)
  | FRun KAsk => g (place x w) = None /\ f0 (place x w) = None
  | FRun (KMake c ok) => g (place x w) = None /\ f0 (place x w) = None /\ (ok = true -> delivered x f0 w c)
  | FRun (KCopy a b ok) => g (place x w) = Some (File a) /\ f0 (place x w) = None /\ (ok = true -> delivered x f0 w (a +:+ b))
  | FRun (KEnd (Some d)) | FPut d => result_ok g w d
  | FRun (KEnd None) => failed_ok g w
  | FLeave | FDone => match m !! w_pkg w with Some d => result_ok g w d | None => failed_ok g w end
  end.

Record finv (s : fstate) : Prop := {
  fi_list : map fst (f_list s) = ds;
  fi_map : forall w g, (w, g) ∈ f_list s -> match g with FWait | FRun _ | FPut _ => f_map s !! w_pkg w = None | _ => True end;
  fi_good : forall w g, (w, g) ∈ f_list s -> good (f_fs s) (f_map s) w g;
  fi_frame : forall q, (forall w, w ∈ ds -> q <> place x w) -> f_fs s q = f0 q;
  fi_dirs : forall q, f0 q = Some Dir -> f_fs s q = Some Dir;
  fi_tree : tree_ok f0 -> tree_ok (f_fs s)
}.

Lemma finv_initial : finv (finitial ds f0).
Proof.
  split; cbn [f_list f_map f_fs finitial].
  - rewrite map_map. apply map_id.
  - intros w g H. apply elem_of_list_fmap in H as (w' & [= -> ->] & _). apply lookup_empty.
  - intros w g H. by apply elem_of_list_fmap in H as (w' & [= -> ->] & _).
  - done.
  - done.
  - done.
Qed.

Lemma entry_wanted (l : list (wanted * fgo)) w g : map fst l = ds -> (w, g) ∈ l -> w ∈ ds.
Proof. intros <- H. apply elem_of_list_fmap. by exists (w, g). Qed.

Lemma entry_other (l1 l2 : list (wanted * fgo)) w g w' g' : map fst (l1 ++ (w, g) :: l2)%list = ds ->
  (w', g') ∈ l1 \/ (w', g') ∈ l2 -> w_pkg w' <> w_pkg w.
Proof.
  intros E H. pose proof (fk_names _ _ Hok) as Hn. rewrite <- E in Hn.
  assert (map fst (l1 ++ (w, g) :: l2)%list =
    map fst ((map (fun wg => (wg.1, go_of wg.2)) l1) ++ (w, go_of g) :: (map (fun wg => (wg.1, go_of wg.2)) l2))%list) as Em.
  { rewrite !map_app. cbn [map fst]. rewrite !map_map. done. }
  rewrite Em in Hn. eapply (names_mid _ _ _ _ Hn w' (go_of g')).
  destruct H as [H|H]; [left|right]; apply elem_of_list_fmap; by exists (w', g').
Qed.

Lemma good_same (g g' : fsys) m m' w s : g' (place x w) = g (place x w) -> m' !! w_pkg w = m !! w_pkg w -> good g m w s -> good g' m' w s.
Proof.
  intros E Em. unfold good, result_ok, failed_ok, kept, arrived, not_had, spoiled. rewrite Em, E. done.
Qed.

Lemma write_other p c f q : q <> p -> write_file p c f q = f q.
Proof. intros H. unfold write_file. by rewrite bool_decide_false. Qed.
Lemma write_same p c f : write_file p c f p = Some (File c).
Proof. unfold write_file. by rewrite bool_decide_true. Qed.

Lemma kstep_fs w k f k' f' : kstep x w k f k' f' -> f' = f \/ exists c, f' = write_file (place x w) c f /\
  ((exists a ok, k = KMake a ok /\ c = "" /\ f (removelast (place x w)) = Some Dir) \/ exists a b ok, k = KCopy a b ok).
Proof.
  intros H. destruct H as [f H|f H|f url r H1 H2|f c ok H1 H2|f c ok|f c a b ok H|f c r ok|f c]; try by left.
  - right. eexists. split; [done|]. left. exists c, ok. split; [done|]. split; [done|].
    unfold fs_dir_exists in H1. by destruct (f (removelast (place x w))) as [[]|].
  - right. eexists. split; [done|]. right. by eexists _, _, _.
Qed.

Lemma good_own f m w k f' k' : w ∈ ds -> kstep x w k f k' f' ->
  (forall q, (forall w, w ∈ ds -> q <> place x w) -> f q = f0 q) ->
  good f m w (FRun k) -> good f' m w (FRun k').
Proof.
  intros Hw H Hfr. destruct H as [f H|f H|f url r H1 H2|f c ok H1 H2|f c ok|f c a b ok H|f c r ok|f c]; cbn [good].
  - intros E. split; [done|]. left. unfold fs_exists in H. split; [done|]. split; [done|]. rewrite <- E.
    split; [|done]. by destruct (f (place x w)).
  - intros E. unfold fs_exists in H. rewrite <- E. by destruct (f (place x w)).
  - intros [E1 E2]. destruct r as [|code|c ok]; cbn [after_answer].
    + cbn [good]. split; [done|]. rewrite E1. done.
    + cbn [good]. split; [done|]. right. right. split; [done|]. split; [done|]. split; [done|]. split; [done|].
      exists url, code. split; [done|]. inversion H2; subst. done.
    + cbn [good]. split; [done|]. split; [done|]. intros ->. inversion H2 as [r A B Er|c' A B Er|A B Er]; subst.
      * left. by exists url.
      * right. eexists. split; [by exists url|]. rewrite <- B. symmetry. apply Hfr. intros w' Hw' E.
        apply (fk_local _ _ Hok w (Install.resolve (x_cwd x) url) Hw); [by exists url|]. rewrite E.
        by apply (place_dir x w' Hs Ho (fk_sensible _ _ Hok w' Hw')).
  - intros (_ & E2 & E3). split; [apply write_same|]. split; [done|]. exact E3.
  - intros (E1 & E2 & _). split; [done|]. rewrite E1. done.
  - intros (_ & E2 & E3). split; [apply write_same|]. split; [done|]. intros ->.
    rewrite app_assoc_str. by apply E3.
  - intros (E1 & E2 & _). split; [done|]. rewrite E1. intros n [= <-]. by eexists.
  - intros (E1 & E2 & E3). split; [done|]. right. left. split; [done|]. split; [done|]. split; [done|]. exists c. split; [|done].
    rewrite <- (app_nil_str c). by apply E3.
Qed.

Lemma map_fst_list (l1 : list (wanted * fgo)) w g g' l2 : map fst (l1 ++ (w, g) :: l2)%list = map fst (l1 ++ (w, g') :: l2)%list.
Proof. by rewrite !map_app. Qed.

(** A step that changes the entry of [w], and perhaps its file and its result. *)
Lemma finv_change l1 l2 w g g' n m f n' m' f' : finv (FState (l1 ++ (w, g) :: l2) n m false f false) ->
  (forall q, q <> place x w -> f' q = f q) -> (forall p, p <> w_pkg w -> m' !! p = m !! p) ->
  (match g' with FWait | FRun _ | FPut _ => m' !! w_pkg w = None | _ => True end) ->
  good f' m' w g' -> (f' (place x w) = f (place x w) \/ (f (place x w) <> Some Dir /\ exists c, f' (place x w) = Some (File c))) ->
  (tree_ok f -> tree_ok f') ->
  finv (FState (l1 ++ (w, g') :: l2) n' m' false f' false).
Proof.
  intros [I1 I2 I3 I4 I5 I6] Hf Hm Hm' Hg Hd Ht. cbn [f_list f_map f_fs] in *.
  assert (w ∈ ds) as Hw by (eapply entry_wanted; [exact I1|apply elem_mid; by left]).
  split; cbn [f_list f_map f_fs].
  - by rewrite (map_fst_list l1 w g' g l2).
  - intros w' g2 H. apply elem_mid in H as [[= -> ->]|H]; [done|].
    pose proof (entry_other _ _ _ _ _ _ I1 H) as Hne. rewrite Hm by done. apply I2. apply elem_mid. by right.
  - intros w' g2 H. apply elem_mid in H as [[= -> ->]|H]; [done|].
    pose proof (entry_other _ _ _ _ _ _ I1 H) as Hne.
    assert ((w', g2) ∈ (l1 ++ (w, g) :: l2)%list) as Hin by (apply elem_mid; by right).
    eapply (good_same f f' m m'); [|by apply Hm|by apply I3].
    apply Hf. apply places_apart; [|done|done]. by eapply entry_wanted.
  - intros q Hq. rewrite Hf by by apply Hq. by apply I4.
  - intros q Hq. destruct (decide (q = place x w)) as [->|Hne].
    + apply I5 in Hq. destruct Hd as [->|[Hd _]]; done.
    + rewrite Hf by done. by apply I5.
  - intros T. by apply Ht, I6.
Qed.

Lemma finv_step s l s' : finv s -> fstep x s l s' -> finv s'.
Proof.
  intros I H. destruct H as [w l1 l2 n m f Hn|w k k' l1 l2 n m f f' Hk|w o l1 l2 n m f|w d l1 l2 n m f|w l1 l2 n m f|l n m f Hall|w k l1 l2 n m f Hk].
  - pose proof (fi_good _ I w _ (proj2 (elem_mid _ _ _ _) (or_introl eq_refl))) as G.
    pose proof (fi_map _ I w _ (proj2 (elem_mid _ _ _ _) (or_introl eq_refl))) as M. cbn in G, M.
    eapply finv_change; [exact I|done|done|done|done|by left|done].
  - pose proof (fi_good _ I w _ (proj2 (elem_mid _ _ _ _) (or_introl eq_refl))) as G.
    pose proof (fi_map _ I w _ (proj2 (elem_mid _ _ _ _) (or_introl eq_refl))) as M. cbn [f_list f_map f_fs] in G, M.
    assert (w ∈ ds) as Hw by (eapply entry_wanted; [exact (fi_list _ I)|cbn; apply elem_mid; by left]).
    eapply finv_change; [exact I| |done|done| | |].
    + intros q Hq. destruct (kstep_fs _ _ _ _ _ Hk) as [->|(c & -> & _)]; [done|by apply write_other].
    + eapply good_own; [done|exact Hk|exact (fi_frame _ I)|done].
    + destruct (kstep_fs _ _ _ _ _ Hk) as [->|(c & -> & K)]; [by left|right]. rewrite write_same. split; [|by eexists].
      destruct K as [(a & ok & -> & _)|(a & b & ok & ->)]; cbn in G; destruct G as [G _]; by rewrite G.
    + intros T. destruct (kstep_fs _ _ _ _ _ Hk) as [->|(c & -> & K)]; [done|].
      destruct (place_dir x w Hs Ho (fk_sensible _ _ Hok w Hw)) as (_ & _ & Hne & _).
      apply set_tree; [done|done| |].
      * destruct K as [(a & ok & _ & _ & K)|(a & b & ok & ->)]; [done|].
        cbn in G. destruct G as [G _]. destruct (exists_last Hne) as (q & y & E). rewrite E, removelast_last.
        apply (T q y). by rewrite <- E, G.
      * destruct K as [(a & ok & -> & _)|(a & b & ok & ->)]; cbn in G; destruct G as [G _]; rewrite G; done.
  - pose proof (fi_good _ I w _ (proj2 (elem_mid _ _ _ _) (or_introl eq_refl))) as G.
    pose proof (fi_map _ I w _ (proj2 (elem_mid _ _ _ _) (or_introl eq_refl))) as M. cbn [f_list f_map f_fs] in G, M.
    eapply finv_change; [exact I|done|done|by destruct o| |by left|done].
    destruct o as [d|]; cbn in G |- *; [done|]. by rewrite M.
  - pose proof (fi_good _ I w _ (proj2 (elem_mid _ _ _ _) (or_introl eq_refl))) as G.
    eapply finv_change; [exact I|done| |done| |by left|done].
    + intros p Hp. by rewrite lookup_insert_ne.
    + cbn in G |- *. by rewrite lookup_insert.
  - pose proof (fi_good _ I w _ (proj2 (elem_mid _ _ _ _) (or_introl eq_refl))) as G.
    eapply finv_change; [exact I|done|done|done|done|by left|done].
  - by destruct I.
  - by destruct I.
Qed.

Lemma finv_exec ls s : fexec x (finitial ds f0) ls s -> finv s.
Proof. induction 1 as [|ls s1 l s2 H IH Hst]; [apply finv_initial|by eapply finv_step]. Qed.

End fetching.

(** ** The directories made beforehand *)

Definition repo_dirs (md5 : string -> string) (cache : list string) (rv : r_version) (r : repo_url) (p : list string) : Prop :=
  p = (cache ++ [repo_dir md5 r; "src"])%list \/ p = (cache ++ [repo_dir md5 r; "binary"; rv_short rv])%list.

Lemma make_dirs_change md5 cache rv repos : (forall r, r ∈ repos -> file_name (repo_dir md5 r)) ->
  forall f f', make_dirs md5 cache rv repos f = Some f' ->
  (forall q, f' q <> f q -> f q = None /\ f' q = Some Dir /\ exists r p, r ∈ repos /\ repo_dirs md5 cache rv r p /\ in_dir q p) /\
  (tree_ok f -> tree_ok f').
Proof.
  intros Hn. induction repos as [|r repos IH]; intros f f'; cbn [make_dirs].
  - intros [= <-]. by split.
  - destruct (mkdir_all (join_path (join_path cache (repo_dir md5 r)) "src") f) as [f1|] eqn:E1; [|done].
    destruct (mkdir_all _ f1) as [f2|] eqn:E2; [|done]. intros H.
    destruct (IH ltac:(intros; apply Hn; by right) _ _ H) as [K1 K2].
    assert (file_name (repo_dir md5 r)) as Hr by (apply Hn; by left).
    assert (file_name "src") as Fs by (by repeat split). assert (file_name "binary") as Fb by (by repeat split).
    rewrite !join_file in E1 by done. rewrite !join_file in E2 by first [done|apply rv_short_name].
    rewrite <- !app_assoc in E1, E2. cbn [app] in E1, E2. rewrite <- ?app_assoc in E2. cbn [app] in E2.
    split; [|intros T; apply K2; eapply mkdir_tree; [eapply mkdir_tree; [exact T|exact E1]|exact E2]].
    assert (forall p g g' q, mkdir_all p g = Some g' -> g' q <> g q -> g q = None /\ g' q = Some Dir /\ in_dir q p) as Hmk.
    { intros p g g' q Hm Hq. destruct (mkdir_spec _ _ _ Hm) as (M1 & M2 & M3).
      destruct (decide (below q p = true)) as [Hb|Hb].
      - apply below_spec in Hb. rewrite (M1 q Hb) in Hq |- *. split; [|done].
        destruct (g q) as [[c|]|] eqn:Eg; [|done|done]. by destruct (M3 q c Eg).
      - rewrite M2 in Hq; [done|]. by rewrite <- below_spec. }
    intros q Hq. destruct (decide (f2 q = f q)) as [Eq|Hne2].
    + rewrite <- Eq in Hq |- *. destruct (K1 q Hq) as (A & B & r' & p & C & D). split; [done|]. split; [done|].
      exists r', p. split; [by right|done].
    + destruct (decide (f1 q = f q)) as [Eq|Hne1].
      * rewrite <- Eq in Hne2 |- *. destruct (Hmk _ _ _ _ E2 Hne2) as (A & B & C). split; [done|]. split.
        -- destruct (decide (f' q = f2 q)) as [->|Hne]; [done|]. destruct (K1 q Hne) as (_ & D & _). done.
        -- exists r. eexists. split; [by left|]. split; [by right|done].
      * destruct (Hmk _ _ _ _ E1 Hne1) as (A & B & C). split; [done|]. split.
        -- pose proof (mkdir_keeps _ _ _ _ E2 B) as B2. destruct (decide (f' q = f2 q)) as [->|Hne]; [done|].
           destruct (K1 q Hne) as (_ & D & _). done.
        -- exists r. eexists. split; [by left|]. split; [by left|done].
Qed.

(** ** From the files before *)

Lemma get_repos_in ds n r : get_repos ds !! n = Some r -> exists w, w ∈ ds /\ w_repo w = r.
Proof.
  unfold get_repos.
  assert (forall (l : list wanted) (m : gmap string repo_url),
    foldl (fun m d => <[ru_name (w_repo d) := w_repo d]> m) m l !! n = Some r -> m !! n = Some r \/ exists w, w ∈ l /\ w_repo w = r) as H.
  { induction l as [|w l IH]; intros m H; cbn [foldl] in H; [by left|]. apply IH in H as [H|(w' & H1 & H2)].
    - destruct (decide (ru_name (w_repo w) = n)) as [<-|Hne].
      + rewrite lookup_insert in H. injection H as <-. right. exists w. split; [by left|done].
      + rewrite lookup_insert_ne in H by done. by left.
    - right. exists w'. split; [by right|done]. }
  intros K. apply H in K as [K|K]; [by rewrite lookup_empty in K|done].
Qed.

Section whole.

Context (x : fetch_env) (ds : list wanted) (f : fsys).
Hypothesis Hok : fetch_ok x ds.

Let Hs : sum_texts (x_md5 x) := fk_sums _ _ Hok.
Let Ho : x_os x <> OtherOs := fk_os _ _ Hok.

Context (repos : list repo_url) (f0 : fsys).
Hypothesis Hrepos : repos ≡ₚ (map_to_list (get_repos ds)).*2.
Hypothesis Hdirs : make_dirs (x_md5 x) (x_cache x) (x_rv x) repos f = Some f0.

Lemma repos_wanted r : r ∈ repos -> exists w, w ∈ ds /\ w_repo w = r.
Proof.
  rewrite Hrepos. intros H. apply elem_of_list_fmap in H as ([n r'] & -> & H). apply elem_of_map_to_list in H.
  by eapply get_repos_in.
Qed.

Lemma repos_named r : r ∈ repos -> file_name (repo_dir (x_md5 x) r).
Proof.
  intros H. apply repos_wanted in H as (w & Hw & <-). apply repo_dir_name; [done|]. by apply (fk_sensible _ _ Hok w Hw).
Qed.

Lemma dirs_change q : f0 q <> f q -> f q = None /\ f0 q = Some Dir /\
  exists r p, r ∈ repos /\ repo_dirs (x_md5 x) (x_cache x) (x_rv x) r p /\ in_dir q p.
Proof. apply (make_dirs_change _ _ _ _ repos_named _ _ Hdirs). Qed.

Lemma dirs_tree : tree_ok f -> tree_ok f0.
Proof. apply (make_dirs_change _ _ _ _ repos_named _ _ Hdirs). Qed.

Lemma place_not_made w r p : w ∈ ds -> repo_dirs (x_md5 x) (x_cache x) (x_rv x) r p -> ~ in_dir (place x w) p.
Proof.
  intros Hw Hp [z E]. destruct (place_eq x w Hs Ho (fk_sensible _ _ Hok w Hw)) as (dir & n & Ep & _ & Hd & _).
  rewrite Ep in E. destruct Hp as [-> | ->], Hd as [-> | ->]; rewrite <- app_assoc in E; apply app_inv_head in E; cbn in E;
    by inversion E.
Qed.

Lemma place_before w : w ∈ ds -> f0 (place x w) = f (place x w).
Proof.
  intros Hw. destruct (decide (f0 (place x w) = f (place x w))) as [|Hne]; [done|].
  destruct (dirs_change _ Hne) as (_ & _ & r & p & _ & Hp & Hi). by destruct (place_not_made w r p Hw Hp).
Qed.

Lemma file_before q c : f0 q = Some (File c) -> f q = Some (File c).
Proof.
  intros H. destruct (decide (f0 q = f q)) as [<-|Hne]; [done|]. destruct (dirs_change _ Hne) as (_ & E & _). congruence.
Qed.

Lemma delivered_before w c : delivered x f0 w c -> delivered x f w c.
Proof. intros [H|(q & H1 & H2)]; [by left|right]. exists q. split; [done|]. by apply file_before. Qed.

Lemma result_before g w d : w ∈ ds -> result_ok x f0 g w d -> result_ok x f g w d.
Proof.
  intros Hw [H1 H2]. split; [done|]. unfold kept, arrived, not_had in *. rewrite (place_before w Hw) in H2.
  destruct H2 as [H2|[(A & B & C & c & D & E)|H2]]; [by left| |by right; right].
  right. left. split; [done|]. split; [done|]. split; [done|]. exists c. split; [by apply delivered_before|done].
Qed.

Context (ls : list dlabel) (s : fstate).
Hypothesis Hx : fexec x (finitial ds f0) ls s.

Lemma fetch_results : f_returned s = true ->
  (forall w, w ∈ ds -> match f_map s !! w_pkg w with Some d => result_ok x f (f_fs s) w d | None => spoiled x f (f_fs s) w end) /\
  (forall p, ~ p ∈ map w_pkg ds -> f_map s !! p = None).
Proof.
  intros Hr. pose proof (finv_exec x ds f0 Hok ls s Hx) as I. pose proof (shadow_exec _ _ _ _ _ Hx) as Hsh.
  pose proof (dinv_exec _ _ _ (fk_names _ _ Hok) Hsh) as D. split.
  - intros w Hw. pose proof Hw as Hw'. rewrite <- (fi_list _ _ _ _ I) in Hw'. apply elem_of_list_fmap in Hw' as ([w' g] & E & Hin). cbn in E. subst w'.
    assert (g = FDone) as ->.
    { assert ((w, go_of g) ∈ g_list (shadow s)) as H by (apply elem_of_list_fmap; by exists (w, g)).
      apply (di_done _ _ _ D Hr) in H. by destruct g. }
    pose proof (fi_good _ _ _ _ I _ _ Hin) as G. cbn in G. destruct (f_map s !! w_pkg w) as [d|].
    + by apply result_before.
    + unfold failed_ok, spoiled in *. by rewrite <- (place_before w Hw).
  - exact (di_other _ _ _ D).
Qed.

Lemma fetch_keeps q n : f q = Some n -> f_fs s q = Some n.
Proof.
  intros H. pose proof (finv_exec x ds f0 Hok ls s Hx) as I.
  assert (f0 q = Some n) as H0.
  { destruct (decide (f0 q = f q)) as [->|Hne]; [done|]. destruct (dirs_change _ Hne) as (E & _). congruence. }
  destruct (decide (Exists (fun w => q = place x w) ds)) as [Hp|Hp].
  - apply List.Exists_exists in Hp as (w & Hw & ->). apply elem_of_list_In in Hw.
    rewrite <- (fi_list _ _ _ _ I) in Hw. apply elem_of_list_fmap in Hw as ([w' g] & E & Hin). cbn in E. subst w'.
    pose proof (fi_good _ _ _ _ I _ _ Hin) as G. unfold good, result_ok, failed_ok, kept, arrived, not_had, spoiled in G.
    destruct g as [|[| | | |[d|]]|d| |]; rewrite H0 in G; try (by rewrite G); try (by destruct G as [_ G]); try (by destruct G as (_ & G & _)).
    all: try (destruct (f_map s !! w_pkg w) as [d|]); try (by destruct G as [G _]).
    all: destruct G as (_ & [(_ & _ & _ & G)|[(_ & _ & G & _)|(_ & _ & G & _)]]); try done.
  - rewrite (fi_frame _ _ _ _ I); [done|]. intros w Hw ->. apply Hp, List.Exists_exists. exists w. split; [by apply elem_of_list_In|done].
Qed.

Lemma fetch_frame : cache_only x f (f_fs s).
Proof.
  intros q Hq. pose proof (finv_exec x ds f0 Hok ls s Hx) as I.
  destruct (decide (Exists (fun w => q = place x w) ds)) as [Hp|Hp].
  - left. apply List.Exists_exists in Hp as (w & Hw & ->). apply elem_of_list_In in Hw.
    by apply (place_dir x w Hs Ho (fk_sensible _ _ Hok w Hw)).
  - assert (f_fs s q = f0 q) as E.
    { apply (fi_frame _ _ _ _ I). intros w Hw ->. apply Hp, List.Exists_exists. exists w. split; [by apply elem_of_list_In|done]. }
    rewrite E in Hq |- *. destruct (dirs_change _ Hq) as (A & B & r & p & _ & Hp' & Hi).
    assert (in_dir q (x_cache x) \/ in_dir (x_cache x) q) as [K|K].
    { destruct Hp' as [-> | ->]; by apply in_dir_cases in Hi. }
    + by right.
    + by left.
Qed.

Lemma fetch_tree : tree_ok f -> tree_ok (f_fs s).
Proof. intros T. by apply (fi_tree _ _ _ _ (finv_exec x ds f0 Hok ls s Hx)), dirs_tree. Qed.

End whole.

(** ** Going on and ending *)

Lemma split_entry (l : list (wanted * fgo)) w g : (w, g) ∈ l -> exists l1 l2, l = (l1 ++ (w, g) :: l2)%list.
Proof. intros H. by apply elem_of_list_split in H. Qed.

Lemma run_goes_on x w k f : answering x -> (exists o, k = KEnd o) \/ (exists k' f', kstep x w k f k' f') \/ kstop x w k f.
Proof.
  intros Ha. destruct k as [| |c ok|a b ok|o].
  - right. left. destruct (fs_exists f (place x w)) eqn:E; eexists _, _; [by apply k_there|by apply k_absent].
  - right. destruct (address x w) as [url|] eqn:E; [|right; by apply k_stop_panic].
    destruct (is_http url) eqn:Eh.
    + destruct (Ha url Eh) as [r Hr]. left. eexists _, _. by apply k_ask with (url := url) (r := r); [|apply an_web].
    + destruct (f (Install.resolve (x_cwd x) url)) as [[c|]|] eqn:Ef.
      * left. eexists _, _. apply k_ask with (url := url) (r := Body c true); [done|]. by apply an_file.
      * left. eexists _, _. apply k_ask with (url := url) (r := Body "" false); [done|]. by apply an_dir.
      * right. by eapply k_stop_missing.
  - right. left. eexists _, _. apply k_no_make.
  - right. left. eexists _, _. apply k_break.
  - left. by eexists.
Qed.

Lemma fetch_goes_on x ds f ls s : answering x -> NoDup (map w_pkg ds) -> fexec x (finitial ds f) ls s ->
  f_returned s = false -> f_stopped s = false -> exists l s', fstep x s l s'.
Proof.
  intros Ha Hn H Hr Hst. pose proof (dinv_exec _ _ _ Hn (shadow_exec _ _ _ _ _ H)) as D.
  destruct s as [l n m r g st]. cbn in Hr, Hst. subst r st.
  pose proof (di_sem _ _ _ D) as D2. cbn [shadow f_list f_sem g_sem g_list] in D2.
  destruct (decide (tot active (map (fun wg => (wg.1, go_of wg.2)) l) = 0)) as [E0|E0].
  - destruct (decide (tot weight (map (fun wg => (wg.1, go_of wg.2)) l) = 0)) as [Hw|Hw].
    + exists [DReturn]. eexists. apply x_return. intros w h Hin. apply split_entry in Hin as (l1 & l2 & ->).
      rewrite map_app in Hw. cbn [map fst snd] in Hw. rewrite tot_mid in Hw. destruct h; cbn in Hw; try lia. done.
    + apply tot_pos in Hw as (w & h & Hin & Hg). apply elem_of_list_fmap in Hin as ([w' h'] & E & Hin). cbn [fst snd] in E. injection E as -> ->.
      apply split_entry in Hin as (l1 & l2 & ->). rewrite map_app in E0, D2. cbn [map fst snd] in E0, D2. rewrite tot_mid in E0, D2.
      destruct h'; cbn in Hg, E0, D2; try lia. eexists _, _. apply x_acquire. unfold sem_cap. lia.
  - apply tot_pos in E0 as (w & h & Hin & Hg). apply elem_of_list_fmap in Hin as ([w' h'] & E & Hin). cbn [fst snd] in E. injection E as -> ->.
    apply split_entry in Hin as (l1 & l2 & ->). rewrite map_app in D2. cbn [map fst snd] in D2. rewrite tot_mid in D2.
    destruct h' as [|k|d| |]; cbn in Hg, D2; try lia.
    + destruct (run_goes_on x w' k g Ha) as [(o & ->)|[(k' & g' & Hk)|Hk]].
      * eexists _, _. apply x_end.
      * eexists _, _. by apply x_work.
      * eexists _, _. by apply x_stop.
    + eexists _, _. apply x_put.
    + destruct n as [|n]; [lia|]. eexists _, _. apply x_release.
Qed.

(** Each step but copying leads to a later stage, copying shortens what is left. *)
Definition stage_of (g : fgo) : nat :=
  match g with
  | FWait => 9 | FRun KLook => 8 | FRun KAsk => 7 | FRun (KMake _ _) => 6 | FRun (KCopy _ _ _) => 5 | FRun (KEnd _) => 4
  | FPut _ => 3 | FLeave => 2 | FDone => 1
  end.
Definition left_of (g : fgo) : nat := match g with FRun (KCopy _ b _) => String.length b | _ => 0 end.

Definition sum_of (h : fgo -> nat) (l : list (wanted * fgo)) : nat := sum_list_with (fun wg => h (snd wg)) l.

Lemma sum_mid h l1 w g l2 : sum_of h (l1 ++ (w, g) :: l2) = sum_of h l1 + h g + sum_of h l2.
Proof. unfold sum_of. rewrite sum_list_with_app. simpl. lia. Qed.

Definition outer (s : fstate) : nat :=
  sum_of stage_of (f_list s) + (if f_returned s then 0 else 1) + (if f_stopped s then 0 else 1).
Definition inner (s : fstate) : nat := sum_of left_of (f_list s).

Lemma string_length_app a b : String.length (a +:+ b) = String.length a + String.length b.
Proof. induction a as [|c a IH]; [done|]. cbn. by rewrite IH. Qed.

Lemma kstep_smaller x w k f k' f' : kstep x w k f k' f' ->
  stage_of (FRun k') < stage_of (FRun k) \/ (stage_of (FRun k') = stage_of (FRun k) /\ left_of (FRun k') < left_of (FRun k)).
Proof.
  intros H. destruct H as [f H|f H|f url r H1 H2|f c ok H1 H2|f c ok|f c a b ok H|f c r ok|f c]; cbn; try lia.
  - destruct r; cbn; lia.
  - rewrite string_length_app. destruct a; [done|]. cbn. lia.
Qed.

Lemma fstep_smaller x s l s' : fstep x s l s' -> outer s' < outer s \/ (outer s' = outer s /\ inner s' < inner s).
Proof.
  intros H. destruct H as [w l1 l2 n m f Hn|w k k' l1 l2 n m f f' Hk|w o l1 l2 n m f|w d l1 l2 n m f|w l1 l2 n m f|l n m f Hall|w k l1 l2 n m f Hk];
    unfold outer, inner; cbn [f_list f_returned f_stopped]; rewrite ?sum_mid; try (left; cbn; lia).
  - destruct (kstep_smaller _ _ _ _ _ _ Hk) as [K|[K1 K2]]; [left; lia|right; lia].
  - left. destruct o; cbn; lia.
Qed.

Lemma fetch_ends x (run : nat -> fstate) : ~ (forall n, exists l, fstep x (run n) l (run (S n))).
Proof.
  intros H.
  assert (forall a b (r : nat -> fstate), outer (r 0) <= a -> inner (r 0) <= b -> ~ (forall n, exists l, fstep x (r n) l (r (S n)))) as K.
  { intros a. induction a as [a IHa] using (well_founded_induction lt_wf).
    intros b. induction b as [b IHb] using (well_founded_induction lt_wf).
    intros r Ha Hb Hr. destruct (Hr 0) as [l Hl]. destruct (fstep_smaller _ _ _ _ Hl) as [K|[K1 K2]].
    - apply (IHa (outer (r 1)) ltac:(lia) (inner (r 1)) (fun n => r (S n))); [done|done|]. intros n. apply Hr.
    - apply (IHb (inner (r 1)) ltac:(lia) (fun n => r (S n))); [lia|done|]. intros n. apply Hr. }
  by apply (K (outer (run 0)) (inner (run 0)) run).
Qed.
