(** Downloads. *)
From stdpp Require Import strings list gmap.
From Coq Require Import Ascii ZArith Lia.
From Verif.model Require Import GoStr Nexus RepoDb Fs Install Download.
From Verif.spec Require Import StrSpec LibSpec InstallSpec DownloadSpec.
From Verif.proofs Require Import GoStrLemmas FsProofs ExtractProofs CacheProofs.

Local Open Scope string_scope.

(** * The goroutines *)

Definition active (g : gstate) : nat := match g with GRun | GPut _ | GLeave => 1 | _ => 0 end.
Definition after_end (g : gstate) : nat := match g with GPut _ | GLeave | GDone => 1 | _ => 0 end.
Definition after_begin (g : gstate) : nat := match g with GWait => 0 | _ => 1 end.
Definition weight (g : gstate) : nat :=
  match g with GWait => 4 | GRun => 3 | GPut _ => 2 | GLeave => 1 | GDone => 0 end.

Definition tot (h : gstate -> nat) (l : list (wanted * gstate)) : nat := sum_list_with (fun x => h (snd x)) l.

Local Arguments tot : simpl never.

Lemma tot_mid h l1 w g l2 : tot h (l1 ++ (w, g) :: l2) = tot h l1 + h g + tot h l2.
Proof. unfold tot. rewrite sum_list_with_app. simpl. lia. Qed.

Lemma tot_pos h l : tot h l <> 0 -> exists w g, (w, g) ∈ l /\ h g <> 0.
Proof.
  induction l as [|[w g] l IH]; [done|]. unfold tot. simpl. fold (tot h l). intros H.
  destruct (decide (h g = 0)) as [E|E].
  - destruct IH as (w' & g' & Hin & Hg); [lia|]. exists w', g'. split; [by right|done].
  - exists w, g. split; [by left|done].
Qed.

Lemma begun_snoc ls l : begun (ls ++ [l]) = begun ls + match l with DAcquire _ => 1 | _ => 0 end.
Proof. unfold begun. rewrite List.filter_app, app_length. by destruct l. Qed.

Lemma ended_snoc ls l : ended (ls ++ [l]) = ended ls + match l with DEnd _ _ => 1 | _ => 0 end.
Proof. unfold ended. rewrite List.filter_app, app_length. by destruct l. Qed.

Lemma outcomes_snoc p ls l : outcomes p (ls ++ [l]) =
  (outcomes p ls ++ match l with DEnd q o => if String.eqb p q then [o] else [] | _ => [] end)%list.
Proof.
  induction ls as [|a ls IH]; [by destruct l|]. simpl. rewrite IH.
  destruct a; try done. by destruct (String.eqb p p0).
Qed.

Definition one_ok (m : gmap string download) (ls : list dlabel) (w : wanted) (g : gstate) : Prop :=
  match g with
  | GWait | GRun => outcomes (w_pkg w) ls = [] /\ m !! w_pkg w = None
  | GPut d => outcomes (w_pkg w) ls = [Some d] /\ m !! w_pkg w = None
  | GLeave | GDone => outcomes (w_pkg w) ls = [m !! w_pkg w]
  end.

Record dinv (ds : list wanted) (ls : list dlabel) (s : dstate) : Prop := {
  di_list : map fst (g_list s) = ds;
  di_sem : g_sem s = tot active (g_list s);
  di_cap : g_sem s <= sem_cap;
  di_begun : begun ls = tot after_begin (g_list s);
  di_ended : ended ls = tot after_end (g_list s);
  di_one : forall w g, (w, g) ∈ g_list s -> one_ok (g_map s) ls w g;
  di_other : forall p, ~ p ∈ map w_pkg ds -> g_map s !! p = None;
  di_done : g_returned s = true -> forall w g, (w, g) ∈ g_list s -> g = GDone;
  di_length : length ls + tot weight (g_list s) + (if g_returned s then 0 else 1) <= 4 * length ds + 1
}.

Lemma names_mid (l1 : list (wanted * gstate)) w g l2 :
  NoDup (map w_pkg (map fst (l1 ++ (w, g) :: l2))) ->
  forall w' g', (w', g') ∈ l1 \/ (w', g') ∈ l2 -> w_pkg w' <> w_pkg w.
Proof.
  rewrite !map_app. simpl. intros H w' g' Hin E. apply NoDup_app in H as (_ & H1 & H2).
  apply NoDup_cons in H2 as [H2 _].
  assert (forall l : list (wanted * gstate), (w', g') ∈ l -> w_pkg w ∈ map w_pkg (map fst l)) as Hm.
  { intros l Hl. rewrite <- E. apply elem_of_list_fmap. exists w'. split; [done|].
    apply elem_of_list_fmap. by exists (w', g'). }
  destruct Hin as [Hin|Hin].
  - apply (H1 (w_pkg w)); [by apply Hm|by left].
  - by apply H2, Hm.
Qed.

Lemma map_fst_mid (l1 : list (wanted * gstate)) w g g' l2 :
  map fst (l1 ++ (w, g) :: l2) = map fst (l1 ++ (w, g') :: l2).
Proof. by rewrite !map_app. Qed.

(** Changing the entry of one package does not concern the others. *)
Lemma one_ok_other m ls w g p lab d : w_pkg w <> p ->
  (match lab with DEnd q _ => q = p | _ => True end) ->
  one_ok m ls w g -> one_ok m (ls ++ [lab]) w g /\ one_ok (<[p := d]> m) (ls ++ [lab]) w g.
Proof.
  intros Hp Hl H. assert (outcomes (w_pkg w) (ls ++ [lab]) = outcomes (w_pkg w) ls) as E.
  { rewrite outcomes_snoc. destruct lab; try (by rewrite app_nil_r). subst.
    destruct (String.eqb_spec (w_pkg w) p); [done|]. by rewrite app_nil_r. }
  unfold one_ok in *. rewrite E. rewrite lookup_insert_ne by done. by destruct g.
Qed.

Lemma dinv_initial ds : NoDup (map w_pkg ds) -> dinv ds [] (dinitial ds).
Proof.
  intros _. assert (forall h, tot h (g_list (dinitial ds)) = length ds * h GWait) as Ht.
  { intros h. cbn. induction ds as [|w ds IH]; [done|]. unfold tot in *. simpl. rewrite IH. lia. }
  constructor.
  - cbn. rewrite map_map. cbn. apply map_id.
  - rewrite Ht. cbn. lia.
  - cbn. unfold sem_cap. lia.
  - rewrite Ht. cbn. lia.
  - rewrite Ht. cbn. lia.
  - intros w g H. cbn in H. apply elem_of_list_fmap in H as (w' & [= -> ->] & _). cbn. by rewrite lookup_empty.
  - intros p _. cbn. apply lookup_empty.
  - done.
  - rewrite Ht. cbn. lia.
Qed.

Lemma elem_mid {A} (x y : A) l1 l2 : x ∈ (l1 ++ y :: l2)%list <-> x = y \/ (x ∈ l1 \/ x ∈ l2).
Proof. rewrite elem_of_app, elem_of_cons. tauto. Qed.

Lemma dinv_step ds ls s l s' : NoDup (map w_pkg ds) -> dinv ds ls s -> dstep s l s' -> dinv ds (ls ++ [l]) s'.
Proof.
  intros Hn [I1 I2 I3 I4 I5 I6 I7 I8 I9] H.
  destruct H as [w l1 l2 n m Hc|w l1 l2 n m o|w d l1 l2 n m|w l1 l2 n m|l n m Hall]; cbn in *.
  - pose proof Hn as Hn'. rewrite <- I1 in Hn'. pose proof (names_mid _ _ _ _ Hn') as Hne.
    rewrite tot_mid in I2, I4, I5, I9. cbn in I2, I4, I5, I9.
    constructor; cbn; rewrite ?begun_snoc, ?ended_snoc, ?app_length, ?tot_mid; cbn; try lia; try done.
    + by rewrite (map_fst_mid l1 w GRun GWait l2).
    + intros w' g' Hin. apply elem_mid in Hin as [[= -> ->]|Hin].
      * assert ((w, GWait) ∈ (l1 ++ (w, GWait) :: l2)%list) as Hw by (apply elem_mid; by left).
        apply I6 in Hw. cbn in *. rewrite outcomes_snoc, app_nil_r. done.
      * apply (one_ok_other m ls w' g' (w_pkg w) (DAcquire (w_pkg w)) {| d_path := None; d_new := false; d_wanted := w |});
          [by eapply Hne|done|]. apply I6. apply elem_mid. by right.
  - pose proof Hn as Hn'. rewrite <- I1 in Hn'. pose proof (names_mid _ _ _ _ Hn') as Hne.
    rewrite tot_mid in I2, I4, I5, I9. cbn in I2, I4, I5, I9.
    assert (active (match o with Some d => GPut d | None => GLeave end) = 1) as A1 by (by destruct o).
    assert (after_begin (match o with Some d => GPut d | None => GLeave end) = 1) as A2 by (by destruct o).
    assert (after_end (match o with Some d => GPut d | None => GLeave end) = 1) as A3 by (by destruct o).
    assert (weight (match o with Some d => GPut d | None => GLeave end) <= 2) as A4 by (destruct o; cbn; lia).
    constructor; cbn; rewrite ?begun_snoc, ?ended_snoc, ?app_length, ?tot_mid; cbn; try lia; try done.
    + by rewrite (map_fst_mid l1 w _ GRun l2).
    + intros w' g' Hin. apply elem_mid in Hin as [[= -> ->]|Hin].
      * assert ((w, GRun) ∈ (l1 ++ (w, GRun) :: l2)%list) as Hw by (apply elem_mid; by left).
        apply I6 in Hw as [Hw1 Hw2]. destruct o as [d|]; cbn; rewrite outcomes_snoc, String.eqb_refl, Hw1; cbn; [done|].
        by rewrite Hw2.
      * apply (one_ok_other m ls w' g' (w_pkg w) (DEnd (w_pkg w) o) {| d_path := None; d_new := false; d_wanted := w |});
          [by eapply Hne|done|]. apply I6. apply elem_mid. by right.
  - pose proof Hn as Hn'. rewrite <- I1 in Hn'. pose proof (names_mid _ _ _ _ Hn') as Hne.
    rewrite tot_mid in I2, I4, I5, I9. cbn in I2, I4, I5, I9.
    constructor; cbn; rewrite ?begun_snoc, ?ended_snoc, ?app_length, ?tot_mid; cbn; try lia; try done.
    + by rewrite (map_fst_mid l1 w GLeave (GPut d) l2).
    + intros w' g' Hin. apply elem_mid in Hin as [[= -> ->]|Hin].
      * assert ((w, GPut d) ∈ (l1 ++ (w, GPut d) :: l2)%list) as Hw by (apply elem_mid; by left).
        apply I6 in Hw as [Hw1 Hw2]. cbn. rewrite outcomes_snoc, Hw1, lookup_insert. done.
      * apply (one_ok_other m ls w' g' (w_pkg w) (DPut (w_pkg w)) d); [by eapply Hne|done|].
        apply I6. apply elem_mid. by right.
    + intros p Hp. rewrite lookup_insert_ne; [by apply I7|]. intros <-. apply Hp. rewrite <- I1.
      apply elem_of_list_fmap. exists w. split; [done|]. apply elem_of_list_fmap. exists (w, GPut d). split; [done|].
      apply elem_mid. by left.
  - pose proof Hn as Hn'. rewrite <- I1 in Hn'. pose proof (names_mid _ _ _ _ Hn') as Hne.
    rewrite tot_mid in I2, I4, I5, I9. cbn in I2, I4, I5, I9.
    constructor; cbn; rewrite ?begun_snoc, ?ended_snoc, ?app_length, ?tot_mid; cbn; try lia; try done.
    + by rewrite (map_fst_mid l1 w GDone GLeave l2).
    + intros w' g' Hin. apply elem_mid in Hin as [[= -> ->]|Hin].
      * assert ((w, GLeave) ∈ (l1 ++ (w, GLeave) :: l2)%list) as Hw by (apply elem_mid; by left).
        apply I6 in Hw. cbn in *. rewrite outcomes_snoc, Hw. done.
      * apply (one_ok_other m ls w' g' (w_pkg w) (DRelease (w_pkg w)) {| d_path := None; d_new := false; d_wanted := w |});
          [by eapply Hne|done|]. apply I6. apply elem_mid. by right.
  - constructor; cbn; rewrite ?begun_snoc, ?ended_snoc, ?app_length; cbn; try lia; try done.
    intros w' g' Hin. specialize (I6 _ _ Hin). rewrite (Hall _ _ Hin) in *. cbn in *. rewrite outcomes_snoc, app_nil_r. done.
Qed.

Lemma dinv_exec ds ls s : NoDup (map w_pkg ds) -> dexec (dinitial ds) ls s -> dinv ds ls s.
Proof.
  intros Hn H. remember (dinitial ds) as s0 eqn:E. induction H as [s|s ls s1 l s2 H IH Hs]; subst.
  - by apply dinv_initial.
  - eapply dinv_step; [done|by apply IH|done].
Qed.

(** C51 *)
Lemma download_results ds ls s : NoDup (map w_pkg ds) -> dexec (dinitial ds) ls s -> g_returned s = true ->
  (forall w, w ∈ ds -> exists o, outcomes (w_pkg w) ls = [o] /\ g_map s !! w_pkg w = o) /\
  (forall p, ~ p ∈ map w_pkg ds -> g_map s !! p = None).
Proof.
  intros Hn H Hr. apply dinv_exec in H as [I1 I2 I3 I4 I5 I6 I7 I8 I9]; [|done]. split; [|done].
  intros w Hw. rewrite <- I1 in Hw. apply elem_of_list_fmap in Hw as ([w' g] & -> & Hw). cbn.
  pose proof (I8 Hr _ _ Hw) as ->. apply I6 in Hw. cbn in Hw. eexists. split; [exact Hw|done].
Qed.

Lemma download_bound ds ls s : NoDup (map w_pkg ds) -> dexec (dinitial ds) ls s -> begun ls <= ended ls + 10.
Proof.
  intros Hn H. apply dinv_exec in H as [I1 I2 I3 I4 I5 I6 I7 I8 I9]; [|done].
  rewrite I4, I5. rewrite I2 in I3. unfold sem_cap in I3.
  assert (forall l, tot after_begin l <= tot after_end l + tot active l) as Ht.
  { intros l. induction l as [|[w g] l IH]; [done|]. unfold tot in *. simpl. destruct g; cbn; lia. }
  specialize (Ht (g_list s)). lia.
Qed.

Lemma download_length ds ls s : NoDup (map w_pkg ds) -> dexec (dinitial ds) ls s -> length ls <= 4 * length ds + 1.
Proof. intros Hn H. apply dinv_exec in H as [I1 I2 I3 I4 I5 I6 I7 I8 I9]; [|done]. lia. Qed.

Lemma download_progress ds ls s : NoDup (map w_pkg ds) -> dexec (dinitial ds) ls s -> g_returned s = false ->
  exists l s', dstep s l s'.
Proof.
  intros Hn H Hr. apply dinv_exec in H as [I1 I2 I3 I4 I5 I6 I7 I8 I9]; [|done].
  destruct s as [gl n m b]. cbn in *. subst b.
  destruct (decide (tot active gl = 0)) as [Ha|Ha].
  - destruct (decide (tot weight gl = 0)) as [Hw|Hw].
    + exists DReturn. eexists. apply d_return. intros w g Hin.
      apply elem_of_list_split in Hin as (l1 & l2 & ->). rewrite tot_mid in Hw. destruct g; cbn in Hw; try lia. done.
    + apply tot_pos in Hw as (w & g & Hin & Hg). apply elem_of_list_split in Hin as (l1 & l2 & ->).
      rewrite tot_mid in Ha. destruct g; cbn in *; try lia.
      eexists _, _. apply d_acquire. unfold sem_cap. rewrite I2, tot_mid. cbn. lia.
  - apply tot_pos in Ha as (w & g & Hin & Hg). apply elem_of_list_split in Hin as (l1 & l2 & ->).
    destruct g as [| |d| |]; cbn in Hg; try lia.
    + eexists _, _. apply (d_end w l1 l2 n m None).
    + eexists _, _. apply d_put.
    + rewrite tot_mid in I2. cbn in I2. destruct n as [|n]; [lia|]. eexists _, _. apply d_release.
Qed.

(** * One download *)

Lemma download_keeps whole dest w r f d err f' : honest whole r -> (forall c, r <> Body c false) ->
  absent_or_complete whole dest f -> download_package dest w r f = (d, err, f') -> absent_or_complete whole dest f'.
Proof.
  intros Hh Hc [H|H]; unfold download_package, fs_exists; rewrite H.
  - destruct r as [| |c ok]; try (by intros [= <- <- <-]; left).
    destruct (fs_dir_exists f (removelast dest)); [|by intros [= <- <- <-]; left].
    destruct ok; [|by destruct (Hc c)]. intros [= <- <- <-]. right. rewrite bool_decide_eq_true_2 by done.
    cbn in Hh. by rewrite Hh.
  - intros [= <- <- <-]. by right.
Qed.

Lemma download_success whole dest w r f d f' : honest whole r -> (forall c, r <> BadStatus c) ->
  absent_or_complete whole dest f -> download_package dest w r f = (d, false, f') ->
  d_path d = Some dest /\ d_wanted d = w /\ f' dest = Some (File whole).
Proof.
  intros Hh Hs [H|H]; unfold download_package, fs_exists; rewrite H.
  - destruct r as [|c|c ok]; [done|by destruct (Hs c)|].
    destruct (fs_dir_exists f (removelast dest)); [|done]. destruct ok; [|done].
    intros [= <- <-]. rewrite bool_decide_eq_true_2 by done. cbn in Hh. by rewrite Hh.
  - by intros [= <- <-].
Qed.

Lemma download_frame dest w r f d err f' q : download_package dest w r f = (d, err, f') -> q <> dest -> f' q = f q.
Proof.
  unfold download_package. destruct (fs_exists f dest); [by intros [= <- <- <-]|].
  destruct r as [|c|c ok]; [by intros [= <- <- <-]|by intros [= <- <- <-]|].
  destruct (fs_dir_exists f _); [|by intros [= <- <- <-]].
  destruct ok; intros [= <- <- <-] Hq; by rewrite bool_decide_eq_false_2.
Qed.

(** * Directories *)

Lemma get_repos_lookup (ds : list wanted) : forall (m : gmap string repo_url) (n : string), foldl (fun m d => <[ru_name (w_repo d) := w_repo d]> m) m ds !! n =
  match List.find (fun d => String.eqb (ru_name (w_repo d)) n) (rev ds) with
  | Some d => Some (w_repo d)
  | None => m !! n
  end.
Proof.
  induction ds as [|d ds IH]; intros m n; [done|]. cbn [foldl rev]. rewrite IH.
  assert (forall l, List.find (fun d0 => String.eqb (ru_name (w_repo d0)) n) (l ++ [d])%list =
    match List.find (fun d0 => String.eqb (ru_name (w_repo d0)) n) l with
    | Some x => Some x | None => if String.eqb (ru_name (w_repo d)) n then Some d else None end) as E.
  { induction l as [|x l IHl]; [done|]. cbn. destruct (String.eqb (ru_name (w_repo x)) n); [done|]. apply IHl. }
  rewrite E. destruct (List.find _ (rev ds)); [done|].
  destruct (String.eqb_spec (ru_name (w_repo d)) n) as [->|Hn]; [by rewrite lookup_insert|by rewrite lookup_insert_ne].
Qed.

Lemma get_repos_unique ds w : (forall a b, a ∈ ds -> b ∈ ds -> ru_name (w_repo a) = ru_name (w_repo b) -> w_repo a = w_repo b) ->
  w ∈ ds -> get_repos ds !! ru_name (w_repo w) = Some (w_repo w).
Proof.
  intros Hu Hw. unfold get_repos. rewrite get_repos_lookup.
  destruct (List.find _ (rev ds)) as [d|] eqn:E.
  - apply find_some in E as [E1 E2]. apply in_rev, elem_of_list_In in E1. apply String.eqb_eq in E2.
    f_equal. by apply Hu.
  - exfalso. pose proof (List.find_none _ _ E w) as H. cbn beta in H. rewrite String.eqb_refl in H. discriminate H.
    rewrite <- in_rev. by apply elem_of_list_In.
Qed.

Lemma mkdir_keeps p f f' q : mkdir_all p f = Some f' -> f q = Some Dir -> f' q = Some Dir.
Proof.
  intros H Hq. destruct (mkdir_spec _ _ _ H) as (H1 & H2 & _). destruct (below q p) eqn:E.
  - apply H1. by apply below_spec.
  - rewrite H2; [done|]. rewrite <- below_spec. congruence.
Qed.

Lemma mkdir_self p f f' : mkdir_all p f = Some f' -> f' p = Some Dir.
Proof. intros H. apply mkdir_spec in H as (H & _). apply H. exists []. by rewrite app_nil_r. Qed.

Lemma make_dirs_spec md5 cache rv repos : forall f f', make_dirs md5 cache rv repos f = Some f' ->
  (forall q, f q = Some Dir -> f' q = Some Dir) /\
  forall r, r ∈ repos ->
    f' (join_path (join_path cache (repo_dir md5 r)) "src") = Some Dir /\
    f' (join_path (join_path (join_path cache (repo_dir md5 r)) "binary") (rv_short rv)) = Some Dir.
Proof.
  induction repos as [|r repos IH]; intros f f'; cbn [make_dirs].
  - intros [= <-]. split; [done|]. intros r Hr. by apply elem_of_nil in Hr.
  - destruct (mkdir_all (join_path (join_path cache (repo_dir md5 r)) "src") f) as [f1|] eqn:E1; [|done].
    destruct (mkdir_all _ f1) as [f2|] eqn:E2; [|done]. intros H. destruct (IH _ _ H) as [K1 K2]. split.
    + intros q Hq. by eapply K1, mkdir_keeps, mkdir_keeps.
    + intros r' Hr. apply elem_of_cons in Hr as [->|Hr]; [|by apply K2]. split.
      * eapply K1, mkdir_keeps; [exact E2|]. by eapply mkdir_self.
      * eapply K1. by eapply mkdir_self.
Qed.

Lemma download_dirs md5 os rhel cache rv ds repos f f' w :
  (forall a b, a ∈ ds -> b ∈ ds -> ru_name (w_repo a) = ru_name (w_repo b) -> w_repo a = w_repo b) ->
  (forall n r, get_repos ds !! n = Some r -> r ∈ repos) ->
  make_dirs md5 cache rv repos f = Some f' -> w ∈ ds -> plain (w_pkg w) -> plain (w_version w) -> os <> OtherOs ->
  f' (removelast (download_path md5 os rhel cache rv w)) = Some Dir.
Proof.
  intros Hu Hr H Hw P1 P2 Ho. destruct (make_dirs_spec _ _ _ _ _ _ H) as [_ K].
  destruct (K (w_repo w)) as [K1 K2]; [eapply Hr, get_repos_unique; eassumption|].
  unfold download_path. destruct (effective_type os (w_type w)).
  1,2: rewrite join_file, removelast_last; [done|]; apply underscore_name; [done|];
    apply all_chars_app; split; [done|]; by repeat split.
  rewrite join_file, removelast_last; [done|].
  destruct os; cbn [cran_binary_name]; [| |..].
  - apply underscore_name; [done|]. apply all_chars_app. split; [done|]. by repeat split.
  - destruct rhel; (apply underscore_name; [done|]; apply all_chars_app; split; [done|]; by repeat split).
  - apply underscore_name; [done|]. apply all_chars_app. split; [done|]. by repeat split.
  - done.
Qed.
