(** C160: the copies of directories that the tests work on. *)
From stdpp Require Import strings list.
From Coq Require Import Ascii Lia.
From Verif.model Require Import GoStr Fs Copy.
From Verif.spec Require Import LibSpec TarballSpec CopySpec.
From Verif.proofs Require Import FsProofs CopyProofs.

Local Open Scope string_scope.

(** It ends, after at most as many calls inside each other as there are levels. *)
Theorem C160_ends : forall ls src dst f d n,
  lists ls src f -> apart src dst -> tree_at src f -> at_most_deep d src f -> d < n -> is_Some (copy_dir n ls src dst f).
Proof. intros ls src dst f d n Hl Ha Ht Hd Hn. apply not_eq_None_Some. by eapply copy_ends. Qed.
Print Assumptions C160_ends.

(** If there is room, there is no error. *)
Theorem C160_no_error : forall n ls src dst f f' ok,
  lists ls src f -> apart src dst -> f src = Some Dir -> room src dst f -> copy_dir n ls src dst f = Some (f', ok) -> ok = true.
Proof. intros. by eapply copy_succeeds. Qed.
Print Assumptions C160_no_error.

(** Without an error, everything has been copied, and what was there before is kept apart
    from what has been replaced. *)
Theorem C160_copied : forall n ls src dst f f',
  lists ls src f -> apart src dst -> tree_at src f -> copy_dir n ls src dst f = Some (f', true) -> copied_over src dst f f'.
Proof. intros. by eapply copy_sound. Qed.
Print Assumptions C160_copied.

(** Into a place where nothing is, it is the same directory. *)
Theorem C160_same : forall n ls src dst f f',
  lists ls src f -> apart src dst -> tree_at src f -> (forall s, f (dst ++ s)%list = None) ->
  copy_dir n ls src dst f = Some (f', true) -> forall s, f' (dst ++ s)%list = f (src ++ s)%list.
Proof.
  intros n ls src dst f f' Hl Ha Ht Hd E s. destruct (copy_sound n ls src dst f f' Hl Ha Ht E) as [A B].
  destruct (f (src ++ s)%list) as [m|] eqn:F; [by apply A|]. rewrite B by done. apply Hd.
Qed.
Print Assumptions C160_same.

(** With or without an error, nothing else is changed; the original is as before. *)
Theorem C160_elsewhere : forall n ls src dst f f' ok,
  copy_dir n ls src dst f = Some (f', ok) ->
  only_at dst f f' /\ (apart src dst -> forall s, f' (src ++ s)%list = f (src ++ s)%list).
Proof.
  intros n ls src dst f f' ok E. apply copy_only in E. split; [done|]. intros Ha s. by eapply only_src.
Qed.
Print Assumptions C160_elsewhere.

(** ** Example *)

(** A directory with these names is listed. *)
Definition ls_of (names : list string) (f : fsys) (p : path) : list string :=
  List.filter (fun x => bool_decide (is_Some (f (p ++ [x])%list))) names.

Lemma ls_of_ok names src f : NoDup names -> (forall s x, is_Some (f ((src ++ s) ++ [x])%list) -> x ∈ names) -> lists (ls_of names) src f.
Proof.
  intros Hn Hi g s He. assert (forall x, x ∈ ls_of names g (src ++ s) <-> x ∈ names /\ is_Some (g ((src ++ s) ++ [x])%list)) as Hx.
  { intros x. unfold ls_of. rewrite !elem_of_list_In, filter_In. by rewrite bool_decide_eq_true. }
  split.
  - unfold ls_of. apply NoDup_ListNoDup, List.NoDup_filter. by apply NoDup_ListNoDup.
  - intros x. rewrite Hx, He. split; [tauto|]. intros H. split; [by eapply Hi|done].
Qed.

(** The golden set: a package that is installed and a file beside it. *)
Definition ex_golden : fsys := fun q =>
  if bool_decide (q = [] \/ q = ["golden"] \/ q = ["golden"; "R6"] \/ q = ["work"]) then Some Dir
  else if bool_decide (q = ["golden"; "R6"; "DESCRIPTION"]) then Some (File "Package: R6")
  else if bool_decide (q = ["golden"; "pkgr.yml"]) then Some (File "Version: 1") else None.

Definition ex_ls := ls_of ["R6"; "DESCRIPTION"; "pkgr.yml"].

Example C160_example :
  lists ex_ls ["golden"] ex_golden /\ apart ["golden"] ["work"; "lib"] /\ tree_at ["golden"] ex_golden /\
  at_most_deep 2 ["golden"] ex_golden /\ room ["golden"] ["work"; "lib"] ex_golden /\
  exists f', copy_dir 3 ex_ls ["golden"] ["work"; "lib"] ex_golden = Some (f', true) /\
    f' ["work"; "lib"; "R6"; "DESCRIPTION"] = Some (File "Package: R6") /\ f' ["work"; "lib"; "pkgr.yml"] = Some (File "Version: 1").
Proof.
  assert (forall s n, ex_golden ("golden" :: s) = Some n ->
    (s = [] /\ n = Dir) \/ (s = ["R6"] /\ n = Dir) \/ (s = ["R6"; "DESCRIPTION"] /\ n = File "Package: R6") \/ (s = ["pkgr.yml"] /\ n = File "Version: 1")) as Hg.
  { intros s n. unfold ex_golden. intros H.
    destruct (bool_decide_reflect ("golden" :: s = [] \/ "golden" :: s = ["golden"] \/ "golden" :: s = ["golden"; "R6"] \/ "golden" :: s = ["work"])) as [Q|_].
    - injection H as <-. destruct Q as [Q|[Q|[Q|Q]]]; [done| | |done]; injection Q as ->; tauto.
    - destruct (bool_decide_reflect ("golden" :: s = ["golden"; "R6"; "DESCRIPTION"])) as [Q|_]; [injection Q as ->; injection H as <-; tauto|].
      destruct (bool_decide_reflect ("golden" :: s = ["golden"; "pkgr.yml"])) as [Q|_]; [injection Q as ->; injection H as <-; tauto|done]. }
  assert (forall s, ex_golden ("work" :: "lib" :: s) = None) as Hw.
  { intros s. unfold ex_golden. rewrite !bool_decide_false; [done|..]; intros Q; naive_solver. }
  split; [|split; [|split; [|split; [|split]]]].
  - apply ls_of_ok; [by apply (bool_decide_unpack _); vm_compute|]. intros s x [n Hn]. cbn [app] in Hn.
    apply Hg in Hn as [[Q _]|[[Q _]|[[Q _]|[Q _]]]].
    + by destruct s.
    + apply (f_equal last) in Q. rewrite last_snoc in Q. injection Q as ->. by left.
    + apply (f_equal last) in Q. rewrite last_snoc in Q. injection Q as ->. by right; left.
    + apply (f_equal last) in Q. rewrite last_snoc in Q. injection Q as ->. by right; right; left.
  - split; intros [s Q]; done.
  - intros s x. cbn [app]. destruct (ex_golden _) as [n|] eqn:Hn; [|done]. intros _.
    apply Hg in Hn as [[Q _]|[[Q _]|[[Q _]|[Q _]]]].
    + by destruct s.
    + destruct s as [|y [|z s]]; [vm_compute; reflexivity|done|done].
    + destruct s as [|y [|z [|u s]]]; [done| |done|done]. injection Q as -> _. vm_compute. reflexivity.
    + destruct s as [|y [|z s]]; [vm_compute; reflexivity|done|done].
  - intros s Hs. cbn [app]. destruct (ex_golden _) as [n|] eqn:Hn; [|done].
    apply Hg in Hn as [[-> _]|[[-> _]|[[-> _]|[-> _]]]]; cbn in Hs; lia.
  - split; [|split].
    + intros a c [s Q]. destruct a as [|x [|y [|z a]]]; [by vm_compute|injection Q as <- _; by vm_compute| |done].
      injection Q as <- <- _. cbn. by rewrite Hw.
    + intros s c _. cbn [app]. by rewrite Hw.
    + intros s c _. cbn [app]. by rewrite Hw.
  - eexists. split; [reflexivity|]. split; vm_compute; reflexivity.
Qed.

(** ** What is not so *)

(** A file that was in the place of the copy stays: the copy then differs from the original. *)
Theorem C160_left_refuted : exists ls src dst f f' s,
  lists ls src f /\ apart src dst /\ room src dst f /\ copy_dir 3 ls src dst f = Some (f', true) /\
  f (src ++ s)%list = None /\ f' (dst ++ s)%list = Some (File "old").
Proof.
  set (f := (fun q => if bool_decide (q = [] \/ q = ["golden"] \/ q = ["work"]) then Some Dir
                      else if bool_decide (q = ["work"; "00LOCK"]) then Some (File "old") else None) : fsys).
  exists (ls_of []), ["golden"], ["work"], f. eexists. exists ["00LOCK"].
  assert (forall s, s <> [] -> f ("golden" :: s) = None) as Hg.
  { intros s Hs. unfold f. rewrite !bool_decide_false; [done|..]; intros Q; naive_solver. }
  split; [|split; [|split; [|split; [reflexivity|split; vm_compute; reflexivity]]]].
  - apply ls_of_ok; [constructor|]. intros s x [n Q]. cbn [app] in Q. rewrite Hg in Q; [done|]. by destruct s.
  - split; intros [s Q]; done.
  - split; [|split].
    + intros a c [s Q]. destruct a as [|x [|y a]]; [by vm_compute| |done]. injection Q as <- _. by vm_compute.
    + intros [|x s] c Q; [by vm_compute|]. cbn [app] in Q. by rewrite Hg in Q.
    + intros [|x s] c Q; [by vm_compute in Q|]. cbn [app] in Q. by rewrite Hg in Q.
Qed.
Print Assumptions C160_left_refuted.

Lemma inside_never n : forall src f, (forall q c, f q <> Some (File c)) -> (forall a, in_dir a src -> f a = Some Dir) ->
  copy_dir n (ls_of ["x"]) src (src ++ ["x"]) f = None.
Proof.
  induction n as [|n IH]; intros src f Hf Hd; [done|]. cbn [copy_dir].
  destruct (mkdir_all_ok (src ++ ["x"]) f) as [f1 M]; [intros a c _; apply Hf|]. rewrite M. apply mkdir_all_some in M as [_ M].
  assert (forall a, in_dir a (src ++ ["x"]) -> f1 a = Some Dir) as H1 by (intros a Ha; rewrite M; apply below_spec in Ha; by rewrite Ha).
  assert (forall q c, f1 q <> Some (File c)) as H2 by (intros q c; rewrite M; destruct (below _ _); [done|apply Hf]).
  unfold fs_dir_exists. rewrite (H1 src) by (by exists ["x"]). unfold dir_items, ls_of. cbn [List.filter].
  rewrite (H1 (src ++ ["x"])%list) by apply in_dir_refl. rewrite bool_decide_true by done. cbn [map]. unfold fs_dir_exists. 
  rewrite (H1 (src ++ ["x"])%list) by apply in_dir_refl. cbn [copy_items]. rewrite IH; [done| |].
  - intros q c. unfold try_mkdir. destruct (_ || _); [apply H2|]. destruct (bool_decide _); [done|apply H2].
  - intros a Ha. rewrite try_mkdir_at; [by apply H1|]. intros ->. destruct Ha as [s Q]. rewrite <- app_assoc in Q. by apply lib_neq in Q.
Qed.

(** Copied into itself, a directory grows without end.  (On a disk the call fails when the
    name has become too long.) *)
Theorem C160_inside_refuted : exists ls src dst f, lists ls src f /\ in_dir src dst /\ src <> dst /\ f src = Some Dir /\
  room src dst f /\ forall n, copy_dir n ls src dst f = None.
Proof.
  set (f := (fun q => if bool_decide (q = [] \/ q = ["w"]) then Some Dir else None) : fsys).
  assert (forall s, s <> [] -> f ("w" :: s) = None) as Hw.
  { intros s Hs. unfold f. rewrite bool_decide_false; [done|]. intros Q. naive_solver. }
  assert (forall q c, f q <> Some (File c)) as Hf by (intros q c; unfold f; by destruct (bool_decide _)).
  exists (ls_of ["x"]), ["w"], ["w"; "x"], f. split; [|split; [|split; [|split; [|split]]]].
  - apply ls_of_ok; [by apply (bool_decide_unpack _); vm_compute|]. intros s x [n Q]. cbn [app] in Q. rewrite Hw in Q; [done|]. by destruct s.
  - by exists ["x"].
  - done.
  - by vm_compute.
  - split; [|split].
    + intros a c _. apply Hf.
    + intros s c _. apply Hf.
    + intros s c Q. by apply Hf in Q.
  - intros n. apply (inside_never n ["w"]); [done|]. intros a [s Q]. destruct a as [|x [|y a]]; [by vm_compute| |done]. injection Q as <- _. by vm_compute.
Qed.
Print Assumptions C160_inside_refuted.
