(** C51 to C53 and C77: downloading packages. *)
From stdpp Require Import strings list gmap.
From Coq Require Import Ascii ZArith NArith.
From Verif.model Require Import GoStr Nexus RepoDb Fs Install Download.
From Verif.spec Require Import StrSpec LibSpec InstallSpec DownloadSpec.
From Verif.proofs Require Import CacheProofs DownloadProofs.

Local Open Scope string_scope.

(** * C51: concurrent downloads *)

Theorem C51_results : forall ds ls s,
  NoDup (map w_pkg ds) -> dexec (dinitial ds) ls s -> g_returned s = true ->
  (forall w, w ∈ ds -> exists o, outcomes (w_pkg w) ls = [o] /\ g_map s !! w_pkg w = o) /\
  (forall p, ~ p ∈ map w_pkg ds -> g_map s !! p = None).
Proof. exact download_results. Qed.
Print Assumptions C51_results.

Theorem C51_at_most_ten : forall ds ls s,
  NoDup (map w_pkg ds) -> dexec (dinitial ds) ls s -> begun ls <= ended ls + 10.
Proof. exact download_bound. Qed.
Print Assumptions C51_at_most_ten.

(** Every execution is finite and can go on until the function returns. *)
Theorem C51_terminates : forall ds ls s, NoDup (map w_pkg ds) -> dexec (dinitial ds) ls s ->
  length ls <= 4 * length ds + 1 /\ (g_returned s = false -> exists l s', dstep s l s').
Proof.
  intros ds ls s Hn H. split; [by eapply download_length|]. intros Hr. by eapply download_progress.
Qed.
Print Assumptions C51_terminates.

Definition pk (p : string) : wanted :=
  {| w_pkg := p; w_version := "1.0"; w_type := STSource; w_repo := RepoURL "https://a.org" "CRAN" "" |}.

Definition got (p : string) : download := {| d_path := Some ["c"; p]; d_new := true; d_wanted := pk p |}.

Ltac go t := eapply dexec_snoc; [|t].

(** Two packages, overlapping; the second one fails. *)
Example C51_example : exists s,
  dexec (dinitial [pk "a"; pk "b"])
    [DAcquire "b"; DAcquire "a"; DEnd "a" (Some (got "a")); DEnd "b" None; DRelease "b"; DPut "a"; DRelease "a"; DReturn] s /\
  g_returned s = true /\ g_map s = {["a" := got "a"]}.
Proof.
  exists {| g_list := [(pk "a", GDone); (pk "b", GDone)]; g_sem := 0; g_map := <["a" := got "a"]> ∅; g_returned := true |}.
  split; [|done].
  - change [DAcquire "b"; DAcquire "a"; DEnd "a" (Some (got "a")); DEnd "b" None; DRelease "b"; DPut "a"; DRelease "a"; DReturn]
      with ((((((((([] ++ [DAcquire "b"]) ++ [DAcquire "a"]) ++ [DEnd "a" (Some (got "a"))]) ++ [DEnd "b" None]) ++ [DRelease "b"])
        ++ [DPut "a"]) ++ [DRelease "a"]) ++ [DReturn]))%list.
    go ltac:(apply d_return).
    go ltac:(apply (d_release (pk "a") [] [(pk "b", GDone)])).
    go ltac:(apply (d_put (pk "a") (got "a") [] [(pk "b", GDone)])).
    go ltac:(apply (d_release (pk "b") [(pk "a", GPut (got "a"))] [])).
    go ltac:(apply (d_end (pk "b") [(pk "a", GPut (got "a"))] [] _ _ None)).
    go ltac:(apply (d_end (pk "a") [] [(pk "b", GRun)] _ _ (Some (got "a")))).
    go ltac:(apply (d_acquire (pk "a") [] [(pk "b", GRun)])).
    go ltac:(apply (d_acquire (pk "b") [(pk "a", GWait)] [])).
    apply dexec_nil.
    all: try (unfold sem_cap; lia).
    intros w g H. cbn in H. rewrite !elem_of_cons, elem_of_nil in H. naive_solver.
Qed.

(** * C52: what is in the cache

    In full: a file that is reused was downloaded completely, also after
    interrupted downloads.  Proved: without interrupted downloads the file is
    absent or complete, and after success it is complete. *)
Theorem C52_complete_partial : forall whole dest w r f d err f',
  honest whole r -> (forall c, r <> Body c false) -> absent_or_complete whole dest f ->
  download_package dest w r f = (d, err, f') ->
  absent_or_complete whole dest f' /\
  (err = false -> (forall c, r <> BadStatus c) -> d_path d = Some dest /\ d_wanted d = w /\ f' dest = Some (File whole)) /\
  (forall q, q <> dest -> f' q = f q).
Proof.
  intros whole dest w r f d err f' H1 H2 H3 H4. split; [by eapply download_keeps|]. split.
  - intros -> H5. by eapply download_success.
  - intros q. by eapply download_frame.
Qed.
Print Assumptions C52_complete_partial.

Definition cache_fs : fsys := fun q => if bool_decide (q ∈ [[]; ["c"]]) then Some Dir else None.

Example C52_example :
  let r := download_package ["c"; "a"] (pk "a") (Body "abc" true) cache_fs in
  r.1.2 = false /\ r.2 ["c"; "a"] = Some (File "abc") /\ d_path r.1.1 = Some ["c"; "a"].
Proof. vm_compute. done. Qed.

(** The connection breaks: an error is reported.  In the next run the part that
    arrived is taken for the package. *)
Theorem C52_interrupted_refuted : exists whole dest w r1 f d1 f1 r2 d2 f2,
  honest whole r1 /\ honest whole r2 /\ f dest = None /\
  download_package dest w r1 f = (d1, true, f1) /\ download_package dest w r2 f1 = (d2, false, f2) /\
  d_path d2 = Some dest /\ f2 dest <> Some (File whole).
Proof.
  exists "abc", ["c"; "a"], (pk "a"), (Body "a" false), cache_fs. eexists _, _. exists (Body "abc" true). eexists _, _.
  split; [by exists "bc"|]. split; [done|]. split; [reflexivity|]. split; [reflexivity|]. split; [reflexivity|].
  split; [reflexivity|]. vm_compute. discriminate.
Qed.
Print Assumptions C52_interrupted_refuted.

(** * C53: a package that cannot be downloaded

    In full: an error is returned whenever the file was not there and is not
    downloaded completely.  Proved for all failures but a bad status. *)
Theorem C53_errors_partial : forall dest w r f d err f',
  f dest = None -> download_package dest w r f = (d, err, f') ->
  (forall c, r <> BadStatus c) ->
  (err = true <-> ~ ((exists c, r = Body c true) /\ f (removelast dest) = Some Dir)).
Proof.
  intros dest w r f d err f' H0. unfold download_package, fs_exists, fs_dir_exists. rewrite H0.
  destruct r as [|c|c ok]; intros H Hs.
  - injection H as <- <- <-. split; [|done]. intros _ [[c Hc] _]. discriminate Hc.
  - by destruct (Hs c).
  - destruct (f (removelast dest)) as [[x|]|] eqn:E.
    + injection H as <- <- <-. split; [|done]. by intros _ [_ Hd].
    + destruct ok; injection H as <- <- <-.
      * split; [done|]. intros Hn. exfalso. apply Hn. split; [by exists c|done].
      * split; [|done]. intros _ [[c' Hc] _]. discriminate Hc.
    + injection H as <- <- <-. split; [|done]. by intros _ [_ Hd].
Qed.
Print Assumptions C53_errors_partial.

Example C53_example : (download_package ["c"; "a"] (pk "a") NoConnection cache_fs).1.2 = true.
Proof. reflexivity. Qed.

(** Every status other than 200 is returned without an error, and without a path. *)
Theorem C53_bad_status_refuted : forall dest w code f, f dest = None ->
  exists d, download_package dest w (BadStatus code) f = (d, false, f) /\ d_path d = None.
Proof.
  intros dest w code f H. eexists. unfold download_package, fs_exists. rewrite H. by split.
Qed.
Print Assumptions C53_bad_status_refuted.

Example C53_example_404 :
  let r := download_package ["c"; "a"] (pk "a") (BadStatus 404) cache_fs in
  r.1.2 = false /\ d_path r.1.1 = None /\ r.2 ["c"; "a"] = None.
Proof. vm_compute. done. Qed.

(** * C77: directories for downloads

    In full: before the downloads start, the directory of every file to be
    downloaded exists.  Proved when repositories with the same name are the same. *)
Theorem C77_directories_partial : forall md5 os rhel cache rv ds repos f f' w,
  (forall a b, a ∈ ds -> b ∈ ds -> ru_name (w_repo a) = ru_name (w_repo b) -> w_repo a = w_repo b) ->
  (forall n r, get_repos ds !! n = Some r -> r ∈ repos) ->
  make_dirs md5 cache rv repos f = Some f' -> w ∈ ds -> plain (w_pkg w) -> plain (w_version w) -> os <> OtherOs ->
  f' (removelast (download_path md5 os rhel cache rv w)) = Some Dir.
Proof. exact download_dirs. Qed.
Print Assumptions C77_directories_partial.

Definition ma : wanted :=
  {| w_pkg := "a"; w_version := "1.0"; w_type := STSource; w_repo := RepoURL "https://a.org" "CRAN" "" |}.
Definition mb : wanted :=
  {| w_pkg := "b"; w_version := "1.0"; w_type := STSource; w_repo := RepoURL "https://b.org" "CRAN" "" |}.

Definition toy_md5 (s : string) : string := s +:+ "............".

Example C77_example :
  match make_dirs toy_md5 ["c"] (RVersion 4 1 2) [w_repo ma] cache_fs with
  | Some f => f (removelast (download_path toy_md5 Linux false ["c"] (RVersion 4 1 2) ma)) = Some Dir
  | None => False
  end.
Proof. vm_compute. done. Qed.

(** Two repositories called CRAN: the directory for the first one is not made, so
    that its packages cannot be downloaded. *)
Theorem C77_same_name_refuted : exists md5 cache rv ds repos f f' w,
  (forall n r, get_repos ds !! n = Some r <-> r ∈ repos /\ n = ru_name r) /\
  make_dirs md5 cache rv repos f = Some f' /\ w ∈ ds /\
  f' (removelast (download_path md5 Linux false cache rv w)) = None /\
  forall body, (download_package (download_path md5 Linux false cache rv w) w (Body body true) f').1.2 = true.
Proof.
  exists toy_md5, ["c"], (RVersion 4 1 2), [ma; mb], [w_repo mb], cache_fs. eexists. exists ma. split.
  - intros n r. unfold get_repos. cbn [foldl]. rewrite elem_of_list_singleton.
    destruct (decide (n = "CRAN")) as [->|Hn].
    + replace (ru_name (w_repo mb)) with "CRAN" by done. rewrite lookup_insert. split.
      * by intros [= <-].
      * by intros [-> _].
    + replace (ru_name (w_repo mb)) with "CRAN" by done. rewrite lookup_insert_ne by done.
      replace (ru_name (w_repo ma)) with "CRAN" by done. rewrite lookup_insert_ne, lookup_empty by done.
      split; [done|]. intros [-> ->]. done.
  - split; [reflexivity|]. split; [by left|]. split; [reflexivity|]. intros body. reflexivity.
Qed.
Print Assumptions C77_same_name_refuted.
