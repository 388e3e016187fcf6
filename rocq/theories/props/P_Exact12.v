(** C52 over any number of runs. *)
From stdpp Require Import strings list gmap.
From Coq Require Import Ascii ZArith NArith Lia.
From Verif.model Require Import GoStr Nexus RepoDb Fs Install Download.
From Verif.spec Require Import StrSpec LibSpec InstallSpec DownloadSpec.
From Verif.proofs Require Import CacheProofs DownloadProofs.
From Verif.props Require Import P_Download.

Local Open Scope string_scope.

(** ** C52: what is in the cache after any number of runs

    [in_runs dest w rs f ds f']: the package is downloaded once for each of the replies
    [rs], the results are [ds]. *)

Inductive in_runs (dest : path) (w : wanted) : list reply -> fsys -> list (download * bool) -> fsys -> Prop :=
| runs_none f : in_runs dest w [] f [] f
| runs_more r rs f d err f1 ds f' : download_package dest w r f = (d, err, f1) ->
    in_runs dest w rs f1 ds f' -> in_runs dest w (r :: rs) f ((d, err) :: ds) f'.

(** A run finds the file and takes it for the package. *)
Definition reused (dest : path) (w : wanted) (x : download * bool) : Prop :=
  x = ({| d_path := Some dest; d_new := false; d_wanted := w |}, false).

(** The file is what the first body was that arrived, whole or not, and all runs after that
    use it. *)
Theorem C52_exact : forall dest w rs f ds f', in_runs dest w rs f ds f' ->
  f dest = None -> f (removelast dest) = Some Dir -> removelast dest <> dest ->
  (f' dest = None /\ forall c ok, Body c ok ∉ rs) \/
  (exists before c ok after, rs = (before ++ Body c ok :: after)%list /\ (forall c' ok', Body c' ok' ∉ before) /\
     f' dest = Some (File c) /\ forall i x, length before < i -> ds !! i = Some x -> reused dest w x).
Proof.
  intros dest w rs f ds f' H. induction H as [f|r rs f d err f1 ds f' E H IH]; intros Hn Hd Hr.
  { left. split; [done|]. intros c ok K. by apply elem_of_nil in K. }
  unfold download_package, fs_exists in E. rewrite Hn in E.
  destruct r as [|code|c ok].
  - injection E as <- <- <-. destruct (IH Hn Hd Hr) as [[H1 H2]|(a & c & ok & b & -> & Ha & Hf & Hx)].
    + left. split; [done|]. intros c ok [?|K]%elem_of_cons; [done|by apply (H2 c ok)].
    + right. exists (NoConnection :: a), c, ok, b. split; [done|].
      split; [intros c' ok' [?|K]%elem_of_cons; [done|by apply (Ha c' ok')]|]. split; [done|].
      intros [|i] x Hi Hl; cbn [length] in Hi; [lia|]. apply (Hx i x); [lia|done].
  - injection E as <- <- <-. destruct (IH Hn Hd Hr) as [[H1 H2]|(a & c & ok & b & -> & Ha & Hf & Hx)].
    + left. split; [done|]. intros c ok [?|K]%elem_of_cons; [done|by apply (H2 c ok)].
    + right. exists (BadStatus code :: a), c, ok, b. split; [done|].
      split; [intros c' ok' [?|K]%elem_of_cons; [done|by apply (Ha c' ok')]|]. split; [done|].
      intros [|i] x Hi Hl; cbn [length] in Hi; [lia|]. apply (Hx i x); [lia|done].
  - right. exists [], c, ok, rs. split; [done|]. split; [intros c' ok' K; by apply elem_of_nil in K|].
    unfold fs_dir_exists in E. rewrite Hd in E.
    assert (f1 dest = Some (File c)) as H1.
    { destruct ok; injection E as <- <- <-; by rewrite bool_decide_eq_true_2. }
    assert (f' dest = Some (File c) /\ forall x, x ∈ ds -> reused dest w x) as [G1 G2].
    { clear -H H1. induction H as [f1|r rs f1 d err f2 ds f' E H IH]; [split; [done|]; intros x K; by apply elem_of_nil in K|].
      unfold download_package, fs_exists in E. rewrite H1 in E. injection E as <- <- <-.
      destruct (IH H1) as [G1 G2]. split; [done|]. intros x [-> |K]%elem_of_cons; [done|by apply G2]. }
    split; [done|]. intros [|i] x Hi Hl; cbn [length] in Hi; [lia|]. apply G2. by eapply elem_of_list_lookup_2.
Qed.

(** So with an honest server, a reused file is the whole package exactly when the first
    body that arrived was not cut short. *)
Corollary C52_first : forall whole dest w rs f ds f', in_runs dest w rs f ds f' ->
  (forall r, r ∈ rs -> honest whole r) -> f dest = None -> f (removelast dest) = Some Dir -> removelast dest <> dest ->
  (exists c ok, Body c ok ∈ rs) ->
  (f' dest = Some (File whole) <->
   exists before c ok after, rs = (before ++ Body c ok :: after)%list /\ (forall c' ok', Body c' ok' ∉ before) /\ (ok = true \/ c = whole)).
Proof.
  intros whole dest w rs f ds f' H Hh H1 H2 H3 (c0 & ok0 & Hin).
  destruct (C52_exact dest w rs f ds f' H H1 H2 H3) as [[_ K]|(a & c & ok & b & E & Ha & Hf & _)]; [by apply K in Hin|].
  assert (honest whole (Body c ok)) as Hc.
  { apply Hh. rewrite E. apply elem_of_app. right. by left. }
  split.
  - intros Hw. exists a, c, ok, b. split; [done|]. split; [done|]. right. congruence.
  - intros (a' & c' & ok' & b' & E' & Ha' & Hw). rewrite E in E'.
    assert (a = a' /\ Body c ok = Body c' ok') as [-> [= -> ->]].
    { clear -E' Ha Ha'. revert a' E' Ha'. induction a as [|x a IH]; intros [|y a'] E' Ha'; cbn [app] in E'.
      - by injection E' as -> -> _.
      - injection E' as E1 E2. exfalso. apply (Ha' c ok). rewrite E1. by left.
      - injection E' as E1 E2. exfalso. apply (Ha c' ok'). rewrite E1. by left.
      - injection E' as E1 E2. subst y. destruct (IH (fun c o K => Ha c o (elem_of_list_further _ _ _ K)) a' E2 (fun c o K => Ha' c o (elem_of_list_further _ _ _ K))) as [-> ?].
        done. }
    rewrite Hf. destruct Hw as [-> | ->]; [|done]. cbn in Hc. by rewrite Hc.
Qed.

Example C52_exact_example :
  exists ds f', in_runs ["c"; "a"] (pk "a") [NoConnection; Body "ab" false; Body "abc" true] cache_fs ds f' /\
    f' ["c"; "a"] = Some (File "ab") /\ (exists x, ds !! 2 = Some x /\ reused ["c"; "a"] (pk "a") x).
Proof.
  eexists _, _. split.
  { eapply runs_more; [reflexivity|]. eapply runs_more; [reflexivity|]. eapply runs_more; [reflexivity|]. constructor. }
  split; [reflexivity|]. eexists. split; [reflexivity|]. reflexivity.
Qed.

Print Assumptions C52_exact.
Print Assumptions C52_first.
