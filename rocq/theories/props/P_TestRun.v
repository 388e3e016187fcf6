(** C165: running and preparing the tests. *)
From stdpp Require Import strings list.
From Coq Require Import Ascii ZArith Lia.
From Verif.model Require Import GoStr Fs Cli TestRun.
From Verif.spec Require Import StrSpec ConfigSpec EnvSpec.
From Verif.proofs Require Import GoStrLemmas.

Local Open Scope string_scope.

(** RunTest succeeds exactly if it is called where the tests are, for a known target, make has
    reset the test, and go test has succeeded in the directory of the target with an output in
    which FAIL: does not occur. *)
Theorem C165_run : forall wd dirs make go t,
  run_test wd dirs make go t = None <->
  (exists up, wd = (up ++ ["integration_tests"])%list) /\
  exists dir rule out, run_targets !! t = Some dir /\ reset_targets !! t = Some rule /\ make rule = true /\
    dir ∈ dirs /\ go dir = (true, out) /\ ~ occurs "FAIL:" out.
Proof.
  intros wd dirs make go t. unfold run_test, reset.
  assert (is_test_dir wd = true <-> exists up, wd = (up ++ ["integration_tests"])%list) as K.
  { unfold is_test_dir. rewrite bool_decide_eq_true, last_Some. done. }
  assert (length run_targets = length reset_targets) as Hlen by reflexivity.
  destruct (is_test_dir wd) eqn:Ew.
  2: { split; [done|]. intros [H _]. apply K in H. done. }
  destruct (run_targets !! t) as [dir|] eqn:Ed.
  2: { split; [done|]. intros [_ (d & r & o & H & _)]. done. }
  destruct (lookup_lt_is_Some_2 reset_targets t) as [rule Er].
  { apply lookup_lt_Some in Ed. rewrite <- Hlen. exact Ed. }
  rewrite Er. cbn [default from_option id]. unfold go_in.
  destruct (make rule) eqn:Em.
  2: { split; [done|]. intros [_ (d & r & o & _ & [= <-] & H & _)]. congruence. }
  destruct (decide (dir ∈ dirs)) as [Hd|Hd].
  2: { rewrite bool_decide_false by done. split; [done|]. intros [_ (d & r & o & [= <-] & _ & _ & H & _)]. done. }
  rewrite bool_decide_true by done. destruct (go dir) as [ok out] eqn:Eg. destruct ok.
  2: { split; [done|]. intros [_ (d & r & o & [= <-] & _ & _ & _ & H & _)]. congruence. }
  destruct (contains "FAIL:" out) eqn:Ec.
  - split; [done|]. intros [_ (d & r & o & [= <-] & _ & _ & _ & H & Hn)]. rewrite Eg in H. injection H as <-.
    destruct Hn. by apply contains_true.
  - split; [|done]. intros _. split; [by apply K|]. exists dir, rule, out. split; [done|]. split; [done|]. split; [done|]. split; [done|]. split; [done|].
    intros Ho. apply contains_true in Ho. congruence.
Qed.

(** The targets: each has a directory of its own and the rule of that name, which is one of
    the Makefile; one rule has another name. *)
Theorem C165_targets : NoDup run_targets /\ NoDup reset_targets /\ (forall r, r ∈ reset_targets -> r ∈ reset_rules) /\
  forall t dir rule, run_targets !! t = Some dir -> reset_targets !! t = Some rule ->
    rule = "test-" +:+ dir +:+ "-reset" \/ dir = "bad-customization" /\ rule = "test-bad-customizations-reset".
Proof.
  split; [by apply (bool_decide_unpack _); vm_compute|]. split; [by apply (bool_decide_unpack _); vm_compute|]. split; [done|].
  intros t dir rule. do 28 (destruct t as [|t]; [cbn; intros [= <-] [= <-]; (by left) || (by right)|]). done.
Qed.

(** Preparing a test with an installation: pkgr is run for install with this configuration file
    and no other flag, and the test goes on exactly if the library was deleted and pkgr ended
    as expected. *)
Theorem C165_setup : forall int config deleted ok expect_error,
  execute int (setup_args config) = RunsCommand ["install"] [("config", config)] [] /\
  (setup_goes_on deleted ok expect_error = true <-> deleted = true /\ ok = negb expect_error).
Proof.
  intros int config deleted ok expect_error. split.
  - by vm_compute.
  - destruct deleted, ok, expect_error; cbn; split; (intros [? ?] || intros ?); try done.
Qed.

(** The name of a test tells its id, if there is no bracket in it. *)
Theorem C165_names_partial : forall id name id' name', without "]" id -> without "]" id' ->
  make_test_name id name = make_test_name id' name' -> id = id' /\ name = name'.
Proof.
  intros id name id' name' H H' E. unfold make_test_name in E. cbn in E. injection E as E.
  revert id' H' E. induction id as [|c r IH]; intros id' H' E.
  - destruct id' as [|c' r']; cbn in E; [by injection E|]. injection E as <- _. unfold without in H'. by cbn in H'.
  - destruct id' as [|c' r']; cbn in E.
    + injection E as -> _. unfold without in H. by cbn in H.
    + injection E as <- E. unfold without in *. cbn in H, H'. apply andb_true_iff in H as [_ H]. apply andb_true_iff in H' as [_ H'].
      destruct (IH H r' H' E) as [-> ->]. done.
Qed.

(** ** Examples *)

Example C165_example :
  run_test ["repo"; "integration_tests"] test_dirs (String.eqb "test-load-reset") (fun d => (String.eqb d "load", "PASS")) 19 = None /\
  run_test ["repo"; "integration_tests"] test_dirs (fun _ => true) (fun _ => (true, "--- FAIL: TestLoad")) 19 = Some FailFound /\
  run_test ["repo"] test_dirs (fun _ => true) (fun _ => (true, "")) 19 = Some NotHere /\
  run_test ["repo"; "integration_tests"] test_dirs (fun _ => true) (fun _ => (true, "")) 28 = Some NoTarget /\
  make_test_name "LOAD-001" "loads all" = "[LOAD-001] loads all".
Proof. by vm_compute. Qed.

(** ** Refuted *)

(** Five targets have no directory: their tests cannot succeed. *)
Theorem C165_directories_refuted : forall wd make go t,
  t ∈ [6; 7; 8; 9; 10] -> run_test wd test_dirs make go t <> None.
Proof.
  intros wd make go t Ht E. apply C165_run in E as [_ (dir & rule & out & Hd & _ & _ & Hin & _)].
  assert (dir ∉ test_dirs) as Hn; [|done].
  repeat (apply elem_of_cons in Ht as [-> |Ht]; [cbn in Hd; injection Hd as <-; by apply (bool_decide_unpack _); vm_compute|]).
  by apply elem_of_nil in Ht.
Qed.

(** A test that succeeds is taken for a failure if it writes FAIL: *)
Theorem C165_output_refuted : forall wd dirs make go t dir out,
  run_targets !! t = Some dir -> go dir = (true, out) -> occurs "FAIL:" out -> run_test wd dirs make go t <> None.
Proof.
  intros wd dirs make go t dir out Hd Hg Ho E. apply C165_run in E as [_ (d & r & o & H & _ & _ & _ & Hg' & Hn)].
  rewrite Hd in H. injection H as <-. rewrite Hg in Hg'. injection Hg' as <-. done.
Qed.

(** A directory that is not empty is not deleted, and the test goes on. *)
Theorem C165_delete_refuted : forall empty can q f, f q = Some Dir -> empty q = false -> delete_test_file empty can q f = (true, f).
Proof. intros empty can q f H E. unfold delete_test_file, os_remove. by rewrite H, E, andb_false_r, H. Qed.

(** A file that can be removed is deleted; a test that has not failed goes on without it; and
    nothing else is deleted. *)
Theorem C165_delete : forall empty can q f, f q <> Some Dir ->
  let r := delete_test_file empty can q f in
  (can = true -> r.1 = true) /\ (r.1 = true -> r.2 q = None) /\ (forall x, x <> q -> r.2 x = f x).
Proof.
  intros empty can q f H. unfold delete_test_file, os_remove. destruct (f q) as [[c|]|] eqn:E; [|done|].
  - destruct can; cbn; [split; [done|]; split; [by rewrite bool_decide_true|]; intros y Hy; by rewrite bool_decide_false|]. by rewrite E.
  - cbn. by rewrite E.
Qed.

(** Different tests of a test can have the same name. *)
Theorem C165_subtest_refuted : exists id sub id' sub' name, id <> id' /\ make_subtest_name id sub name = make_subtest_name id' sub' name.
Proof. by exists "A", "B-1", "A-B", "1", "x". Qed.

Print Assumptions C165_run.
Print Assumptions C165_targets.
Print Assumptions C165_setup.
Print Assumptions C165_names_partial.
Print Assumptions C165_delete.
Print Assumptions C165_directories_refuted.
Print Assumptions C165_output_refuted.
Print Assumptions C165_delete_refuted.
Print Assumptions C165_subtest_refuted.
