(** C41-C48: executing an install plan concurrently. *)
From stdpp Require Import strings list gmap.
From Coq Require Import Ascii ZArith Lia.
From Verif.model Require Import GoStr Version Desc Nexus Pacman Graph Sched.
From Verif.spec Require Import RepoSpec GraphSpec SchedSpec.
From Verif.proofs Require Import GraphProofs SchedProofs SchedProps SchedLink.

Local Open Scope string_scope.

(** ** Example: c needs a and b; two workers *)
Definition ex_job : job := Job ["a"; "b"] {[ "c" := ["a"; "b"] ]} ["c"] 2.

Lemma ex_depends p d : depends_on ex_job p d <-> p = "c" /\ d ∈ ["a"; "b"].
Proof.
  unfold depends_on, ex_job. cbn [j_depdb]. split.
  - intros (l & H1 & H2). apply lookup_singleton_Some in H1 as [<- <-]. done.
  - intros [-> H]. exists ["a"; "b"]. by rewrite lookup_singleton.
Qed.

Lemma ex_job_ok : job_ok ex_job.
Proof.
  split.
  - vm_compute. repeat constructor; set_solver.
  - vm_compute. done.
  - intros p Hp. cbn in Hp. apply lookup_singleton_None. set_solver.
  - intros p l Hp. cbn [j_depdb ex_job] in Hp. apply lookup_singleton_Some in Hp as [<- <-]. split; [done|].
    split; [repeat constructor; set_solver|set_solver].
  - intros p d [_ H]%ex_depends. by left.
  - intros p d e [-> H1]%ex_depends [-> H2]%ex_depends. set_solver.
Qed.

Ltac play c := eapply exec_cons; [eapply c; vm_compute; (reflexivity || lia)|cbn [app]].

(** One of the executions: a and b are installed at the same time, then c. *)
Definition ex_history : list label :=
  [Tau; Tau; Tau; Tau; Start "a"; Tau; Tau; Tau; Tau; Start "b"; Tau; Finish "b" (ROk true); Finish "a" (ROk true);
   Tau; Tau; Tau; Tau; Tau; Tau; Tau; Tau; Tau; Tau; Tau; Start "c"; Tau; Tau; Finish "c" (ROk true); Tau; Tau; Tau; Tau; Tau; Return None].

Lemma ex_execution : exists s, execution ex_job (initial ex_job) ex_history s /\ returned s None.
Proof.
  eexists. split.
  - unfold ex_history, initial, ex_job. cbn [j_starting j_workers replicate].
    play main_add. play main_send. play req_mark. play req_push.
    eapply exec_cons; [apply work_start with (w1 := [])|cbn [app]].
    play main_add. play main_send. play req_mark. play req_push.
    eapply exec_cons; [apply work_start with (w1 := [WBusy "a"])|cbn [app]].
    play main_wait.
    eapply exec_cons; [apply work_finish with (w1 := [WBusy "a"])|cbn [app]].
    eapply exec_cons; [apply work_finish with (w1 := [])|cbn [app]].
    eapply exec_cons; [apply work_post with (w1 := []); vm_compute; lia|cbn [app]].
    eapply exec_cons; [apply work_post with (w1 := [WIdle]); vm_compute; lia|cbn [app]].
    eapply exec_cons; [apply upd_ok|]. change (dependents _ "a") with ["c"].
    play upd_skip. play upd_copied. play upd_done.
    eapply exec_cons; [apply upd_ok|]. change (dependents _ "b") with ["c"].
    play upd_suggest. play upd_send. play req_mark. play req_push.
    eapply exec_cons; [apply work_start with (w1 := [])|cbn [app]].
    play upd_copied. play upd_done.
    eapply exec_cons; [apply work_finish with (w1 := [])|cbn [app]].
    eapply exec_cons; [apply work_post with (w1 := []); vm_compute; lia|cbn [app]].
    eapply exec_cons; [apply upd_ok|]. change (dependents _ "c") with (@nil string).
    play upd_copied. play upd_done.
    match goal with |- context [State MWait ?w] => change w with 0%Z end.
    play main_woken.
    eapply exec_cons; [apply main_return|]. constructor.
  - done.
Qed.

(** The jobs that planning produces meet the hypothesis of the theorems below. *)
Theorem C41_planned_jobs : forall nx nr o pkgs pre cfg update le ip keys n,
  nexus_ok nx -> ~ available nx "R" -> oracle_ok o -> standard_config nr cfg ->
  (forall p, p ∈ pkgs -> available nx p) ->
  resolve_installation_reqs o pkgs pre cfg nx update le nr = PlanOk ip ->
  keys ≡ₚ (map_to_list (ip_depdb ip)).*1 ->
  job_ok (Job (ip_starting ip) (ip_depdb ip) keys n).
Proof. exact planned_job_ok. Qed.
Print Assumptions C41_planned_jobs.

(** C41 *)
Theorem C41_dependencies_first : forall j ls s l1 l2 p d, job_ok j ->
  execution j (initial j) ls s -> ls = (l1 ++ Start p :: l2)%list -> depends_on j p d -> succeeded l1 d.
Proof. intros j ls s l1 l2 p d Hj. by apply deps_first. Qed.
Print Assumptions C41_dependencies_first.

Example C41_example : job_ok ex_job /\ depends_on ex_job "c" "a" /\
  (exists s, execution ex_job (initial ex_job) ex_history s /\ returned s None) /\
  exists l1 l2, ex_history = (l1 ++ Start "c" :: l2)%list /\ succeeded l1 "a" /\ succeeded l1 "b".
Proof.
  split; [exact ex_job_ok|]. split; [apply ex_depends; set_solver|]. split; [exact ex_execution|].
  exists (take 24 ex_history), (drop 25 ex_history). split; [reflexivity|].
  split; exists true; vm_compute; set_solver.
Qed.

(** C42 *)
Theorem C42_at_most_once : forall j ls s l1 l2 p, job_ok j ->
  execution j (initial j) ls s -> ls = (l1 ++ Start p :: l2)%list ->
  ~ started l1 p /\ ~ started l2 p /\ in_plan j p.
Proof. intros j ls s l1 l2 p Hj. by apply start_once. Qed.
Print Assumptions C42_at_most_once.

Example C42_example : (exists s, execution ex_job (initial ex_job) ex_history s /\ returned s None) /\
  map (fun p => h_start p ex_history) ["a"; "b"; "c"; "d"] = [1; 1; 1; 0].
Proof. split; [exact ex_execution|reflexivity]. Qed.

(** C43.  "Installed successfully" is what InstallThroughBinary reports; see
    [C43_missing_file_refuted] for a case in which that is not true. *)
Theorem C43_success_means_all_partial : forall j ls s, job_ok j -> execution j (initial j) ls s ->
  returned s None -> forall p, in_plan j p -> succeeded ls p.
Proof. intros j ls s Hj. by apply success_all. Qed.
Print Assumptions C43_success_means_all_partial.

Example C43_example : exists s, execution ex_job (initial ex_job) ex_history s /\ returned s None /\
  in_plan ex_job "c" /\ succeeded ex_history "c".
Proof.
  destruct ex_execution as (s & H1 & H2). exists s. split; [done|]. split; [done|]. split; [right; by eexists|].
  exists true. vm_compute. set_solver.
Qed.

(** C44 *)
Theorem C44_errors_exact : forall j ls s e, job_ok j -> execution j (initial j) ls s -> returned s e ->
  (forall p, p ∈ default [] e <-> did_fail ls p) /\ NoDup (default [] e) /\ (e = None <-> no_failures ls).
Proof. intros j ls s e Hj. by apply errors_exact. Qed.
Print Assumptions C44_errors_exact.

(** Both a and b fail, c is not attempted. *)
Definition ex_failing : list label :=
  [Tau; Tau; Tau; Tau; Start "a"; Tau; Tau; Tau; Tau; Start "b"; Tau; Finish "b" RFail; Finish "a" RFail;
   Tau; Tau; Tau; Tau; Tau; Tau; Tau; Return (Some ["a"; "b"])].

Example C44_example : job_ok ex_job /\ did_fail ex_failing "a" /\ did_fail ex_failing "b" /\
  exists s, execution ex_job (initial ex_job) ex_failing s /\ returned s (Some ["a"; "b"]).
Proof.
  split; [exact ex_job_ok|]. split; [vm_compute; set_solver|]. split; [vm_compute; set_solver|].
  eexists. split.
  - unfold ex_failing, initial, ex_job. cbn [j_starting j_workers replicate].
    play main_add. play main_send. play req_mark. play req_push.
    eapply exec_cons; [apply work_start with (w1 := [])|cbn [app]].
    play main_add. play main_send. play req_mark. play req_push.
    eapply exec_cons; [apply work_start with (w1 := [WBusy "a"])|cbn [app]].
    play main_wait.
    eapply exec_cons; [apply work_finish with (w1 := [WBusy "a"])|cbn [app]].
    eapply exec_cons; [apply work_finish with (w1 := [])|cbn [app]].
    eapply exec_cons; [apply work_post with (w1 := []); vm_compute; lia|cbn [app]].
    eapply exec_cons; [apply work_post with (w1 := [WIdle]); vm_compute; lia|cbn [app]].
    eapply exec_cons; [apply upd_failed|cbn [app]]. play upd_done.
    eapply exec_cons; [apply upd_failed|cbn [app]]. play upd_done.
    match goal with |- context [State MWait ?w] => change w with 0%Z end.
    play main_woken.
    eapply exec_cons; [apply main_return|]. constructor.
  - done.
Qed.

(** C45 *)
Theorem C45_no_dependents : forall j ls s p f, job_ok j -> execution j (initial j) ls s ->
  depends_on j p f -> did_fail ls f -> ~ started ls p.
Proof. intros j ls s p f Hj. by apply no_dependents. Qed.
Print Assumptions C45_no_dependents.

Example C45_example : depends_on ex_job "c" "a" /\ did_fail ex_failing "a" /\ ~ started ex_failing "c" /\
  exists s, execution ex_job (initial ex_job) ex_failing s /\ returned s (Some ["a"; "b"]).
Proof.
  split; [apply ex_depends; set_solver|]. split; [vm_compute; set_solver|].
  split; [rewrite h_start_elem; vm_compute; lia|]. apply C44_example.
Qed.

(** C46.  Full statement: without [all_copied], that is also when a binary cannot
    be copied to the cache, and for plans of every size. Both are refuted, in
    C46_copy_error_refuted and, for every larger size, C46_large_refuted. *)
Theorem C46_terminates_partial : forall j, job_ok j -> plan_size j <= 2502 + j_workers j -> 1 <= j_workers j ->
  (forall run : nat -> state, run 0 = initial j -> ~ (forall n, exists l, step j (run n) l (run (S n)))) /\
  (forall ls s, execution j (initial j) ls s -> stuck j s -> no_failures ls -> all_copied ls -> returned s None).
Proof.
  intros j Hj Hc Hw. split; [by apply no_infinite_run|]. intros ls s H Hs Hn Hb.
  assert (s_any_failed s = false) as Haf.
  { destruct (s_any_failed s) eqn:E; [|done]. destruct (any_failed_fails j ls s H E) as [p Hp]. by apply Hn in Hp. }
  destruct (stuck_returned j Hj ls s H Hs Hc Hw) as [e He]; [by eapply no_drops|done|].
  destruct (errors_exact j ls s e H He) as (_ & _ & E). by rewrite (proj2 E Hn) in He.
Qed.
Print Assumptions C46_terminates_partial.

Example C46_example : job_ok ex_job /\ plan_size ex_job = 3 /\ no_failures ex_history /\ all_copied ex_history /\
  exists s, execution ex_job (initial ex_job) ex_history s /\ stuck ex_job s.
Proof.
  split; [exact ex_job_ok|]. split; [reflexivity|].
  split; [intros p; rewrite h_fail_elem; cbn; lia|]. split; [by apply h_bad_none|].
  destruct ex_execution as (s & H1 & H2). exists s. split; [done|]. by eapply returned_stuck.
Qed.

(** A package is installed but its binary cannot be copied to the cache: the
    function never returns. *)
Theorem C46_copy_error_refuted : exists j ls s, job_ok j /\ plan_size j <= 2502 + j_workers j /\ 1 <= j_workers j /\
  execution j (initial j) ls s /\ no_failures ls /\ stuck j s /\ forall e, ~ returned s e.
Proof.
  exists (Job ["a"] ∅ [] 1),
    [Tau; Tau; Tau; Tau; Start "a"; Finish "a" (ROk false); Tau; Tau; Tau; Tau]. eexists.
  split; [|split; [vm_compute; lia|split; [vm_compute; lia|split]]].
  - split.
    + repeat constructor. set_solver.
    + done.
    + done.
    + done.
    + intros p d (l & Hl & _). done.
    + intros p d e (l & Hl & _). done.
  - unfold initial. cbn [j_starting j_workers replicate].
    play main_add. play main_send. play req_mark. play req_push.
    eapply exec_cons; [apply work_start with (w1 := [])|cbn [app]].
    eapply exec_cons; [apply work_finish with (w1 := [])|cbn [app]].
    eapply exec_cons; [apply work_post with (w1 := []); vm_compute; lia|cbn [app]].
    eapply exec_cons; [apply upd_ok|]. change (dependents _ "a") with (@nil string).
    play upd_copy_error. play main_wait. constructor.
  - split; [intros p; rewrite h_fail_elem; cbn; lia|]. split; [|done].
    intros l s H. inversion H; subst; try done; try (by destruct w1 as [|? [|]]).
Qed.
Print Assumptions C46_copy_error_refuted.

(** C47: every execution is finite, and an execution that cannot go on has
    returned exactly when no request was dropped and every binary could be copied.
    Full statement: every execution that cannot go on has returned, for plans of every
    size (C47_size_exact: the bound cannot be raised). *)
Theorem C47_terminates_partial : forall j, job_ok j -> plan_size j <= 2502 + j_workers j -> 1 <= j_workers j ->
  (forall run : nat -> state, run 0 = initial j -> ~ (forall n, exists l, step j (run n) l (run (S n)))) /\
  (forall ls s, execution j (initial j) ls s -> stuck j s ->
     (exists e, returned s e) <-> none_dropped ls /\ all_copied ls).
Proof.
  intros j Hj Hc Hw. split; [by apply no_infinite_run|]. intros ls s H Hs. split.
  - intros [e He]. by destruct (returned_quiet j ls s e H He) as (_ & H1 & H2 & _).
  - intros [H1 H2]. by eapply stuck_returned.
Qed.
Print Assumptions C47_terminates_partial.

Example C47_example : job_ok ex_job /\ none_dropped ex_failing /\ all_copied ex_failing /\
  exists s, execution ex_job (initial ex_job) ex_failing s /\ stuck ex_job s.
Proof.
  split; [exact ex_job_ok|]. split; [by apply h_drop_none|]. split; [by apply h_bad_none|].
  destruct C44_example as (_ & _ & _ & s & H1 & H2). exists s. split; [done|]. by eapply returned_stuck.
Qed.

(** a fails while the request for b is being received: the request is dropped
    without wg.Done(), and the function never returns. *)
Theorem C47_lost_request_refuted : exists j ls s, job_ok j /\ plan_size j <= 2502 + j_workers j /\ 1 <= j_workers j /\
  execution j (initial j) ls s /\ all_copied ls /\ stuck j s /\ forall e, ~ returned s e.
Proof.
  exists ex_job, [Tau; Tau; Tau; Tau; Start "a"; Finish "a" RFail; Tau; Tau; Tau; Tau; Drop "b"; Tau; Tau]. eexists.
  split; [exact ex_job_ok|split; [vm_compute; lia|split; [vm_compute; lia|split]]].
  - unfold initial, ex_job. cbn [j_starting j_workers replicate].
    play main_add. play main_send. play req_mark. play req_push.
    eapply exec_cons; [apply work_start with (w1 := [])|cbn [app]].
    eapply exec_cons; [apply work_finish with (w1 := [])|cbn [app]].
    eapply exec_cons; [apply work_post with (w1 := []); vm_compute; lia|cbn [app]].
    play main_add. play main_send.
    eapply exec_cons; [apply upd_failed|cbn [app]].
    play req_failed. play upd_done. play main_wait. constructor.
  - split; [by apply h_bad_none|]. split; [|done].
    intros l s H. inversion H; subst; try done; try (by destruct w1 as [|? [|? [|]]]).
Qed.
Print Assumptions C47_lost_request_refuted.

(** C48 *)
Theorem C48_worker_limit : forall j ls s (l : list string), execution j (initial j) ls s ->
  NoDup l -> (forall p, p ∈ l -> running ls p) -> length l <= j_workers j.
Proof. exact workers_bound. Qed.
Print Assumptions C48_worker_limit.

Example C48_example : j_workers ex_job = 2 /\ running (take 10 ex_history) "a" /\ running (take 10 ex_history) "b".
Proof.
  split; [reflexivity|]. split; (split; [vm_compute; set_solver|]); intros r; vm_compute; set_solver.
Qed.

(** C74 *)
Theorem C74_wait_group_nonnegative : forall j ls s, job_ok j -> execution j (initial j) ls s -> (0 <= s_wg s)%Z.
Proof. intros j ls s _. apply wg_nonneg. Qed.
Print Assumptions C74_wait_group_nonnegative.

(** After returning nothing happens any more. *)
Theorem C74_nothing_after_return : forall j ls s e, job_ok j -> execution j (initial j) ls s -> returned s e ->
  stuck j s.
Proof. intros j ls s e _. apply returned_stuck. Qed.
Print Assumptions C74_nothing_after_return.

Example C74_example : exists s, execution ex_job (initial ex_job) ex_failing s /\ s_wg s = 0%Z /\ stuck ex_job s.
Proof.
  destruct C44_example as (_ & _ & _ & s & H1 & H2). exists s. split; [done|]. split.
  - by apply (w_returned _ _ (waits_run _ _ _ H1) _ H2).
  - by eapply returned_stuck.
Qed.
