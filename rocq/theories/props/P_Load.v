(** Loading packages: C68. *)
From stdpp Require Import strings list gmap.
From Coq Require Import ZArith Lia.
From Verif.model Require Import Load.
From Verif.spec Require Import LoadSpec.
From Verif.proofs Require Import LoadProofs.

Local Open Scope string_scope.

(** C68.  In full: for every list of packages, thread setting, outcome of the
    R sessions and interleaving, loading terminates, reports every package once,
    and the number of failures is the number of packages that failed.  Proved for
    positive thread settings and lists without duplicates.  Missing: see the
    refutations. *)
Theorem C68_terminates_partial : forall n threads cap ends, (1 <= threads)%Z -> sem_cap threads = Some cap ->
  well_founded (fun o' o => lstep n cap ends o o')
  /\ (forall o, lexec n cap ends o -> ~ stuck n cap ends o)
  /\ (forall o, lexec n cap ends o -> (Z.of_nat (running o) <= 2 * threads)%Z).
Proof.
  intros n threads cap ends Ht Hc. unfold sem_cap in Hc. destruct (Z.ltb_spec (threads * 2) 0); [lia|]. injection Hc as <-.
  split; [apply terminates|]. split.
  - intros [s|] He [H1 H2]; [|done]. destruct (progress n (Z.to_nat (threads * 2)) ends s) as [o' Ho]; [lia|done|done|]. by apply (H1 o').
  - intros o He. pose proof (running_le _ _ _ _ He). lia.
Qed.
Print Assumptions C68_terminates_partial.

Theorem C68_report_partial : forall pkgs cap ends s,
  lexec (length pkgs) cap ends (Going s) -> ls_main s = true ->
  let rep := report_of pkgs ends (ls_got s) in
  (forall p, p ∈ pkgs <-> is_Some (rep_results rep !! p))
  /\ (forall p r, rep_results rep !! p = Some r -> exists i, pkgs !! i = Some p /\ attempt_load p (ends i) = Some r)
  /\ rep_failures rep = failed_attempts (length pkgs) ends
  /\ (NoDup pkgs -> rep_failures rep = length (failed_entries pkgs rep)).
Proof.
  intros pkgs cap ends s He Hm rep. destruct (report_complete pkgs cap ends s He Hm) as (H1 & H2 & H3).
  split; [exact H1|]. split; [exact H2|]. split; [exact H3|]. intros Hn. exact (failures_distinct pkgs cap ends s Hn He Hm).
Qed.
Print Assumptions C68_report_partial.

Definition ex_ends (i : nat) : attempt := match i with 1 => ExitNonZero | _ => ExitZero end.

Example C68_example :
  let rep := report_of ["A"; "B"] ex_ends [1; 0] in
  rep_results rep !! "A" = Some {| lr_pkg := "A"; lr_success := true |}
  /\ rep_results rep !! "B" = Some {| lr_pkg := "B"; lr_success := false |} /\ rep_failures rep = 1
  /\ failed_entries ["A"; "B"] rep = ["B"].
Proof. vm_compute. repeat split. Qed.

(** With one thread two sessions run at the same time, and the second may come first. *)
Example C68_example_run : exists s, lexec 2 2 ex_ends (Going s) /\ ls_main s = true /\ ls_got s = [1; 0].
Proof.
  pose proof (le_init 2 2 ex_ends) as H. unfold linitial in H.
  eapply le_step in H; [|apply (l_acquire _ _ _ _ 0); [done|done|cbn; lia]]. cbn in H.
  eapply le_step in H; [|apply (l_acquire _ _ _ _ 1); [done|done|cbn; lia]]. cbn in H.
  eapply le_step in H; [|apply (l_send _ _ _ _ 1); [done|done|done|cbn; lia]]. cbn in H.
  eapply le_step in H; [|apply (l_send _ _ _ _ 0); [done|done|done|cbn; lia]]. cbn in H.
  eapply le_step in H; [|apply (l_receive _ _ _ _ 1 [0]); [done|cbn; lia|done]]. cbn in H.
  eapply le_step in H; [|apply (l_receive _ _ _ _ 0 []); [done|cbn; lia|done]]. cbn in H.
  eapply le_step in H; [|apply l_return; done]. cbn in H.
  eexists. by split; [exact H|].
Qed.

(** With zero threads every goroutine waits for ever. *)
Theorem C68_zero_threads_refuted : forall n ends, 0 < n ->
  sem_cap 0 = Some 0 /\ lexec n 0 ends (linitial n) /\ stuck n 0 ends (linitial n).
Proof.
  intros n ends Hn. split; [done|]. split; [apply le_init|]. split; [|done].
  intros o' H. inversion H as [s i Hm Hi Hc E1 E2|s i Hm Hi Hk Hc E1 E2|s i Hm Hi Hk E1 E2|s i Hm Hi E1 E2|s i r Hm Hl Hc E1 E2|s Hm Hl E1 E2]; subst; cbn in *.
  - lia.
  - apply lookup_replicate in Hi as [? _]. done.
  - apply lookup_replicate in Hi as [? _]. done.
  - apply lookup_replicate in Hi as [? _]. done.
  - done.
  - lia.
Qed.
Print Assumptions C68_zero_threads_refuted.

(** With a negative number making the semaphore panics. *)
Theorem C68_negative_threads_refuted : forall threads, (threads < 0)%Z -> sem_cap threads = None.
Proof. intros t H. unfold sem_cap. by destruct (Z.ltb_spec (t * 2) 0); [|lia]. Qed.
Print Assumptions C68_negative_threads_refuted.

(** A package that is listed twice is counted twice. *)
Theorem C68_duplicates_refuted :
  let rep := report_of ["B"; "B"] (fun _ => ExitNonZero) [0; 1] in
  rep_failures rep = 2 /\ size (rep_results rep) = 1.
Proof. vm_compute. by split. Qed.
Print Assumptions C68_duplicates_refuted.
