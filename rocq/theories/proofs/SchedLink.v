(** Plans are executable jobs; building executions. *)
From stdpp Require Import strings list gmap relations.
From Coq Require Import Ascii ZArith Lia.
From Verif.model Require Import GoStr Version Desc Nexus Pacman Graph Sched.
From Verif.spec Require Import RepoSpec GraphSpec SchedSpec.
From Verif.proofs Require Import GoStrLemmas RepoProofs GraphProofs PlanProofs PlanProps DerivedProofs
  SchedProofs SchedProps.

Local Open Scope string_scope.

Lemma planned_job_ok nx nr o pkgs pre cfg update le ip keys n :
  nexus_ok nx -> ~ available nx "R" -> oracle_ok o -> standard_config nr cfg ->
  (forall p, p ∈ pkgs -> available nx p) ->
  resolve_installation_reqs o pkgs pre cfg nx update le nr = PlanOk ip ->
  keys ≡ₚ (map_to_list (ip_depdb ip)).*1 ->
  job_ok (Job (ip_starting ip) (ip_depdb ip) keys n).
Proof.
  intros H1 H2 H3 H4 H5 E Hk.
  destruct (plan_closure nx nr o pkgs pre cfg update le H1 H2 H3 H4 H5 ip E) as [P1 P2].
  destruct (plan_deps nx nr o pkgs pre cfg update le H1 H2 H3 H4 H5 ip E) as [D1 D2].
  unfold planned_names in P2. apply NoDup_app in P2 as (N1 & N2 & N3).
  assert (forall q deps, ip_depdb ip !! q = Some deps -> closure cfg nx pkgs q) as C.
  { intros q deps Hq. apply P1. right. by exists deps. }
  assert (forall q deps, ip_depdb ip !! q = Some deps -> q ∉ ip_starting ip) as NS.
  { intros q deps Hq Hs. apply (N2 q Hs). apply elem_of_list_fmap. exists (q, deps).
    split; [done|]. by apply elem_of_map_to_list. }
  assert (forall a b, tc (needs nx nr) a b -> closure cfg nx pkgs a -> closure cfg nx pkgs b) as T.
  { intros a b Hab. induction Hab as [a b Hab|a b c Hab Hbc IH]; intros Ha.
    - by eapply closure_needs.
    - apply IH. by eapply closure_needs. }
  split; cbn [j_starting j_depdb j_keys j_workers]; [done|done| | | |].
  - intros p Hp. destruct (ip_depdb ip !! p) as [l|] eqn:Ep; [|done]. by apply NS in Ep.
  - intros p l Hp. destruct (D2 p l Hp) as (A1 & A2 & A3). split; [|done].
    intros ->. apply (NS p [] Hp), D1. split; [by eapply C|].
    intros r Hr. apply (not_elem_of_nil r), A3. by apply tc_once.
  - intros p d (l & Hl & Hd). cbn [j_depdb] in Hl. apply (D2 p l Hl) in Hd. apply T in Hd; [|by eapply C].
    by apply P1 in Hd.
  - intros p d e (l & Hl & Hd) (k & Hk' & He). cbn [j_depdb] in *. exists l. split; [done|].
    apply (D2 p l Hl). apply (D2 p l Hl) in Hd. apply (D2 d k Hk') in He. by eapply tc_transitive.
Qed.

Lemma exec_cons j s l s1 ls s2 : step j s l s1 -> execution j s1 ls s2 -> execution j s (l :: ls) s2.
Proof.
  intros H1 H2. induction H2 as [s1|s1 ls s2 l' s3 H2 IH H3].
  - apply (ex_snoc j s [] s l s1); [constructor|done].
  - change (l :: ls ++ [l'])%list with ((l :: ls) ++ [l'])%list. eapply ex_snoc; [by apply IH|done].
Qed.

Lemma no_infinite_run j (Hj : job_ok j) (run : nat -> state) : run 0 = initial j ->
  ~ (forall n, exists l, step j (run n) l (run (S n))).
Proof.
  intros H0 H.
  assert (Acc (fun s2 s1 => exists l, step j s1 l s2) (run 0)) as A.
  { rewrite H0. eapply (no_infinite j Hj []). constructor. }
  clear H0. revert H. remember (run 0) as s eqn:E. revert run E.
  induction A as [s _ IH]. intros run -> H.
  apply (IH (run 1)) with (run := fun n => run (S n)).
  - exact (H 0).
  - done.
  - intros n. apply (H (S n)).
Qed.
