(** C157: the lists of the packages of a plan share memory and keep their packages. *)
From stdpp Require Import strings list gmap relations.
From Coq Require Import Ascii ZArith.
From Verif.model Require Import GoStr Desc Nexus Graph Report Slices.
From Verif.spec Require Import SlicesSpec.
From Verif.proofs Require Import SlicesProofs.

Local Open Scope string_scope.

(** The packages that a plan starts with are never changed. *)
Theorem C157_start : forall grow start keys additional m x,
  lies m start -> lists_happen grow start keys additional m x ->
  read (ls_memory x) start = read m start.
Proof. intros grow start keys additional m x L H. by destruct (all_happen _ _ _ _ _ _ L H) as (_ & R & _). Qed.
Print Assumptions C157_start.

(** Each list that was returned is at any later time the packages that the plan starts
    with, the other packages in some order, and the tarballs in some order: it is a
    value of GetAllPackages for the plan. *)
Theorem C157_kept : forall grow start ip keys additional m x r,
  lies m start -> read m start = ip_starting ip -> lists_happen grow start keys additional m x -> r ∈ ls_returned x ->
  exists k a, k ≡ₚ keys /\ a ≡ₚ additional /\ read (ls_memory x) r = get_all_packages ip k a.
Proof.
  intros grow start ip keys additional m x r L E H Hr.
  destruct (all_happen _ _ _ _ _ _ L H) as (_ & _ & _ & _ & _ & Q).
  destruct (Q r Hr) as (_ & _ & (k & a & Hk & Ha & Hq) & _). exists k, a. split; [done|]. split; [done|].
  rewrite Hq, E. done.
Qed.
Print Assumptions C157_kept.

(** So the same packages are in all the lists, each as often as in the others. *)
Theorem C157_same : forall grow start keys additional m x r r',
  lies m start -> lists_happen grow start keys additional m x -> r ∈ ls_returned x -> r' ∈ ls_returned x ->
  read (ls_memory x) r ≡ₚ read (ls_memory x) r' /\ length (read (ls_memory x) r) = sl_len r.
Proof.
  intros grow start keys additional m x r r' L H Hr Hr'.
  destruct (all_happen _ _ _ _ _ _ L H) as (_ & _ & _ & _ & _ & Q).
  destruct (Q r Hr) as (Lr & _ & (k & a & Hk & Ha & ->) & _).
  destruct (Q r' Hr') as (_ & Nr' & (k' & a' & Hk' & Ha' & ->) & _).
  split.
  - by rewrite Hk, Ha, Hk', Ha'.
  - destruct (Q r Hr) as (_ & Nr & (k1 & a1 & Hk1 & Ha1 & E1) & _).
    destruct (lies_array _ _ Lr) as [_ Hle].
    assert (length (read (ls_memory x) r) = sl_len r) as Hlen by (unfold read; rewrite take_length; lia).
    rewrite E1 in Hlen. rewrite !app_length in *. rewrite Hk1, Ha1 in Hlen. by rewrite Hk, Ha.
Qed.
Print Assumptions C157_same.

(** The arrays of others are not written. *)
Theorem C157_others : forall grow start keys additional m x i,
  lies m start -> lists_happen grow start keys additional m x -> i < length m -> i <> sl_array start ->
  ls_memory x !! i = m !! i.
Proof. intros grow start keys additional m x i L H. destruct (all_happen _ _ _ _ _ _ L H) as (_ & _ & _ & _ & O & _). apply O. Qed.
Print Assumptions C157_others.

(** The lines "to install" are written from the list of cmd/plan.go 263 after the call of
    line 281; they are those of the model for the order in which the list then is. *)
Theorem C157_lines : forall grow start nx ip keys additional installed m x r,
  lies m start -> read m start = ip_starting ip -> lists_happen grow start keys additional m x -> r ∈ ls_returned x ->
  exists k a, k ≡ₚ keys /\ a ≡ₚ additional /\
    install_lines nx ip k a installed =
      let n := num_to_install ip k a in
      if (0 <? n)%Z && negb (n =? Z.of_nat (sl_len r))%Z
      then map (line_for nx) (List.filter (fun p => negb (existsb (String.eqb p) installed)) (read (ls_memory x) r))
      else [].
Proof.
  intros grow start nx ip keys additional installed m x r L E H Hr.
  destruct (C157_kept grow start ip keys additional m x r L E H Hr) as (k & a & Hk & Ha & Hq).
  destruct (C157_same grow start keys additional m x r r L H Hr Hr) as [_ Hlen].
  exists k, a. split; [done|]. split; [done|]. rewrite <- Hlen, Hq. done.
Qed.
Print Assumptions C157_lines.

(** ** Example *)

(** The growth of a small slice. *)
Definition ex_grow (n : nat) : nat := if (n =? 0)%nat then 1 else 2 * n.

(** The start of a plan: three packages in an array with room for eight. *)
Definition ex_memory : memory := [["R6"; "rlang"; "glue"; ""; ""; ""; ""; ""]].
Definition ex_start : slice := Slice 0 3.

(** Two calls; the first list now has the order of the second. *)
Example C157_example :
  lies ex_memory ex_start /\
  exists x, lists_happen ex_grow ex_start ["cli"; "pillar"] ["mine"] ex_memory x /\
    ls_returned x = [Slice 0 6; Slice 0 6] /\
    read (ls_memory x) (Slice 0 6) = ["R6"; "rlang"; "glue"; "pillar"; "cli"; "mine"] /\
    read (all_packages_in ex_grow ex_memory ex_start ["cli"; "pillar"] ["mine"]).1 (Slice 0 6) =
      ["R6"; "rlang"; "glue"; "cli"; "pillar"; "mine"].
Proof.
  split; [by exists (["R6"; "rlang"; "glue"; ""; ""; ""; ""; ""]); split; [|cbn; lia]|].
  eexists. split; [|split; [|split]].
  - eapply rtc_l; [apply (step_call _ _ _ _ _ _ ["cli"; "pillar"] ["mine"]); [done|done|vm_compute; reflexivity]|].
    eapply rtc_l; [apply (step_call _ _ _ _ _ _ ["pillar"; "cli"] ["mine"]); [apply perm_swap|done|vm_compute; reflexivity]|].
    apply rtc_refl.
  - done.
  - done.
  - done.
Qed.

(** Without room the lists are apart. *)
Example C157_apart :
  let m := [["R6"]] in
  let '(m1, r1) := all_packages_in ex_grow m (Slice 0 1) ["cli"; "pillar"] [] in
  let '(m2, r2) := all_packages_in ex_grow m1 (Slice 0 1) ["pillar"; "cli"] [] in
  read m2 r1 = ["R6"; "cli"; "pillar"] /\ read m2 r2 = ["R6"; "pillar"; "cli"] /\ sl_array r1 <> sl_array r2.
Proof. by vm_compute. Qed.

(** ** What is not so *)

(** A list does not keep its order. *)
Theorem C157_order_refuted :
  ~ (forall grow start keys additional m x y r,
      (forall n, n < grow n) -> lies m start -> lists_happen grow start keys additional m x -> r ∈ ls_returned x ->
      lists_step grow start keys additional x y -> read (ls_memory y) r = read (ls_memory x) r).
Proof.
  intros H.
  assert (read (all_packages_in ex_grow (all_packages_in ex_grow ex_memory ex_start ["cli"; "pillar"] ["mine"]).1 ex_start
            ["pillar"; "cli"] ["mine"]).1 (Slice 0 6) =
          read (all_packages_in ex_grow ex_memory ex_start ["cli"; "pillar"] ["mine"]).1 (Slice 0 6)) as Q; [|by vm_compute in Q].
  eapply (H ex_grow ex_start ["cli"; "pillar"] ["mine"] ex_memory (Lists _ [_]) (Lists _ [_; _])).
  - intros n. unfold ex_grow. destruct (n =? 0)%nat eqn:E; [apply Nat.eqb_eq in E; lia|apply Nat.eqb_neq in E; lia].
  - apply C157_example.
  - apply rtc_once. apply (step_call _ _ _ _ _ _ ["cli"; "pillar"] ["mine"]); [done|done|apply surjective_pairing].
  - vm_compute. left.
  - apply (step_call _ _ _ _ _ _ ["pillar"; "cli"] ["mine"]); [apply perm_swap|done|apply surjective_pairing].
Qed.
Print Assumptions C157_order_refuted.

(** A list does not keep its packages when the tarballs of the plan are replaced before
    another call: the plan must be complete at the first call, as it is in cmd/plan.go
    251-255. *)
Theorem C157_replaced_refuted :
  ~ (forall grow start keys additional additional' m,
      (forall n, n < grow n) -> lies m start ->
      let '(m1, r1) := all_packages_in grow m start keys additional in
      let '(m2, _) := all_packages_in grow m1 start keys additional' in
      read m2 r1 ≡ₚ read m1 r1).
Proof.
  intros H. specialize (H ex_grow ex_start ["cli"; "pillar"] ["mine"] ["other"] ex_memory).
  assert (forall n, n < ex_grow n) as G.
  { intros n. unfold ex_grow. destruct (n =? 0)%nat eqn:E; [apply Nat.eqb_eq in E; lia|apply Nat.eqb_neq in E; lia]. }
  specialize (H G (proj1 C157_example)). vm_compute in H.
  assert ("mine" ∈ ["R6"; "rlang"; "glue"; "cli"; "pillar"; "other"]) as Q.
  { rewrite H. by apply (bool_decide_unpack _); vm_compute. }
  apply (bool_decide_pack _) in Q. by vm_compute in Q.
Qed.
Print Assumptions C157_replaced_refuted.
