(** C125, C126: the status of a command, and the configuration file after a failure. *)
From stdpp Require Import strings list gmap.
From Coq Require Import Ascii ZArith Lia.
From Verif.model Require Import GoStr Desc Nexus RepoDb Graph Plan Fs Install Clean Yml Commands Status.
From Verif.spec Require Import YmlSpec CleanSpec StatusSpec.
From Verif.proofs Require Import ExampleChecks.
From Verif.props Require Import P_Clean P_Graph.

Local Open Scope string_scope.

(** * C125: the status

    In full: the commands plan, inspect, run, clean cache, add and remove end with the
    status 0 exactly when they have done their work.  Missing: plan and inspect in
    strict mode without a library, sessions of R that fail, and the errors of clean
    cache. *)

Theorem C125_plan_partial : forall strict library_exists p e,
  (strict = true -> library_exists = true) ->
  planning_ends strict library_exists p = Some e -> exit_status e = 0 <-> plan_done strict library_exists p.
Proof.
  intros strict le p e Hs E. unfold plan_done. destruct p as [nx ip|m| | |]; injection E as <- || discriminate E;
    (split; [intros H; discriminate H || (split; [by eexists _, _|done])|intros [(nx' & ip' & H) _]; discriminate H || done]).
Qed.
Print Assumptions C125_plan_partial.

(** What cannot be planned is told apart from what the program cannot deal with. *)
Theorem C125_plan_status : forall strict library_exists p e,
  planning_ends strict library_exists p = Some e ->
  (exit_status e = 1 <-> (exists m, p = PIMissing m) \/ p = PIFatal) /\ (exit_status e = 2 <-> p = PIPanic).
Proof.
  intros strict le p e E. destruct p as [nx ip|m| | |]; injection E as <- || discriminate E; cbn;
    (split; split; [intros H; discriminate H || (try (by left; eexists); by right)|
      intros [[? H]|H]; discriminate H || done|intros H; discriminate H || done|intros H; discriminate H || done]).
Qed.
Print Assumptions C125_plan_status.

Theorem C125_run_partial : forall version_known r,
  (r = Ended 0 -> exit_status (run_ends version_known r) = 0 <-> run_done version_known r) /\
  (version_known = false -> exit_status (run_ends version_known r) = 1).
Proof.
  intros v r. split; [|by intros ->]. intros ->. unfold run_done, run_ends. destruct v; cbn; split; [done|done|discriminate|by intros []].
Qed.
Print Assumptions C125_run_partial.

Theorem C125_clean_partial : forall c f r, cc_src_only c && cc_binaries_only c = false -> clean_cache c f r ->
  exit_status (clean_cache_ends r) = 0 <-> clean_done r.
Proof.
  intros c f r Hb H. unfold clean_done. destruct r as [|g []]; cbn.
  - split; [discriminate|intros [g E]; discriminate E].
  - exfalso. unfold clean_cache in H. rewrite Hb in H. cbn zeta in H. destruct H as (r1 & H1 & H2).
    assert (forall cache repos sub f1 g1, ~ delete_sub cache repos sub f1 (Cleaned g1 true)) as Hd.
    { intros cache repos sub f1 g1. unfold delete_sub. destruct (f1 cache) as [[|]|]; intros Hx;
        first [discriminate Hx|destruct Hx as (? & ? & _ & _ & E); discriminate E]. }
    destruct r1 as [|f1 []]; [discriminate H2| |injection H2 as _ E; discriminate E]. revert H1.
    destruct (negb (cc_src_only c) && negb (cc_binaries_only c)); [|destruct (cc_src_only c); apply Hd].
    intros (r0 & H3 & H4). destruct r0 as [|f0 []]; [discriminate H4|by eapply Hd|by eapply Hd].
  - split; [intros _; by exists g|done].
Qed.
Print Assumptions C125_clean_partial.

(** In strict mode plan says that the library must exist, and ends with 0. *)
Theorem C125_strict_refuted : forall nx ip,
  planning_ends true false (PIPlan nx ip) = Some (Returns false) /\ ~ plan_done true false (PIPlan nx ip).
Proof. intros nx ip. split; [done|]. intros [_ H]. by specialize (H eq_refl). Qed.
Print Assumptions C125_strict_refuted.

(** Whatever becomes of the session, run ends with 0. *)
Theorem C125_run_refuted : forall r, r <> Ended 0 ->
  exit_status (run_ends true r) = 0 /\ ~ run_done true r.
Proof. intros r Hr. split; [done|]. by intros [_ H]. Qed.
Print Assumptions C125_run_refuted.

(** With --src-only and --binaries-only nothing is removed and the status is 0. *)
Theorem C125_clean_refuted : forall c f r, cc_src_only c = true -> cc_binaries_only c = true -> clean_cache c f r ->
  exit_status (clean_cache_ends r) = 0 /\ ~ clean_done r /\ r = Cleaned f true.
Proof.
  intros c f r H1 H2 H. apply (C66_both_flags c f r H1 H2) in H. subst r. split; [done|]. split; [|done].
  intros [g E]. discriminate E.
Qed.
Print Assumptions C125_clean_refuted.

Example C125_example :
  planning_ends false false (plan_install id_oracle (PlanConfig ["lib1"] [] false false false []) ex_nx [] [] ∅ false)
    = Some (Returns false) /\
  planning_ends false false (plan_install id_oracle (PlanConfig ["lib1"; "nothing"] [] false false false []) ex_nx [] [] ∅ false)
    = Some Fatally /\
  run_ends true (Ended 3) = Returns false /\ run_ends false NotStarted = Fatally /\
  exit_status (Returns true) = 255.
Proof. split; [vm_compute; reflexivity|]. split; [vm_compute; reflexivity|]. done. Qed.

(** * C126: the configuration file after add and remove

    In full: when add or remove ends with the status 0 the file has the entries added
    or removed as C61 and C62 say, and otherwise it is as it was before.  Missing: a
    disk without room for the file, and for remove a file that cannot be read. *)

Theorem C126_add_partial : forall yaml c pkgs e c', cn_room c = None -> add_ends yaml c pkgs = (e, c') ->
  (exit_status e = 0 -> pkgs <> [] -> exists listed t, yaml (cn_content c) = Some listed /\
     add_packages (cn_content c) listed pkgs = Some t /\ cn_content c' = t) /\
  (exit_status e <> 0 -> c' = c).
Proof.
  intros yaml c pkgs e c' Hr E. unfold add_ends in E. destruct pkgs as [|p pkgs]; [by injection E as <- <-|].
  destruct (cn_readable c); [by injection E as <- <-|].
  destruct (yaml (cn_content c)) as [listed|] eqn:Ey; [|by injection E as <- <-].
  destruct (add_packages (cn_content c) listed (p :: pkgs)) as [t|] eqn:Et; [|by injection E as <- <-].
  unfold overwrite in E. rewrite Hr in E. destruct (cn_writable c); injection E as <- <-; [|done].
  split; [|done]. intros _ _. by exists listed, t.
Qed.
Print Assumptions C126_add_partial.

(** A file that cannot be read in full is not touched by add. *)
Theorem C126_add_unreadable : forall yaml c n pkgs, cn_readable c = Some n -> pkgs <> [] ->
  add_ends yaml c pkgs = (Fatally, c).
Proof. intros yaml c n [|p pkgs] H Hp; [done|]. unfold add_ends. by rewrite H. Qed.
Print Assumptions C126_add_unreadable.

Lemma overwrite_sound c t : sound c ->
  overwrite c t = if cn_writable c then (true, {| cn_content := t; cn_readable := None; cn_writable := true; cn_room := None |})
                  else (false, c).
Proof. intros [_ Hr]. unfold overwrite. by rewrite Hr. Qed.

Theorem C126_remove_partial : forall names c e c', sound c -> remove_ends c names = (e, c') ->
  (exit_status e = 0 -> cn_content c' = remove_packages (cn_content c) names) /\ (exit_status e <> 0 -> c' = c).
Proof.
  induction names as [|n names IH]; intros c e c' Hs E; [by injection E as <- <-|].
  cbn [remove_ends] in E. rewrite (overwrite_sound _ _ Hs) in E. destruct (cn_writable c); [|by injection E as <- <-].
  set (c1 := {| cn_content := remove_package (cut (cn_readable c) (cn_content c)) n |}) in E.
  assert (sound c1) as Hs1 by done. destruct (IH c1 e c' Hs1 E) as [H1 H2]. destruct Hs as [Hd Hr]. split.
  - intros He. rewrite (H1 He). unfold c1. cbn [cn_content]. by rewrite Hd.
  - intros He. exfalso. assert (cn_writable c1 = true) as Hw by done. clearbody c1. clear -E He Hw Hs1. revert c1 Hw Hs1 E.
    induction names as [|m l IH]; intros c1 Hw Hs E; [injection E as <- <-; done|]. cbn [remove_ends] in E.
    rewrite (overwrite_sound _ _ Hs), Hw in E. by eapply IH in E.
Qed.
Print Assumptions C126_remove_partial.

(** A file of which nothing can be read is emptied by remove, with the status 0. *)
Definition unreadable : config_file :=
  {| cn_content := ("Packages:" +:+ newline +:+ "- dplyr" +:+ newline); cn_readable := Some 0; cn_writable := true; cn_room := None |}.

Theorem C126_unreadable_refuted : exists c', remove_ends unreadable ["other"] = (Returns false, c') /\ cn_content c' = "".
Proof. eexists. split; vm_compute; reflexivity. Qed.
Print Assumptions C126_unreadable_refuted.

(** Without room on the disk, add and remove leave only a part of the file. *)
Definition crowded : config_file :=
  {| cn_content := "Packages:" +:+ newline +:+ "- dplyr" +:+ newline +:+ "- MASS" +:+ newline;
     cn_readable := None; cn_writable := true; cn_room := Some 12 |}.

Theorem C126_disk_full_refuted :
  (exists c', add_ends (fun _ => Some ["dplyr"; "MASS"]) crowded ["nlme"] = (Fatally, c') /\
     cn_content c' = "Packages:" +:+ newline +:+ "- ") /\
  (exists c', remove_ends crowded ["MASS"] = (Fatally, c') /\ cn_content c' = "Packages:" +:+ newline +:+ "- ").
Proof. split; eexists; split; vm_compute; reflexivity. Qed.
Print Assumptions C126_disk_full_refuted.

Definition one_entry : config_file :=
  {| cn_content := ("Packages:" +:+ newline +:+ "- dplyr" +:+ newline); cn_readable := None; cn_writable := true; cn_room := None |}.

Example C126_example : exists c',
  add_ends (fun _ => Some ["dplyr"]) one_entry ["MASS"] = (Returns false, c') /\
  cn_content c' = "Packages:" +:+ newline +:+ "- MASS" +:+ newline +:+ "- dplyr" +:+ newline /\
  remove_ends c' ["MASS"] = (Returns false, one_entry).
Proof. eexists. split; [vm_compute; reflexivity|]. split; vm_compute; reflexivity. Qed.
