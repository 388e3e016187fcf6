(** Boolean checks used to show that example runs meet the hypotheses of theorems. *)
From stdpp Require Import strings list gmap.
From Coq Require Import Ascii ZArith Lia.
From Verif.model Require Import GoStr Version Desc Nexus Pacman Graph Fs Rollback.
From Verif.spec Require Import RepoSpec GraphSpec LibSpec.
From Verif.proofs Require Import FsProofs RollbackProofs RunProofs RunProps RunProps2 RunLink.

Local Open Scope string_scope.

Definition is_dirb (l : list (list string * node)) (q : list string) : bool :=
  match fs_of l q with Some Dir => true | _ => false end.

Definition lists_libraryb (l : list (list string * node)) (lib : list string)
    (dirs : list (string * option desc)) : bool :=
  bool_decide (NoDup dirs.*1) &&
  forallb (fun x => is_dirb l (lib ++ [x])%list) dirs.*1 &&
  forallb (fun kn => match strip lib kn.1 with
                     | Some [x] => bool_decide (x ∈ dirs.*1) || negb (is_dirb l kn.1)
                     | _ => true
                     end) l &&
  forallb (fun xd => match xd.2 with
                     | Some d => String.eqb (d_package d) "" || bool_decide (d_package d ∈ dirs.*1)
                     | None => true
                     end) dirs.

Lemma lists_libraryb_sound l lib dirs : lists_libraryb l lib dirs = true -> lists_library (fs_of l) lib dirs.
Proof.
  unfold lists_libraryb. intros H. apply andb_true_iff in H as [H H4]. apply andb_true_iff in H as [H H3].
  apply andb_true_iff in H as [H1 H2]. rewrite forallb_forall in H2, H3, H4. apply bool_decide_eq_true in H1.
  split; [done|]. split.
  - intros x. split.
    + intros Hx. apply elem_of_list_In, H2 in Hx. unfold is_dirb in Hx. by destruct (fs_of l _) as [[]|].
    + intros Hx. pose proof (fs_of_some _ _ _ Hx) as Hi. apply elem_of_list_In, H3 in Hi. cbn [fst] in Hi.
      rewrite (proj2 (strip_spec lib (lib ++ [x]) [x]) eq_refl) in Hi. unfold is_dirb in Hi. rewrite Hx in Hi. cbn [negb] in Hi.
      rewrite orb_false_r in Hi. by apply bool_decide_eq_true in Hi.
  - intros x d Hx Hd. apply elem_of_list_In, H4 in Hx. cbn [fst snd] in Hx.
    apply orb_true_iff in Hx as [Hx|Hx]; [by apply String.eqb_eq in Hx|by apply bool_decide_eq_true in Hx].
Qed.

Definition plan_okb (r : plan_result) : bool := match r with PlanOk _ => true | _ => false end.
Definition plan_of (r : plan_result) (d : install_plan) : install_plan :=
  match r with PlanOk ip => ip | _ => d end.

Lemma plan_of_eq r d : plan_okb r = true -> r = PlanOk (plan_of r d).
Proof. by destruct r. Qed.

Section checks.
  Context (c : run_config) (i : run_input) (f : fsys) (Hok : run_ok c i f).

  Definition no_staleb : bool :=
    forallb (fun p => negb (fs_exists f (rc_library c ++ [backup_of p])%list))
      (staged_updates c i ++ staged_overwrites i).

  Lemma no_staleb_sound : no_staleb = true -> no_stale_backups c i f.
  Proof.
    unfold no_staleb. rewrite forallb_forall. intros H p Hp. apply (replaced_elem c i f Hok) in Hp.
    apply elem_of_list_In, H in Hp. unfold fs_exists in Hp. by destruct (f _).
  Qed.

  Definition new_absentb : bool :=
    forallb (fun p => match ri_preinstalled i !! p with
                      | Some _ => true
                      | None => negb (fs_exists f (rc_library c ++ [p])%list)
                      end) (required i).

  Lemma new_absentb_sound : new_absentb = true -> new_are_absent c i f.
  Proof.
    unfold new_absentb. rewrite forallb_forall. intros H p Hp E. apply elem_of_list_In, H in Hp.
    rewrite E in Hp. unfold fs_exists in Hp. by destruct (f _).
  Qed.

  Definition disjointb : bool :=
    forallb (fun p => negb (bool_decide (p ∈ staged_overwrites i))) (staged_updates c i).

  Lemma disjointb_sound : disjointb = true -> forall p, updated c i p -> ~ overwritten i p.
  Proof.
    unfold disjointb. rewrite forallb_forall. intros H p Hu Ho. apply (elem_updates c i) in Hu.
    apply (elem_overwrites c i f Hok) in Ho. apply elem_of_list_In, H in Hu.
    apply negb_true_iff, bool_decide_eq_false in Hu. done.
  Qed.
End checks.

Lemma interrupted_mid lib sc all add l l' f :
  interrupted lib sc all add (l ++ l')%list f (run_ops l f).
Proof.
  revert f. induction l as [|o l IH]; intros f; [by destruct l'; left|].
  cbn [app interrupted run_ops fold_left]. right. right. apply IH.
Qed.
