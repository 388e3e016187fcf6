(** C64 and C65: unpacking a tarball. *)
From stdpp Require Import strings list.
From Coq Require Import Ascii.
From Verif.model Require Import GoStr Fs Extract.
From Verif.spec Require Import StrSpec LibSpec ExtractSpec.
From Verif.proofs Require Import ExtractProofs.

Local Open Scope string_scope.

(** C64.  Whatever the entries are and whether or not unpacking succeeds, a path
    that is not inside the directory keeps its state.  The only exception: missing
    directories on the way to the directory are created. *)
Theorem C64_confined : forall a root f f' ok, extract a root f = (f', ok) ->
  forall q, ~ in_dir root q -> f' q = f q \/ (in_dir q root /\ f q = None /\ f' q = Some Dir).
Proof. exact extract_confined. Qed.
Print Assumptions C64_confined.

(** No intermediate state is different: an archive cut after any entry leaves the
    rest of the file system alone as well. *)
Theorem C64_confined_at_any_time : forall a root l rest f f' ok,
  a_entries a = (l ++ rest)%list -> extract {| a_known := a_known a; a_entries := l; a_complete := false |} root f = (f', ok) ->
  forall q, ~ in_dir root q -> f' q = f q \/ (in_dir q root /\ f q = None /\ f' q = Some Dir).
Proof. intros a root l rest f f' ok _. apply extract_confined. Qed.
Print Assumptions C64_confined_at_any_time.

(** A link or a name that leaves the directory makes unpacking fail. *)
Theorem C64_only_files_and_directories : forall a root f f' e,
  extract a root f = (f', true) -> e ∈ a_entries a ->
  (exists l p, pieces (en_name e) l /\ names_path [] l p) /\ (en_kind e = KDir \/ exists c, en_kind e = KReg c).
Proof.
  intros a root f f' e H He. destruct (extract_complete _ _ _ _ H) as (_ & Hc & _).
  destruct (Hc e He) as (l & p & H1 & H2 & H3). split; [by exists l, p|].
  destruct (en_kind e) as [|c| |]; [by left|right; by exists c|done|done].
Qed.
Print Assumptions C64_only_files_and_directories.

Definition empty_fs : fsys := fun _ => None.

Definition good_tarball : archive :=
  {| a_known := true; a_complete := true;
     a_entries := [ {| en_name := "MASS/"; en_kind := KDir |};
                    {| en_name := "MASS/DESCRIPTION"; en_kind := KReg "Package: MASS" |};
                    {| en_name := "./MASS/R/../NAMESPACE"; en_kind := KReg "export(f)" |} ] |}.

(** "./MASS/R/../NAMESPACE" is a local name, but MASS/R does not exist. *)
Example C64_example_missing_step :
  (extract good_tarball ["cache"; "h"] empty_fs).2 = false.
Proof. reflexivity. Qed.

Definition plain_tarball : archive :=
  {| a_known := true; a_complete := true;
     a_entries := [ {| en_name := "MASS/"; en_kind := KDir |};
                    {| en_name := "MASS/DESCRIPTION"; en_kind := KReg "Package: MASS" |};
                    {| en_name := "./MASS/src/a.c"; en_kind := KReg "int x;" |} ] |}.

Example C64_example :
  let r := extract plain_tarball ["cache"; "h"] empty_fs in
  r.2 = true /\ r.1 ["cache"; "h"; "MASS"; "DESCRIPTION"] = Some (File "Package: MASS") /\
  r.1 ["cache"; "h"; "MASS"; "src"; "a.c"] = Some (File "int x;") /\ r.1 ["cache"] = Some Dir.
Proof. repeat split; reflexivity. Qed.

Definition evil_tarball : archive :=
  {| a_known := true; a_complete := true;
     a_entries := [ {| en_name := "MASS/DESCRIPTION"; en_kind := KReg "Package: MASS" |};
                    {| en_name := "MASS/../../x"; en_kind := KReg "boo" |};
                    {| en_name := "MASS/R"; en_kind := KReg "f <- 1" |} ] |}.

Example C64_example_evil :
  let r := extract evil_tarball ["cache"; "h"] empty_fs in
  r.2 = false /\ r.1 ["cache"; "x"] = None /\ r.1 ["x"] = None.
Proof. repeat split; reflexivity. Qed.

(** C65.  In full: whenever the directory of a tarball is used, it holds the
    complete contents of the tarball.  Proved: this is so when the directory did
    not exist before, and unpacking again changes nothing.  Missing: a directory
    that was left by a failed or interrupted run, see the refutation. *)
Theorem C65_complete_partial : forall a dir f f',
  f dir <> Some Dir -> untar a dir f = (f', true) -> complete a dir f' /\ untar a dir f' = (f', true).
Proof. intros a dir f f' H1 H2. split; [by eapply untar_complete|by eapply untar_again]. Qed.
Print Assumptions C65_complete_partial.

Example C65_example : complete plain_tarball ["cache"; "h"] (untar plain_tarball ["cache"; "h"] empty_fs).1.
Proof. apply (C65_complete_partial plain_tarball ["cache"; "h"] empty_fs); [done|reflexivity]. Qed.

(** The first run stops with an error and leaves a part of the tree; the second
    run takes the directory for the unpacked tarball and goes on. *)
Theorem C65_partial_tree_reused_refuted : exists a dir f f1,
  untar a dir f = (f1, false) /\ untar a dir f1 = (f1, true) /\ ~ complete a dir f1.
Proof.
  exists evil_tarball, ["cache"; "h"], empty_fs, (untar evil_tarball ["cache"; "h"] empty_fs).1.
  split; [reflexivity|]. split; [reflexivity|].
  intros (_ & H & _). destruct (H {| en_name := "MASS/R"; en_kind := KReg "f <- 1" |}) as (l & p & _ & _ & Hp).
  { do 2 right. by left. }
  cbn [en_kind] in Hp. revert Hp. generalize (["cache"; "h"] ++ p)%list. intros q.
  change ((if bool_decide (q = ["cache"; "h"; "MASS"; "DESCRIPTION"]) then Some (File "Package: MASS")
           else if below q ["cache"; "h"; "MASS"] then Some Dir
           else if below q ["cache"; "h"] then Some Dir
           else if below ["cache"; "h"] q then None else None) = Some (File "f <- 1") -> False).
  match goal with |- context [bool_decide ?P] => destruct (bool_decide P); [discriminate|] end.
  repeat (match goal with |- context [below ?a ?b] => destruct (below a b); [discriminate|] end). discriminate.
Qed.
Print Assumptions C65_partial_tree_reused_refuted.

(** A run that is interrupted after a part of the entries has the same effect:
    the next run uses what is there. *)
Theorem C65_interrupted_refuted : exists a dir f l rest f1 ok,
  a_entries a = (l ++ rest)%list
  /\ extract {| a_known := true; a_entries := l; a_complete := false |} dir f = (f1, ok)
  /\ untar a dir f1 = (f1, true) /\ ~ complete a dir f1 /\ exists f2, untar a dir f = (f2, true) /\ complete a dir f2.
Proof.
  exists plain_tarball, ["cache"; "h"], empty_fs, (take 2 (a_entries plain_tarball)), (drop 2 (a_entries plain_tarball)).
  eexists _, _. split; [reflexivity|]. split; [reflexivity|]. split; [reflexivity|]. split.
  - intros (_ & H & _). destruct (H {| en_name := "./MASS/src/a.c"; en_kind := KReg "int x;" |}) as (l & p & _ & _ & Hp).
    { do 2 right. by left. }
    cbn [en_kind] in Hp. revert Hp. generalize (["cache"; "h"] ++ p)%list. intros q.
    change ((if bool_decide (q = ["cache"; "h"; "MASS"; "DESCRIPTION"]) then Some (File "Package: MASS")
             else if below q ["cache"; "h"; "MASS"] then Some Dir
             else if below q ["cache"; "h"; "MASS"] then Some Dir
             else if below q ["cache"; "h"] then Some Dir
             else if below ["cache"; "h"] q then None else None) = Some (File "int x;") -> False).
    match goal with |- context [bool_decide ?P] => destruct (bool_decide P); [discriminate|] end.
    repeat (match goal with |- context [below ?a ?b] => destruct (below a b); [discriminate|] end). discriminate.
  - eexists. split; [reflexivity|]. exact C65_example.
Qed.
Print Assumptions C65_interrupted_refuted.
