(** C155: tarballs unpacked by several runs into one cache. *)
From stdpp Require Import strings list gmap relations.
From Coq Require Import Ascii ZArith Lia.
From Verif.model Require Import GoStr Fs Env Extract Install Fetching Fetchers Unpackers.
From Verif.spec Require Import LibSpec ExtractSpec UnpackersSpec.
From Verif.proofs Require Import FsProofs ExtractProofs UnpackersProofs.

Local Open Scope string_scope.

(** However tarballs are unpacked at the same time: if their directories have different names,
    each ends as it does alone, with the same files. *)
Theorem C155_alone es f cache x i u ok : one_cache cache es f -> unpack_happens es f x -> es !! i = Some u ->
  up_at x i (if (ok : bool) then UDone else UFail) ->
  exists f', untar (up_archive u) (up_dir u) f = (f', ok) /\ forall q, in_dir (up_dir u) q -> us_fs x q = f' q.
Proof. intros H. by apply (unpacked_alone es f cache H). Qed.

(** Whoever goes on has the whole tarball in the directory and no other file. *)
Theorem C155_complete es f cache x i u : one_cache cache es f -> unpack_happens es f x -> es !! i = Some u ->
  f (up_dir u) <> Some Dir -> up_at x i UDone -> complete (up_archive u) (up_dir u) (us_fs x).
Proof. intros H. by apply (unpacked_complete es f cache H). Qed.

(** Nothing else is changed, at any time. *)
Theorem C155_others es f cache x q : one_cache cache es f -> unpack_happens es f x ->
  (forall u, u ∈ es -> ~ in_dir (up_dir u) q) -> us_fs x q = f q.
Proof. intros H. by apply (unpacked_others es f cache H). Qed.

(** Nobody waits for another one: who is not at the end can make a step. *)
Theorem C155_goes_on es f cache x i u a : one_cache cache es f -> unpack_happens es f x -> es !! i = Some u -> up_at x i a ->
  a <> UDone -> a <> UFail -> exists b f', unpack_step u (a, us_fs x) (b, f').
Proof. intros H. by apply (unpack_goes_on es f cache H). Qed.

(** And all of them end. *)
Theorem C155_ends es f : exists bound, forall n x, nsteps (unpackers_step es) n (unpack_started es f) x -> n <= bound.
Proof. eexists. intros n x. apply unpack_ends. Qed.

(** A tarball with a directory and a file. *)
Definition ex_tarball (text : string) : archive :=
  {| a_known := true; a_entries := [ {| en_name := "pkg"; en_kind := KDir |}; {| en_name := "pkg/NAME"; en_kind := KReg text |} ]; a_complete := true |}.

Definition ex_cache_fs : fsys := fun q => if bool_decide (q = []) || bool_decide (q = ["cache"]) then Some Dir else None.

Definition ex_unpacker (h text : string) : unpacker := Unpacker ["cache"; h] (ex_tarball text).

Local Ltac one i c := eapply rtc_l; [eapply (ust_one _ _ i); [reflexivity|reflexivity|cbn [us_fs]; c]|cbn [us_fs us_each insert list_insert]].

(** Two versions of a tarball, one after the other's steps. *)
Definition ex_two : list unpacker := [ex_unpacker "aa" "one"; ex_unpacker "bb" "two"].

Example C155_example : one_cache ["cache"] ex_two ex_cache_fs /\
  exists x, unpack_happens ex_two ex_cache_fs x /\ up_at x 0 UDone /\ up_at x 1 UDone /\
    us_fs x ["cache"; "aa"; "pkg"; "NAME"] = Some (File "one") /\ us_fs x ["cache"; "bb"; "pkg"; "NAME"] = Some (File "two") /\
    us_fs x ["cache"; "cc"] = None.
Proof.
  split.
  - split; [|split].
    + intros q [s Hs]. destruct q as [|a [|b q]]; [done| |discriminate Hs]. injection Hs as <- _. reflexivity.
    + intros u Hu. apply elem_of_cons in Hu as [->|Hu]; [by exists "aa"|]. apply elem_of_list_singleton in Hu as ->. by exists "bb".
    + by apply (bool_decide_unpack _); vm_compute.
  - eexists. split.
    + unfold unpack_happens, unpack_started, ex_two. cbn [map].
      one 0 ltac:(by apply u_absent). one 1 ltac:(by apply u_absent).
      one 0 ltac:(apply u_clear). one 1 ltac:(apply u_clear).
      one 1 ltac:(apply u_make; reflexivity). one 0 ltac:(apply u_make; reflexivity).
      one 0 ltac:(apply u_dir; reflexivity). one 1 ltac:(apply u_dir; reflexivity).
      one 0 ltac:(eapply u_parents; reflexivity). one 1 ltac:(eapply u_parents; reflexivity).
      one 0 ltac:(eapply u_open; reflexivity). one 0 ltac:(eapply (u_copy _ _ _ 2); [reflexivity|cbn; lia|reflexivity]).
      one 1 ltac:(eapply u_open; reflexivity).
      one 0 ltac:(eapply (u_copy _ _ _ 3); [reflexivity|cbn; lia|reflexivity]).
      one 1 ltac:(eapply (u_copy _ _ _ 3); [reflexivity|cbn; lia|reflexivity]).
      one 0 ltac:(apply (u_copied _ _ _ _ _ "one"); reflexivity). one 1 ltac:(apply (u_copied _ _ _ _ _ "two"); reflexivity).
      one 0 ltac:(apply u_end). one 1 ltac:(apply u_end). apply rtc_refl.
    + do 4 (split; [reflexivity|]). reflexivity.
Qed.

(** The same tarball in two runs: the second one finds the directory of the first one and goes
    on to install from it before the files are there. *)
Theorem C155_early_refuted : exists es f x u, es = [u; u] /\ f (up_dir u) = None /\ unpack_happens es f x /\
  up_at x 1 UDone /\ ~ complete (up_archive u) (up_dir u) (us_fs x).
Proof.
  exists [ex_unpacker "aa" "one"; ex_unpacker "aa" "one"], ex_cache_fs. eexists. exists (ex_unpacker "aa" "one").
  split; [done|]. split; [done|]. split; [|split].
  - unfold unpack_happens, unpack_started. cbn [map].
    one 0 ltac:(by apply u_absent). one 0 ltac:(apply u_clear). one 0 ltac:(apply u_make; reflexivity).
    one 1 ltac:(by apply u_found). apply rtc_refl.
  - reflexivity.
  - intros (_ & H & _). destruct (H {| en_name := "pkg"; en_kind := KDir |}) as (l & p & Hl & Hp & Hf); [by left|].
    cbn [en_kind us_fs] in Hf.
    assert (l = ["pkg"]) as ->.
    { destruct Hl as (H1 & H2 & H3). destruct l as [|a [|b l]]; [done|cbn in H1; by subst a|].
      exfalso. cbn [en_name] in H1. cbn [join] in H1.
      destruct a as [|a0 [|a1 [|a2 [|a3 a]]]]; cbn in H1; discriminate H1. }
    inversion Hp as [|? ? ? ? Hc|? ? ? ? ? Hx|? ? ? ? ? ? ? Hn]; subst; [by destruct Hc|].
    inversion Hn; subst. discriminate Hf.
Qed.

(** Both have looked before: the second one takes away what the first one has unpacked and is
    going to install. *)
Theorem C155_removed_refuted : exists es f x u, es = [u; u] /\ f (up_dir u) = None /\ unpack_happens es f x /\
  up_at x 0 UDone /\ us_fs x (up_dir u) = None.
Proof.
  exists [ex_unpacker "aa" "one"; ex_unpacker "aa" "one"], ex_cache_fs. eexists. exists (ex_unpacker "aa" "one").
  split; [done|]. split; [done|]. split; [|split].
  - unfold unpack_happens, unpack_started. cbn [map].
    one 0 ltac:(by apply u_absent). one 1 ltac:(by apply u_absent). one 0 ltac:(apply u_clear). one 0 ltac:(apply u_make; reflexivity).
    one 0 ltac:(apply u_dir; reflexivity). one 0 ltac:(eapply u_parents; reflexivity). one 0 ltac:(eapply u_open; reflexivity).
    one 0 ltac:(eapply (u_copy _ _ _ 3); [reflexivity|cbn; lia|reflexivity]).
    one 0 ltac:(apply (u_copied _ _ _ _ _ "one"); reflexivity). one 0 ltac:(apply u_end).
    one 1 ltac:(apply u_clear). apply rtc_refl.
  - reflexivity.
  - reflexivity.
Qed.

Print Assumptions C155_alone.
Print Assumptions C155_complete.
Print Assumptions C155_others.
Print Assumptions C155_goes_on.
Print Assumptions C155_ends.
Print Assumptions C155_early_refuted.
Print Assumptions C155_removed_refuted.
