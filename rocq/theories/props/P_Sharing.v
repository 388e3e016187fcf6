(** C147: downloads of several runs into one cache. *)
From stdpp Require Import strings list gmap relations.
From Coq Require Import Ascii ZArith Lia.
From Verif.model Require Import GoStr Desc Nexus RepoDb Fs Install Download Fetching DbCache Fetchers Sharing.
From Verif.spec Require Import SharingSpec.
From Verif.proofs Require Import GoStrLemmas UrlProofs FetchersProofs SharingProofs.
From Verif.props Require Import P_Download.

Local Open Scope string_scope.

(** However downloads go on at the same time: if they are for different files, each ends as
    it does alone, with the same file; other files stay as they were. *)
Theorem C147_apart es f x : NoDup (map ge_dest es) -> get_happens es f x ->
  (forall i e d err, es !! i = Some e -> ended_with x i d err ->
     exists f', download_package (ge_dest e) (ge_wanted e) (ge_reply e) f = (d, err, f') /\ gs_fs x (ge_dest e) = f' (ge_dest e)) /\
  (forall q, q ∉ map ge_dest es -> gs_fs x q = f q).
Proof.
  intros Hnd H. destruct (all_got _ _ _ Hnd H) as (_ & A & F). split; [|done]. intros i e d err Hi He. exact (A i e (GEnd d err) Hi He).
Qed.

(** If several download the same file and whoever gets a body gets the same one as a whole,
    then the file is whole as soon as nobody is writing it, or nobody has it. *)
Theorem C147_whole es f x p c : same_body es p c -> f p = None \/ f p = Some (File c) -> get_happens es f x -> at_rest es x p ->
  (gs_fs x p = Some (File c) \/
   gs_fs x p = None /\ forall i e d err, es !! i = Some e -> ge_dest e = p -> ended_with x i d err -> d_path d = None) /\
  (forall i e d err, es !! i = Some e -> ge_dest e = p -> ended_with x i d err -> d_path d <> None -> gs_fs x p = Some (File c)).
Proof.
  intros Hb H0 H Hr. destruct (all_shared es p c f x Hb H0 H) as [[H1 H2]|(s & H1 & H2 & H3)].
  - assert (forall i e d err, es !! i = Some e -> ge_dest e = p -> ended_with x i d err -> d_path d = None) as K.
    { intros i e d err Hi Hd He. exact (H2 i e (GEnd d err) Hi Hd He). }
    split; [by right|]. intros i e d err Hi Hd He Hn. by destruct Hn; eapply K.
  - assert (s = c) as ->.
    { destruct H3 as [H3|(i & e & n & ok & Hi & Hd & Ha & _)]; [done|]. by destruct (Hr i e n c ok Hi Hd). }
    split; [by left|]. done.
Qed.

(** Nobody waits for the others. *)
Theorem C147_goes_on es f x i e a : get_happens es f x -> es !! i = Some e -> gs_each x !! i = Some a ->
  (exists d err, a = GEnd d err) \/ (exists b f', b <> a /\ getters_step es x (Getters f' (<[i := b]> (gs_each x)))).
Proof.
  intros H Hi Ha. destruct (all_said _ _ _ H) as [_ S]. specialize (S _ _ _ Hi Ha).
  assert (forall b f', b <> a -> get_step e (a, gs_fs x) (b, f') ->
    (exists d err, a = GEnd d err) \/ (exists b f', b <> a /\ getters_step es x (Getters f' (<[i := b]> (gs_each x))))) as K.
  { intros b f' Hb Hs. right. exists b, f'. split; [done|]. by econstructor. }
  destruct a as [| |c ok|n c ok|d err].
  - destruct (fs_exists (gs_fs x) (ge_dest e)) eqn:E; [eapply K; [|by apply g_there]; done|eapply K; [|by apply g_absent]; done].
  - destruct (ge_reply e) as [|k|c ok] eqn:E.
    + eapply K; [|by apply g_refused]. done.
    + eapply K; [|by eapply g_status]. done.
    + eapply K; [|by eapply g_body]. done.
  - destruct (fs_dir_exists (gs_fs x) (removelast (ge_dest e))) eqn:E1; [|eapply K; [|apply g_no_make; by left]; done].
    destruct (fs_dir_exists (gs_fs x) (ge_dest e)) eqn:E2; [eapply K; [|apply g_no_make; by right]; done|].
    eapply K; [|by apply g_make]. done.
  - cbn [said] in S. destruct S as [_ Hn]. destruct (copying _ _ _ H _ _ _ _ _ Hi Ha) as [s Hs]. destruct (decide (n = String.length c)) as [-> |Hne].
    + eapply K; [|apply g_copied]. by destruct ok.
    + eapply K; [|apply (g_copy _ _ n (String.length c) c ok s); [lia|done]]. intros [= E]. lia.
  - left. eauto.
Qed.

(** The second run has looked before the first creates the file, and empties it while the
    first writes. *)
Definition sh_dest : list string := ["c"; "a"].
Definition sh_get (c : string) (ok : bool) : getter := Getter (pk "a") sh_dest (Body c ok).

Lemma sh_go es i e a b f f' gs z : es !! i = Some e -> gs !! i = Some a -> get_step e (a, f) (b, f') ->
  rtc (getters_step es) (Getters f' (<[i := b]> gs)) z -> rtc (getters_step es) (Getters f gs) z.
Proof. intros H1 H2 H3 H4. eapply rtc_l; [|exact H4]. by apply (gst_one es (Getters f gs) i e a b f'). Qed.

Lemma sh_copy c ok f n m s s' : f sh_dest = Some (File s) -> overlay n (substring n (m - n) c) s = s' -> n < m <= String.length c ->
  get_step (sh_get c ok) (GCopy n c ok, f) (GCopy m c ok, write_file sh_dest s' f).
Proof. intros H1 <- H2. by apply (g_copy (sh_get c ok)). Qed.

Lemma sh_copied c ok f n : n = String.length c -> get_step (sh_get c ok) (GCopy n c ok, f) (copied (pk "a") sh_dest ok, f).
Proof. intros ->. apply (g_copied (sh_get c ok)). Qed.

Ltac sh_step i c := eapply (sh_go _ i); [reflexivity|reflexivity|c|]; cbn [insert list_insert].

Example C147_example : same_body [sh_get "abc" true; sh_get "abc" true] sh_dest "abc" /\ exists x,
  get_happens [sh_get "abc" true; sh_get "abc" true] cache_fs x /\ gs_fs x sh_dest = Some (File "abc") /\
  ended_with x 0 {| d_path := Some sh_dest; d_new := true; d_wanted := pk "a" |} false /\
  ended_with x 1 {| d_path := Some sh_dest; d_new := true; d_wanted := pk "a" |} false.
Proof.
  split.
  { intros e c' ok He _ Hr. rewrite !elem_of_cons, elem_of_nil in He. destruct He as [-> |[-> |[]]]; by injection Hr as <- <-. }
  eexists. split; [unfold get_happens, get_started; cbn [map]|].
  - sh_step 0 ltac:(by apply g_absent).
    sh_step 1 ltac:(by apply g_absent).
    sh_step 0 ltac:(by apply g_body).
    sh_step 0 ltac:(by apply g_make).
    sh_step 0 ltac:(by eapply (sh_copy _ _ _ 0 2); [reflexivity|vm_compute; reflexivity|cbn; lia]).
    sh_step 1 ltac:(by apply g_body).
    sh_step 1 ltac:(by apply g_make).
    sh_step 0 ltac:(by eapply (sh_copy _ _ _ 2 3); [reflexivity|vm_compute; reflexivity|cbn; lia]).
    sh_step 0 ltac:(by apply sh_copied).
    sh_step 1 ltac:(by eapply (sh_copy _ _ _ 0 3); [reflexivity|vm_compute; reflexivity|cbn; lia]).
    sh_step 1 ltac:(by apply sh_copied).
    apply rtc_refl.
  - split; [by vm_compute|]. split; by vm_compute.
Qed.

(** The second run takes a file that the first is still writing for the package, and says
    that it has been downloaded. *)
Theorem C147_early_refuted : exists es f p c x, same_body es p c /\ f p = None /\ get_happens es f x /\
  ended_with x 1 {| d_path := Some p; d_new := false; d_wanted := pk "a" |} false /\ gs_fs x p = Some (File "a") /\ c = "abc".
Proof.
  exists [sh_get "abc" true; sh_get "abc" true], cache_fs, sh_dest, "abc". eexists. split; [apply C147_example|]. split; [done|].
  split; [unfold get_happens, get_started; cbn [map]|].
  - sh_step 0 ltac:(by apply g_absent).
    sh_step 0 ltac:(by apply g_body).
    sh_step 0 ltac:(by apply g_make).
    sh_step 0 ltac:(by eapply (sh_copy _ _ _ 0 1); [reflexivity|vm_compute; reflexivity|cbn; lia]).
    sh_step 1 ltac:(by apply g_there).
    apply rtc_refl.
  - split; [by vm_compute|]. split; by vm_compute.
Qed.

(** A download has ended without an error; then another one, which had looked before,
    empties the file and breaks off.  Alone, each would leave the first with its file. *)
Theorem C147_cut_refuted : exists es f p x, f p = None /\ get_happens es f x /\ at_rest es x p /\
  ended_with x 0 {| d_path := Some p; d_new := true; d_wanted := pk "a" |} false /\
  ended_with x 1 {| d_path := None; d_new := false; d_wanted := pk "a" |} true /\ gs_fs x p = Some (File "a") /\
  map ge_reply es = [Body "abc" true; Body "a" false].
Proof.
  exists [sh_get "abc" true; sh_get "a" false], cache_fs, sh_dest. eexists. split; [done|].
  split; [unfold get_happens, get_started; cbn [map]|].
  - sh_step 1 ltac:(by apply g_absent).
    sh_step 0 ltac:(by apply g_absent).
    sh_step 0 ltac:(by apply g_body).
    sh_step 0 ltac:(by apply g_make).
    sh_step 0 ltac:(by eapply (sh_copy _ _ _ 0 3); [reflexivity|vm_compute; reflexivity|cbn; lia]).
    sh_step 0 ltac:(by apply sh_copied).
    sh_step 1 ltac:(by apply g_body).
    sh_step 1 ltac:(by apply g_make).
    sh_step 1 ltac:(by eapply (sh_copy _ _ _ 0 1); [reflexivity|vm_compute; reflexivity|cbn; lia]).
    sh_step 1 ltac:(by apply sh_copied).
    apply rtc_refl.
  - split; [|split; [by vm_compute|split; [by vm_compute|split; by vm_compute]]].
    intros [|[|i]] e n c ok Hi _; cbn; done.
Qed.

Print Assumptions C147_apart.
Print Assumptions C147_whole.
Print Assumptions C147_goes_on.
Print Assumptions C147_early_refuted.
Print Assumptions C147_cut_refuted.
