(** C152: several runs with one library. *)
From stdpp Require Import strings list gmap relations.
From Coq Require Import Ascii Lia.
From Verif.model Require Import GoStr Fs Rollback Runs.
From Verif.spec Require Import LibSpec RunsSpec.
From Verif.proofs Require Import FsProofs RunsProofs.

Local Open Scope string_scope.

(** Runs about different packages, with a library that is there: however they go on at the same
    time, each is in a state that it could be in alone, with the same in its places. *)
Theorem C152_alone lib rs f x i r a : plain_runs rs -> no_creation rs -> disjoint_runs rs -> runs_happen lib rs f x ->
  rs !! i = Some r -> run_at x i a -> exists g, alone lib r f a g /\ forall q, own lib r q -> rs_fs x q = g q.
Proof.
  intros H1 H2 H3 H4 Hi Ha. destruct (runs_alone lib rs f x H1 H2 H3 H4 i r a Hi Ha) as (g & A & B).
  exists g. split; [done|]. intros q Hq. symmetry. apply B. by left.
Qed.

(** A run with errors leaves its packages as they were, whatever the others do. *)
Theorem C152_undone lib rs f x i r : plain_runs rs -> no_creation rs -> disjoint_runs rs -> runs_happen lib rs f x ->
  rs !! i = Some r -> run_planned lib f r -> rn_rollback r = true -> run_at x i (RDone true) ->
  forall q, own lib r q -> rs_fs x q = f q.
Proof.
  intros H1 H2 H3 H4 Hi Hp Hr Ha q Hq. destruct (C152_alone lib rs f x i r _ H1 H2 H3 H4 Hi Ha) as (g & A & B).
  rewrite (B q Hq). assert (r ∈ rs) as Hin by by eapply elem_of_list_lookup_2.
  eapply (single_undone lib r f); [intros p; by apply H1|by apply H2|done|exact A|done|done].
Qed.

(** A run without errors has installed its packages and left no backup; those that were there
    already are as before. *)
Theorem C152_done lib rs f x i r : plain_runs rs -> no_creation rs -> disjoint_runs rs -> runs_happen lib rs f x ->
  rs !! i = Some r -> run_planned lib f r -> run_complete r -> run_at x i (RDone false) ->
  (forall j, j ∈ rn_jobs r -> jb_name j ∈ (rn_new r ++ rn_updates r ++ rn_overwrites r)%list -> holds lib (rs_fs x) j) /\
  (forall j, j ∈ rn_jobs r -> jb_name j ∉ (rn_new r ++ rn_updates r ++ rn_overwrites r)%list -> same_dir lib (jb_name j) (rs_fs x) (jb_name j) f) /\
  (forall p, p ∈ rn_updates r \/ p ∈ rn_overwrites r -> no_dir lib (backup_of p) (rs_fs x)).
Proof.
  intros H1 H2 H3 H4 Hi Hp Hc Ha. destruct (C152_alone lib rs f x i r _ H1 H2 H3 H4 Hi Ha) as (g & A & B).
  assert (r ∈ rs) as Hin by by eapply elem_of_list_lookup_2.
  destruct (single_done lib r f ltac:(intros p; by apply H1) ltac:(by apply H2) Hp Hc g A) as (D1 & D2 & D3).
  assert (forall j, j ∈ rn_jobs r -> about r (jb_name j)) as Hab by (intros j Hj; right; right; right; by exists j).
  split; [|split].
  - intros j Hj Hn s. rewrite (B _ (own_name lib r _ s (Hab j Hj))). apply D1. split; [done|]. unfold rn_tags. by rewrite elem_of_app in Hn.
  - intros j Hj Hn s. rewrite (B _ (own_name lib r _ s (Hab j Hj))). rewrite elem_of_app in Hn. apply D3; unfold rn_tags; [auto|tauto|tauto].
  - intros p Ht s. assert (p ∈ rn_tags r) as Ht' by by apply elem_of_app. rewrite (B _ (own_backup lib r _ s (tags_about r p Ht'))). by apply D2.
Qed.

(** No run touches anything but its packages and their backups. *)
Theorem C152_others lib rs f x q : plain_runs rs -> no_creation rs -> runs_happen lib rs f x ->
  (forall r, r ∈ rs -> ~ own lib r q) -> rs_fs x q = f q.
Proof. intros H1 H2 H3 H4. destruct (runs_outside lib rs f x H1 H2 H3) as [_ H]. by apply H. Qed.

(** Also if runs are about the same packages, and if they create the library: when all have
    ended without errors, each package is there as one of the runs has installed it, or as it
    was if nobody wanted it updated, and no backup is left. *)
Theorem C152_well lib rs f x : plain_runs rs -> tree_ok f -> (forall r, r ∈ rs -> run_complete r /\ NoDup (rn_updates r ++ rn_overwrites r)%list) ->
  (forall r p, r ∈ rs -> p ∈ rn_updates r \/ p ∈ rn_overwrites r -> no_dir lib (backup_of p) f) ->
  runs_happen lib rs f x -> all_well x ->
  (forall r j, r ∈ rs -> j ∈ rn_jobs r -> f (lib ++ [jb_name j])%list = Some Dir \/ f (lib ++ [jb_name j])%list = None ->
     (exists r' j', r' ∈ rs /\ j' ∈ rn_jobs r' /\ jb_name j' = jb_name j /\ holds lib (rs_fs x) j') \/
     (f (lib ++ [jb_name j])%list = Some Dir /\ same_dir lib (jb_name j) (rs_fs x) (jb_name j) f /\
      forall r', r' ∈ rs -> jb_name j ∉ rn_updates r' /\ jb_name j ∉ rn_overwrites r')) /\
  (forall r p, r ∈ rs -> p ∈ rn_updates r \/ p ∈ rn_overwrites r -> no_dir lib (backup_of p) (rs_fs x)).
Proof.
  intros H1 H2 H3 H4 H5 H6.
  destruct (good_end lib rs f H1 H2) with (x := x) as [G1 G2]; [| | |done|done|].
  - intros r Hr p Hp. apply (H3 r Hr). apply elem_of_app. by right.
  - intros r Hr. by apply H3.
  - intros r p Hr Hp. apply (H4 r p Hr). by apply elem_of_app.
  - split.
    + intros r j Hr Hj Hf. destruct (G1 (jb_name j)) as [G|(E1 & E2 & E3)].
      * by exists r, j.
      * destruct Hf as [Hf|Hf]; [by left|]. right. by apply tree_none.
      * by left.
      * right. split; [done|]. split; [done|]. intros r' Hr'. specialize (E3 r' Hr'). unfold rn_tags in E3. rewrite elem_of_app in E3. tauto.
    + intros r p Hr Hp. apply (G2 r p Hr). by apply elem_of_app.
Qed.

(** Nobody waits for another: a run that has not ended can go on. *)
Theorem C152_goes_on lib rs f x i r a : runs_happen lib rs f x -> rs !! i = Some r -> run_at x i a -> a <> RStop -> (forall bad, a <> RDone bad) ->
  exists a' f', run_step lib r (a, rs_fs x) (a', f') /\ runs_step lib rs x (RunsState (<[i := a']> (rs_each x)) f').
Proof.
  intros _ Hi Ha H1 H2. assert (exists a' f', run_step lib r (a, rs_fs x) (a', f')) as (a' & f' & Hs).
  { generalize (rs_fs x). intros g.
    destruct a as [|[|p l]|todo [|j busy] bad| |[|p l]|[|p l]|p l|[|p l] bad|bad|]; try (by do 2 eexists; constructor).
    - destruct (rn_create r) eqn:E.
      + destruct (mkdir_all lib g) as [g'|] eqn:Em.
        * do 2 eexists. apply step_made. by rewrite E.
        * do 2 eexists. by apply step_not_made.
      + do 2 eexists. apply step_made. by rewrite E.
    - destruct todo as [|j todo]; [do 2 eexists; apply step_installed; by left|].
      destruct (fs_dir_exists g (join_path lib (jb_name j))) eqn:E; [destruct (jb_tarball j) eqn:Et|].
      + do 2 eexists. apply (step_begin lib r [] j todo). by left.
      + do 2 eexists. by apply (step_there lib r [] j todo).
      + do 2 eexists. apply (step_begin lib r [] j todo). by right.
    - do 2 eexists. apply (step_fails lib r todo [] j busy).
    - destruct (rename (join_path lib ("__OLD__" +:+ p)) (join_path lib p) g) as [g'|] eqn:E.
      + do 2 eexists. by apply step_rename.
      + do 2 eexists. by apply step_not_renamed.
    - by destruct (H2 bad).
    - by destruct H1. }
  exists a', f'. split; [done|]. destruct x as [xs g]. by econstructor.
Qed.

(** ** Examples *)

Definition ex_lib : list string := ["lib"].

Definition ex_files : fsys := fun q =>
  if bool_decide (q = [] \/ q = ["lib"] \/ q = ["lib"; "R6"]) then Some Dir
  else if bool_decide (q = ["lib"; "R6"; "DESCRIPTION"]) then Some (File "1") else None.

Definition ex_tree : list string -> option node := fun s =>
  match s with [] => Some Dir | ["DESCRIPTION"] => Some (File "2") | _ => None end.

Definition ex_update : run := Run false [] ["R6"] [] [Job "R6" ex_tree false] true.
Definition ex_both : run := Run false ["rlang"] ["R6"] [] [Job "R6" ex_tree false; Job "rlang" ex_tree false] true.
Definition ex_new : run := Run false ["rlang"] [] [] [Job "rlang" ex_tree false] true.
Definition ex_new2 : run := Run false ["rlang"; "fs"] [] [] [Job "rlang" ex_tree false; Job "fs" ex_tree false] true.

Ltac go i c := eapply rtc_l; [eapply (runs_one _ _ i); [reflexivity|reflexivity|c]|cbn [insert list_insert app]].

Lemma ex_r6 : r_name "R6".
Proof. cbv. split; [lia|]. split; [|done]. lia. Qed.

Lemma ex_rlang : r_name "rlang".
Proof. cbv. split; [lia|]. repeat (split; [lia|]). done. Qed.

Lemma ex_fs : r_name "fs".
Proof. cbv. split; [lia|]. repeat (split; [lia|]). done. Qed.

Lemma ex_no_dir x : x <> "R6" -> no_dir ex_lib x ex_files.
Proof.
  intros H s. unfold ex_files, ex_lib. rewrite !bool_decide_eq_false_2; [done| |]; cbn [app]; [|intros [?|[?|?]]]; congruence.
Qed.

(** One run updates a package, the other one fails to install another. *)
Example C152_example :
  let rs := [ex_update; ex_new] in
  plain_runs rs /\ no_creation rs /\ disjoint_runs rs /\ (forall r, r ∈ rs -> run_planned ex_lib ex_files r /\ run_complete r) /\
  exists x, runs_happen ex_lib rs ex_files x /\ run_at x 0 (RDone false) /\ run_at x 1 (RDone true) /\
    rs_fs x ["lib"; "R6"; "DESCRIPTION"] = Some (File "2") /\ rs_fs x ["lib"; "rlang"] = None /\ rs_fs x ["lib"; "__OLD__R6"] = None.
Proof.
  cbv zeta.
  assert (forall p, about ex_update p <-> p = "R6") as A1.
  { intros p. unfold about. cbn. rewrite !elem_of_nil, elem_of_list_singleton. split.
    - intros [?|[?|[?|(j & Hj & <-)]]]; try done. by apply elem_of_list_singleton in Hj as ->.
    - intros ->. tauto. }
  assert (forall p, about ex_new p <-> p = "rlang") as A2.
  { intros p. unfold about. cbn. rewrite !elem_of_nil, elem_of_list_singleton. split.
    - intros [?|[?|[?|(j & Hj & <-)]]]; try done. by apply elem_of_list_singleton in Hj as ->.
    - intros ->. tauto. }
  split; [|split; [|split; [|split]]].
  - intros r p Hr. apply elem_of_cons in Hr as [-> |Hr]; [|apply elem_of_list_singleton in Hr as ->].
    + rewrite A1. intros ->. apply ex_r6.
    + rewrite A2. intros ->. apply ex_rlang.
  - intros r Hr. apply elem_of_cons in Hr as [-> |Hr]; [done|]. by apply elem_of_list_singleton in Hr as ->.
  - intros i j r r' p. destruct i as [|[|i]], j as [|[|j]]; cbn; try done; intros [= <-] [= <-] _; rewrite A1, A2; intros ->; done.
  - intros r Hr. apply elem_of_cons in Hr as [-> |Hr]; [|apply elem_of_list_singleton in Hr as ->]; (split; [split; [done|]|]).
    + split; [by apply (bool_decide_unpack _); vm_compute|]. split; [by intros p ?%elem_of_nil|]. split.
      * intros p [Hp|Hp]; [|by apply elem_of_nil in Hp]. apply elem_of_list_singleton in Hp as ->. split; [done|]. by apply ex_no_dir.
      * intros j Hj. apply elem_of_list_singleton in Hj as ->. left. by apply (bool_decide_unpack _); vm_compute.
    + split; [by apply (bool_decide_unpack _); vm_compute|]. intros p Hp. apply elem_of_list_singleton in Hp as ->. eexists. split; [left|done].
    + split; [by apply (bool_decide_unpack _); vm_compute|]. split.
      * intros p Hp. apply elem_of_list_singleton in Hp as ->. by apply ex_no_dir.
      * split; [by intros p [?%elem_of_nil|?%elem_of_nil]|]. intros j Hj. apply elem_of_list_singleton in Hj as ->. left. by apply (bool_decide_unpack _); vm_compute.
    + split; [by apply (bool_decide_unpack _); vm_compute|]. intros p Hp. apply elem_of_list_singleton in Hp as ->. eexists. split; [left|done].
  - eexists. split.
    + unfold runs_happen, runs_started. cbn [map].
      go 0 ltac:(by apply step_made). go 1 ltac:(by apply step_made). cbn [rn_tags rn_updates rn_overwrites ex_update ex_new app].
      go 0 ltac:(apply step_tag). go 1 ltac:(apply step_fetched). go 0 ltac:(apply step_fetched).
      go 1 ltac:(apply (step_begin _ _ []); by right). go 0 ltac:(apply (step_begin _ _ []); by right).
      go 1 ltac:(apply (step_fails _ _ _ [])). go 0 ltac:(by apply (step_put _ _ _ [])).
      go 1 ltac:(apply step_installed; by left). go 0 ltac:(apply step_installed; by left). unfold after_install. cbn [andb rn_rollback rn_create rn_new rn_tags rn_updates rn_overwrites ex_update ex_new app].
      go 1 ltac:(apply step_remove). go 1 ltac:(apply step_removed). cbn [rn_tags rn_updates rn_overwrites ex_update ex_new app].
      go 1 ltac:(apply step_restored). cbn [rn_tags rn_updates rn_overwrites ex_update ex_new app]. go 1 ltac:(apply step_deleted).
      go 0 ltac:(apply step_delete). go 0 ltac:(apply step_deleted). apply rtc_refl.
    + vm_compute. done.
Qed.

(** Two runs update one package; one of them ends without errors, the other one fails with
    something else and removes the package that the first has installed; the old one is
    gone as well. *)
Theorem C152_lost_refuted :
  let rs := [ex_update; ex_both] in
  (forall r, r ∈ rs -> run_planned ex_lib ex_files r /\ run_complete r) /\ no_creation rs /\
  exists x, runs_happen ex_lib rs ex_files x /\ run_at x 0 (RDone false) /\ run_at x 1 (RDone true) /\ no_dir ex_lib "R6" (rs_fs x).
Proof.
  cbv zeta. split; [|split].
  - intros r Hr. apply elem_of_cons in Hr as [-> |Hr]; [|apply elem_of_list_singleton in Hr as ->]; (split; [split; [done|]|]).
    + split; [by apply (bool_decide_unpack _); vm_compute|]. split; [by intros p ?%elem_of_nil|]. split.
      * intros p [Hp|Hp]; [|by apply elem_of_nil in Hp]. apply elem_of_list_singleton in Hp as ->. split; [done|]. by apply ex_no_dir.
      * intros j Hj. apply elem_of_list_singleton in Hj as ->. left. by apply (bool_decide_unpack _); vm_compute.
    + split; [by apply (bool_decide_unpack _); vm_compute|]. intros p Hp. apply elem_of_list_singleton in Hp as ->. eexists. split; [left|done].
    + split; [by apply (bool_decide_unpack _); vm_compute|]. split.
      * intros p Hp. apply elem_of_list_singleton in Hp as ->. by apply ex_no_dir.
      * split.
        -- intros p [Hp|Hp]; [|by apply elem_of_nil in Hp]. apply elem_of_list_singleton in Hp as ->. split; [done|]. by apply ex_no_dir.
        -- intros j Hj. apply elem_of_cons in Hj as [-> |Hj]; [|apply elem_of_list_singleton in Hj as ->]; left; by apply (bool_decide_unpack _); vm_compute.
    + split; [by apply (bool_decide_unpack _); vm_compute|]. intros p Hp. apply elem_of_cons in Hp as [-> |Hp]; [|apply elem_of_list_singleton in Hp as ->].
      * eexists. split; [right; left|done].
      * eexists. split; [left|done].
  - intros r Hr. apply elem_of_cons in Hr as [-> |Hr]; [done|]. by apply elem_of_list_singleton in Hr as ->.
  - eexists. split; [|split; [|split]].
    + unfold runs_happen, runs_started. cbn [map].
      go 0 ltac:(by apply step_made). go 1 ltac:(by apply step_made). cbn [rn_tags rn_updates rn_overwrites ex_update ex_both app].
      go 0 ltac:(apply step_tag). go 1 ltac:(apply step_tag). go 0 ltac:(apply step_fetched). go 1 ltac:(apply step_fetched).
      go 0 ltac:(apply (step_begin _ _ []); by right). go 0 ltac:(by apply (step_put _ _ _ [])).
      go 1 ltac:(by apply (step_there _ _ [])). go 1 ltac:(apply (step_begin _ _ []); by right). go 1 ltac:(apply (step_fails _ _ _ [])).
      go 0 ltac:(apply step_installed; by left). unfold after_install at 1. cbn [andb rn_rollback rn_create rn_new rn_tags rn_updates rn_overwrites ex_update ex_both app].
      go 0 ltac:(apply step_delete). go 0 ltac:(apply step_deleted).
      go 1 ltac:(apply step_installed; by left). unfold after_install. cbn [andb rn_rollback rn_create rn_new rn_tags rn_updates rn_overwrites ex_update ex_both app].
      go 1 ltac:(apply step_remove). go 1 ltac:(apply step_removed). cbn [rn_tags rn_updates rn_overwrites ex_update ex_both app].
      go 1 ltac:(apply step_clear). go 1 ltac:(apply step_not_renamed; vm_compute; reflexivity). cbn [rn_tags rn_updates rn_overwrites ex_update ex_both app].
      go 1 ltac:(apply step_delete). go 1 ltac:(apply step_deleted). apply rtc_refl.
    + reflexivity.
    + reflexivity.
    + intros s. by vm_compute.
Qed.

(** Two runs install the same new package; the one that fails removes it. *)
Theorem C152_new_refuted :
  let rs := [ex_new; ex_new2] in
  exists x, runs_happen ex_lib rs ex_files x /\ run_at x 0 (RDone false) /\ run_at x 1 (RDone true) /\ no_dir ex_lib "rlang" (rs_fs x).
Proof.
  cbv zeta. eexists. split; [|split; [|split]].
  - unfold runs_happen, runs_started. cbn [map].
    go 0 ltac:(by apply step_made). go 1 ltac:(by apply step_made). cbn [rn_tags rn_updates rn_overwrites ex_new ex_new2 app].
    go 0 ltac:(apply step_fetched). go 1 ltac:(apply step_fetched).
    go 0 ltac:(apply (step_begin _ _ []); by right). go 0 ltac:(by apply (step_put _ _ _ [])).
    go 0 ltac:(apply step_installed; by left). unfold after_install at 1. cbn [andb rn_rollback rn_create rn_new rn_tags rn_updates rn_overwrites ex_new ex_new2 app].
    go 0 ltac:(apply step_deleted).
    go 1 ltac:(by apply (step_there _ _ [])). go 1 ltac:(apply (step_begin _ _ []); by right). go 1 ltac:(apply (step_fails _ _ _ [])).
    go 1 ltac:(apply step_installed; by left). unfold after_install. cbn [andb rn_rollback rn_create rn_new rn_tags rn_updates rn_overwrites ex_new ex_new2 app].
    go 1 ltac:(apply step_remove). go 1 ltac:(apply step_remove). go 1 ltac:(apply step_removed). cbn [rn_tags rn_updates rn_overwrites ex_new ex_new2 app].
    go 1 ltac:(apply step_restored). cbn [rn_tags rn_updates rn_overwrites ex_new ex_new2 app]. go 1 ltac:(apply step_deleted). apply rtc_refl.
  - reflexivity.
  - reflexivity.
  - intros s. by vm_compute.
Qed.

Definition ex_root : fsys := fun q => match q with [] => Some Dir | _ => None end.
Definition ex_make1 : run := Run true ["R6"] [] [] [Job "R6" ex_tree false] true.
Definition ex_make2 : run := Run true ["rlang"] [] [] [Job "rlang" ex_tree false] true.

(** Two runs about different packages were both to create the library; the one that
    fails removes it with the package of the other one. *)
Theorem C152_created_refuted :
  let rs := [ex_make1; ex_make2] in
  exists x, runs_happen ex_lib rs ex_root x /\ run_at x 0 (RDone false) /\ run_at x 1 (RDone true) /\ forall q, in_dir ex_lib q -> rs_fs x q = None.
Proof.
  cbv zeta. eexists. split; [|split; [|split]].
  - unfold runs_happen, runs_started. cbn [map].
    go 0 ltac:(apply step_made; vm_compute; reflexivity). go 1 ltac:(apply step_made; vm_compute; reflexivity). cbn [rn_tags rn_updates rn_overwrites ex_make1 ex_make2 app].
    go 0 ltac:(apply step_fetched). go 1 ltac:(apply step_fetched).
    go 0 ltac:(apply (step_begin _ _ []); right; vm_compute; reflexivity). go 0 ltac:(apply (step_put _ _ _ []); vm_compute; reflexivity).
    go 0 ltac:(apply step_installed; by left). unfold after_install at 1. cbn [andb rn_rollback rn_create rn_new rn_tags rn_updates rn_overwrites ex_make1 ex_make2 app].
    go 0 ltac:(apply step_deleted).
    go 1 ltac:(apply (step_begin _ _ []); right; vm_compute; reflexivity). go 1 ltac:(apply (step_fails _ _ _ [])).
    go 1 ltac:(apply step_installed; by left). unfold after_install. cbn [andb rn_rollback rn_create rn_new rn_tags rn_updates rn_overwrites ex_make1 ex_make2 app].
    go 1 ltac:(apply step_undo). cbn [rn_tags rn_updates rn_overwrites ex_make1 ex_make2 app]. go 1 ltac:(apply step_deleted). apply rtc_refl.
  - reflexivity.
  - reflexivity.
  - intros q Hq. cbn [rs_fs]. unfold remove_all. by rewrite (proj2 (below_spec ex_lib q) Hq).
Qed.

Print Assumptions C152_alone.
Print Assumptions C152_undone.
Print Assumptions C152_done.
Print Assumptions C152_others.
Print Assumptions C152_well.
Print Assumptions C152_goes_on.
Print Assumptions C152_lost_refuted.
Print Assumptions C152_new_refuted.
Print Assumptions C152_created_refuted.
