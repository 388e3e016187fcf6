(** C107 to C111: the validation tools. *)
From stdpp Require Import strings list gmap.
From Coq Require Import Ascii ZArith QArith.
From Verif.model Require Import GoStr Fs Valtools.
From Verif.spec Require Import StrSpec ConfigSpec ValSpec.
From Verif.proofs Require Import GoStrLemmas StartProofs ValProofs.

Local Open Scope string_scope.

(** * C107: checkmat finds the problems of a traceability matrix

    In full: the exit status is 0 if and only if the matrix and the directory can be
    read and the matrix has none of the problems of the usage text. *)

(** Missing: a file named ".", and entries with neither an entry point nor
    documentation; the documentation of an entry with a true "skip" value is not
    looked at. *)
Theorem C107_status_partial : forall matrix docs top f,
  (forall es e, matrix = Some es -> e ∈ es -> en_skip e = false -> en_doc e = "" -> en_point e <> "") ->
  (forall es e, matrix = Some es -> e ∈ es -> ~ file_of e ".") ->
  (forall l x, docs = Some l -> x ∈ l -> plain_name x) ->
  checkmat_exit (check_matrix matrix docs top f) = 0%Z <->
  exists es l, matrix = Some es /\ docs = Some l /\
    (forall e x k, e ∈ es -> file_of e x -> names x k -> ~ blocked f (top ++ k)%list) /\
    (forall m, ~ problem es l top f m).
Proof. exact checkmat_status. Qed.
Print Assumptions C107_status_partial.

(** When the check comes to its end, every problem is written, and everything that is
    written is a problem unless a file name is invalid. *)
Theorem C107_messages_partial : forall es docs top f out,
  (forall e, e ∈ es -> en_skip e = false -> en_doc e = "" -> en_point e <> "") ->
  (forall e, e ∈ es -> ~ file_of e ".") -> (forall x, x ∈ docs -> plain_name x) ->
  check_matrix (Some es) (Some docs) top f = (out, false) ->
  (forall m, problem es docs top f m -> m ∈ out) /\
  (forall m, m ∈ out -> problem es docs top f m \/ exists x, problem es docs top f (BadName x)).
Proof.
  intros es docs top f out H1 H2 H3 H4. split; intros m Hm.
  - by eapply problem_written.
  - by eapply written_problem.
Qed.
Print Assumptions C107_messages_partial.

(** The status is 2 for an error and 1 for problems that are found. *)
Theorem C107_errors : forall matrix docs top f,
  (forall es e x, matrix = Some es -> e ∈ es -> file_of e x -> exists k, names x k) ->
  let status := checkmat_exit (check_matrix matrix docs top f) in
  (status = 2%Z <-> matrix = None \/ docs = None \/
     exists es e x k, matrix = Some es /\ e ∈ es /\ file_of e x /\ names x k /\ blocked f (top ++ k)%list) /\
  (status = 0 \/ status = 1 \/ status = 2)%Z.
Proof.
  intros matrix docs top f Hv. cbv zeta. unfold checkmat_exit. split.
  2:{ destruct (check_matrix matrix docs top f) as [[|m out] [|]]; cbn; tauto. }
  assert (A : forall r : list issue * bool, (if r.2 then 2 else match r.1 with [] => 0 | _ => 1 end)%Z = 2%Z <-> r.2 = true).
  { intros [[|m out] [|]]; done. }
  rewrite A. destruct matrix as [es|]; [|split; [intros _; by left|done]].
  assert (B : (check_files f top (flat_map entry_files es)).2 = true <->
    exists e x k, e ∈ es /\ file_of e x /\ names x k /\ blocked f (top ++ k)%list).
  { rewrite check_files_error. split.
    - intros (x & Hx & Hb). apply all_files in Hx as (e & He & Hx). destruct (Hv es e x eq_refl He Hx) as [k Hk].
      rewrite (names_join top x k) in Hb by done. by exists e, x, k.
    - intros (e & x & k & He & Hx & Hk & Hb). exists x. split; [apply all_files; by exists e|]. by rewrite (names_join top x k). }
  destruct docs as [l|].
  - rewrite check_matrix_error, B. split.
    + intros (e & x & k & H). right. right. by exists es, e, x, k.
    + intros [H|[H|(es' & e & x & k & [= <-] & H)]]; [done..|]. by exists e, x, k.
  - split; [intros _; right; by left|]. intros _. unfold check_matrix.
    by destruct (check_files f top (flat_map entry_files es)) as [is [|]].
Qed.
Print Assumptions C107_errors.

Example C107_errors_example : checkmat_exit (check_matrix None (Some []) [] (fun _ => None)) = 2%Z /\
  checkmat_exit (check_matrix (Some []) None [] (fun _ => None)) = 2%Z /\
  checkmat_exit (check_matrix (Some []) (Some ["pkgr_plan.md"]) [] (fun _ => None)) = 1%Z.
Proof. vm_compute. done. Qed.

Definition clean_entry : entry :=
  {| en_point := "pkgr clean cache"; en_code := "cmd/cleanCache.go"; en_doc := "docs/commands/pkgr_clean_cache.md";
     en_tests := ["cmd/clean_test.go"]; en_skip := false |}.

Definition project : fsys := fun p =>
  if bool_decide (p ∈ [[]; ["w"]; ["w"; "cmd"]; ["w"; "docs"]; ["w"; "docs"; "commands"]]) then Some Dir
  else if bool_decide (p ∈ [["w"; "cmd"; "cleanCache.go"]; ["w"; "docs"; "commands"; "pkgr_clean_cache.md"]]) then Some (File "")
  else None.

Example C107_example :
  check_matrix (Some [clean_entry; clean_entry]) (Some ["pkgr_clean_cache.md"; "pkgr_plan.md"]) ["w"] project =
    ([NoSuchFile ["w"; "cmd"; "clean_test.go"]; NoSuchFile ["w"; "cmd"; "clean_test.go"];
      Twice "pkgr clean cache"; NoEntry "pkgr_plan.md"], false) /\
  documents "pkgr_clean_cache.md" "pkgr clean cache" /\
  problem [clean_entry] [] ["w"] project (NoSuchFile ["w"; "cmd"; "clean_test.go"]).
Proof.
  split; [vm_compute; reflexivity|]. split; [apply documents_point; vm_compute; reflexivity|].
  change ["w"; "cmd"; "clean_test.go"] with (["w"] ++ ["cmd"; "clean_test.go"])%list. apply (pb_file _ _ _ _ clean_entry "cmd/clean_test.go" ["cmd"; "clean_test.go"]).
  - by left.
  - right. by left.
  - split; [done|]. split; [|done]. intros x Hx. apply elem_of_cons in Hx as [-> | Hx]; [done|].
    by apply elem_of_list_singleton in Hx as ->.
  - vm_compute. reflexivity.
Qed.

(** A name with a "." element is accepted. *)
Theorem C107_dot_refuted : exists es, problem es [] ["w"] project (BadName ".") /\
  checkmat_exit (check_matrix (Some es) (Some []) ["w"] project) = 0%Z.
Proof.
  exists [{| en_point := "p"; en_code := ""; en_doc := ""; en_tests := ["."]; en_skip := true |}].
  split; [|vm_compute; reflexivity].
  eapply pb_name; [by left|right; by left|]. intros l (H1 & H2 & H3).
  pose proof (split_join_plain l H1 H2) as E. rewrite <- H3 in E. change (split_slash ".") with ["."] in E.
  destruct (H2 ".") as (_ & H & _); [rewrite <- E; by left|done].
Qed.
Print Assumptions C107_dot_refuted.

(** The usage text has the exception for a true "skip" value in check [05]; the
    program has it in check [03]. *)
Theorem C107_skip_refuted : exists e x, en_skip e = true /\ names (en_doc e) ["docs"; "commands"; x] /\
  ~ documents x (en_point e) /\ checkmat_exit (check_matrix (Some [e]) (Some []) ["w"] project) = 0%Z.
Proof.
  exists {| en_point := "pkgr plan"; en_code := "cmd/cleanCache.go"; en_doc := "docs/commands/pkgr_clean_cache.md";
     en_tests := []; en_skip := true |}, "pkgr_clean_cache.md".
  split; [done|]. split; [|split].
  - split; [done|]. split; [|done]. intros x Hx. repeat (apply elem_of_cons in Hx as [-> | Hx]; [done|]). by apply elem_of_nil in Hx.
  - rewrite documents_point. vm_compute. discriminate.
  - vm_compute. reflexivity.
Qed.
Print Assumptions C107_skip_refuted.

(** * C108: the exit status of fmttests

    In full: the status is 1 if any "fail" record is read, and for any "skip" record
    unless skips are allowed; 0 otherwise. *)

(** Missing: records of packages, which do not name a test. *)
Theorem C108_status_partial : forall subtests allow es,
  (forall e, e ∈ es -> ev_test e <> "" -> known e) ->
  fmttests_exit allow (run_events subtests (map Some es) true) = 1%Z /\
    (exists e, e ∈ es /\ ev_test e <> "" /\ (ev_action e = "fail" \/ allow = false /\ ev_action e = "skip")) \/
  fmttests_exit allow (run_events subtests (map Some es) true) = 0%Z /\
    (forall e, e ∈ es -> ev_test e <> "" -> ev_action e <> "fail" /\ (allow = false -> ev_action e <> "skip")).
Proof.
  intros subtests allow es H.
  destruct (process_events_ok subtests es empty_run ∅ []) as (r & shown & E & H1 & _ & H3 & _); [by intros p t _; rewrite lookup_empty|done|].
  unfold run_events. rewrite E. unfold fmttests_exit. rewrite H1, H3. cbn [tr_failed tr_skipped empty_run app].
  assert (Hf : forall a, map ev_test (List.filter (named_as a) es) = [] <-> forall e, e ∈ es -> ev_test e <> "" -> ev_action e <> a).
  { intros a. rewrite <- (filter_nil_iff a es). by destruct (List.filter (named_as a) es). }
  case_bool_decide as Ef.
  - rewrite Hf in Ef. destruct allow.
    + right. split; [done|]. intros e He Ht. split; [by apply Ef|done].
    + case_bool_decide as Es; cbn.
      * rewrite Hf in Es. right. split; [done|]. intros e He Ht. split; [by apply Ef|intros _; by apply Es].
      * left. split; [done|]. destruct (find_named "skip" es) as (e & He & Ht & Ha); [by rewrite <- Hf|].
        exists e. split; [done|]. split; [done|]. by right.
  - left. split; [done|]. destruct (find_named "fail" es) as (e & He & Ht & Ha); [by rewrite <- Hf|].
    exists e. split; [done|]. split; [done|]. by left.
Qed.
Print Assumptions C108_status_partial.

(** The status is 2 exactly for input that cannot be read. *)
Theorem C108_error : forall subtests allow es ok,
  fmttests_exit allow (run_events subtests es ok) = 2%Z <->
  ok = false \/ None ∈ es \/ exists e, Some e ∈ es /\ ev_test e <> "" /\ ~ known e.
Proof.
  intros subtests allow es ok. rewrite <- (process_events_error subtests es ok empty_run ∅). unfold run_events.
  destruct (process_events subtests es ok empty_run ∅) as [r [|]]; cbn [fmttests_exit snd]; [done|]. split; [|done].
  by destruct (negb (bool_decide (tr_failed r = [])) || negb allow && negb (bool_decide (tr_skipped r = []))).
Qed.
Print Assumptions C108_error.

Definition ev (action test output : string) : event :=
  {| ev_action := action; ev_package := "x.org/pkgr/cmd"; ev_test := test; ev_output := output |}.

Example C108_example :
  fmttests_exit false (run_events false (map Some [ev "run" "TestA" ""; ev "skip" "TestA" ""]) true) = 1%Z /\
  fmttests_exit true (run_events false (map Some [ev "run" "TestA" ""; ev "skip" "TestA" ""]) true) = 0%Z /\
  fmttests_exit true (run_events false (map Some [ev "pass" "TestA" ""; ev "fail" "TestB/x" ""]) true) = 1%Z.
Proof. split; [reflexivity|]. split; reflexivity. Qed.

(** A package that cannot be built or that panics before its tests has a "fail" record
    without a test: the status is 0. *)
Theorem C108_package_refuted : exists es, (exists e, e ∈ es /\ ev_action e = "fail") /\
  fmttests_exit false (run_events false (map Some es) true) = 0%Z.
Proof.
  exists [ev "start" "" ""; ev "output" "" "FAIL x.org/pkgr/cmd [build failed]"; ev "fail" "" ""].
  split; [|reflexivity]. exists (ev "fail" "" ""). split; [|done]. right. right. by left.
Qed.
Print Assumptions C108_package_refuted.

(** * C109: what fmttests writes: a line for each result in order, passing subtests on
    request, and the output of failing tests *)
Theorem C109_written : forall subtests es,
  (forall e, e ∈ es -> ev_test e <> "" -> known e) ->
  exists r, run_events subtests (map Some es) true = (r, false) /\
    displays subtests es (tr_out r) /\ tr_err r = failure_output [] es.
Proof.
  intros subtests es H.
  destruct (process_events_ok subtests es empty_run ∅ []) as (r & shown & E & _ & _ & _ & H4 & H5 & H6); [by intros p t _; rewrite lookup_empty|done|].
  exists r. split; [done|]. by rewrite H4, H6.
Qed.
Print Assumptions C109_written.

Example C109_example :
  let es := [ev "output" "TestA" "boom"; ev "output" "TestB" "fine"; ev "pass" "TestB/x" ""; ev "pass" "TestB" "";
             ev "output" "TestA" "bang"; ev "fail" "TestA" ""; ev "fail" "" ""] in
  run_events false (map Some es) true =
    ({| tr_failed := ["TestA"]; tr_passed := ["TestB/x"; "TestB"]; tr_skipped := [];
        tr_out := [("cmd", "TestB", "passed"); ("cmd", "TestA", "failed")]; tr_err := ["boom"; "bang"] |}, false) /\
  displays false es [("cmd", "TestB", "passed"); ("cmd", "TestA", "failed")].
Proof.
  cbv zeta. split; [vm_compute; reflexivity|].
  destruct (C109_written false [ev "output" "TestA" "boom"; ev "output" "TestB" "fine"; ev "pass" "TestB/x" ""; ev "pass" "TestB" "";
             ev "output" "TestA" "bang"; ev "fail" "TestA" ""; ev "fail" "" ""]) as (r & E & H & _).
  - intros e He _. unfold known. repeat (apply elem_of_cons in He as [-> | He]; [by apply (bool_decide_unpack _); vm_compute|]).
    by apply elem_of_nil in He.
  - vm_compute in E. by injection E as <-.
Qed.

(** * C110: the coverage *)

(** Each number is the percentage of statements that were run; there is one for each
    profile, in order. *)
Theorem C110_percentages : forall ps,
  is_percentage (cv_overall (percent_covered ps)) (sum (map executed ps)) (sum (map statements ps)) /\
  Forall2 (fun p fc => fc.1 = pr_file p /\ is_percentage fc.2 (executed p) (statements p)) ps (cv_files (percent_covered ps)).
Proof.
  intros ps. destruct (percent_covered_spec ps) as [H1 ->]. split; [done|]. clear.
  induction ps as [|p ps IH]; [constructor|]. cbn [map]. constructor; [|exact IH]. split; [done|]. apply percent_ok.
Qed.
Print Assumptions C110_percentages.

Theorem C110_range : forall ps, (0 <= cv_overall (percent_covered ps) <= 100)%Q /\
  (sum (map statements ps) <> 0%N -> (cv_overall (percent_covered ps) == 100)%Q <->
    forall p n c, p ∈ ps -> (n, c) ∈ pr_blocks p -> n = 0%N \/ c <> 0%N).
Proof.
  intros ps. destruct (percent_covered_spec ps) as [H1 _]. split.
  - by eapply percentage_range, sum_executed_le.
  - intros Hn. rewrite (percentage_full _ _ _ H1 Hn). apply sum_executed_all.
Qed.
Print Assumptions C110_range.

Example C110_example :
  (cv_overall (percent_covered [{| pr_file := "a.go"; pr_blocks := [(3, 1); (1, 0)]%N |}; {| pr_file := "b.go"; pr_blocks := [(4, 2)]%N |}]) ==
   87.5)%Q.
Proof. vm_compute. reflexivity. Qed.

(** * C111: short file names

    In full: the module name is removed from the names of its files, other names are
    kept, and files keep distinct names. *)

(** Missing for distinctness: files outside of the module. *)
Theorem C111_names_partial : forall links m files short, m <> "" -> shorten_names links m "" files = Some short ->
  Forall2 (fun f s => f = m +:+ "/" +:+ s \/ (s = f /\ forall x, f <> m +:+ "/" +:+ x)) files short /\
  ((forall f, f ∈ files -> exists x, f = m +:+ "/" +:+ x) -> NoDup files -> NoDup short).
Proof.
  intros links m files short Hm H. unfold shorten_names in H. apply String.eqb_neq in Hm. rewrite Hm in H. cbn [String.eqb] in H.
  apply mapM_Some in H.
  assert (H1 : Forall2 (fun f s => f = m +:+ "/" +:+ s \/ (s = f /\ forall x, f <> m +:+ "/" +:+ x)) files short).
  { eapply Forall2_impl; [exact H|]. intros f s E. eapply shorten_mod; [exact E|by right]. }
  split; [done|]. intros Hall Hnd. clear H. revert Hall Hnd. induction H1 as [|f s files short H1 H2 IH]; intros Hall Hnd; [constructor|].
  apply NoDup_cons in Hnd as [Hn Hnd]. apply NoDup_cons. split; [|apply IH; [intros g Hg; apply Hall; by right|done]].
  intros Hs. apply Hn. destruct H1 as [-> | [_ H1]].
  2:{ destruct (Hall f) as [x Hx]; [by left|]. by destruct (H1 x). }
  apply elem_of_list_lookup in Hs as [i Hi]. destruct (Forall2_lookup_r _ _ _ _ _ H2 Hi) as (g & Hg & [-> | [_ H1]]).
  - by eapply elem_of_list_lookup_2.
  - destruct (Hall g) as [x Hx]; [right; by eapply elem_of_list_lookup_2|]. by destruct (H1 x).
Qed.
Print Assumptions C111_names_partial.

(** Names that start with a slash lose the directory of the project, after symbolic
    links are followed. *)
Theorem C111_local_names : forall links m dir top files short, m <> "" -> dir <> "" -> links dir = Some top ->
  shorten_names links m dir files = Some short ->
  Forall2 (fun f s => (exists r g, f = "/" +:+ r /\ links f = Some g /\
      (g = top +:+ "/" +:+ s \/ (s = g /\ forall x, g <> top +:+ "/" +:+ x))) \/
    ((forall r, f <> "/" +:+ r) /\ (f = m +:+ "/" +:+ s \/ (s = f /\ forall x, f <> m +:+ "/" +:+ x)))) files short.
Proof.
  intros links m dir top files short Hm Hd Hl H. unfold shorten_names in H. apply String.eqb_neq in Hm, Hd.
  rewrite Hm, Hd, Hl in H. apply mapM_Some in H. eapply Forall2_impl; [exact H|]. intros f s E.
  unfold shorten_one in E. assert (N : negb (String.eqb (top +:+ "/") "") = true) by (by destruct top).
  rewrite N in E. cbn [andb] in E. destruct (has_prefix "/" f) eqn:Ep.
  - apply has_prefix_true in Ep as [r ->]. left. exists r. destruct (links ("/" +:+ r)) as [g|]; [|done].
    injection E as <-. exists g. split; [done|]. split; [done|]. apply trim_prefix_cases.
  - injection E as <-. right. split.
    + intros r ->. by rewrite has_prefix_app in Ep.
    + apply trim_prefix_cases.
Qed.
Print Assumptions C111_local_names.

Theorem C111_local_error : forall links m dir files, m <> "" -> dir <> "" ->
  shorten_names links m dir files = None <->
  links dir = None \/ exists f r, f ∈ files /\ f = "/" +:+ r /\ links f = None.
Proof.
  intros links m dir files Hm Hd. unfold shorten_names. apply String.eqb_neq in Hm, Hd. rewrite Hm, Hd.
  destruct (links dir) as [top|] eqn:El; [|split; [intros _; by left|done]].
  split.
  - intros H. right. apply mapM_None in H. apply Exists_exists in H as (f & Hf & H). cbn beta in H.
    apply shorten_none in H as [[r Hr] H]. by exists f, r.
  - intros [H|(f & r & Hf & Hr & H)]; [done|]. apply mapM_None. apply Exists_exists. exists f. split; [done|].
    apply shorten_none. split; [by exists r|done].
Qed.
Print Assumptions C111_local_error.

Example C111_local_example :
  shorten_names (fun p => Some (if String.eqb p "/src" then "/data/src" else "/data" +:+ p)) "x.org/pkgr" "/src"
    ["x.org/pkgr/cmd/plan.go"; "/src/cmd/pkgr/pkgr.go"; "/other/a.go"] =
    Some ["cmd/plan.go"; "cmd/pkgr/pkgr.go"; "/data/other/a.go"].
Proof. vm_compute. reflexivity. Qed.

Example C111_example :
  shorten_names (fun _ => None) "x.org/pkgr" "" ["x.org/pkgr/cmd/plan.go"; "x.org/pkgrtools/a.go"] =
    Some ["cmd/plan.go"; "x.org/pkgrtools/a.go"].
Proof. reflexivity. Qed.

(** A file of the module and a file of the standard library. *)
Theorem C111_same_name_refuted : exists links m files short, NoDup files /\
  shorten_names links m "" files = Some short /\ ~ NoDup short.
Proof.
  exists (fun _ => None), "x.org/pkgr", ["x.org/pkgr/errors/errors.go"; "errors/errors.go"], ["errors/errors.go"; "errors/errors.go"].
  split; [by apply (bool_decide_unpack _); vm_compute|]. split; [reflexivity|].
  intros H. apply NoDup_cons in H as [H _]. apply H. by left.
Qed.
Print Assumptions C111_same_name_refuted.
