(** C131: the binaries that are put into the cache. *)
From stdpp Require Import strings list gmap.
From Coq Require Import Ascii ZArith Lia.
From Verif.model Require Import GoStr Version Desc Nexus RepoDb Pacman Graph Plan Fs Rollback Stamp Yml Sched Install Download Tarballs Together Urls Fetching.
From Verif.spec Require Import RepoSpec GraphSpec PlanSpec SchedSpec LibSpec DownloadSpec InstallSpec TarballSpec TogetherSpec ApartSpec FetchingSpec EndSpec StoreSpec.
From Verif.proofs Require Import GraphProofs PlanProofs PlanProps FsProofs RollbackProofs RunProofs RunProps RunLink ExampleWorlds RunProps2 SchedProofs SchedProps SchedLink
  ExtractProofs DownloadProofs TogetherProofs WholeProofs TogetherEnd ToyR FetchingProofs EndProofs StoreProofs.
From Verif.props Require Import P_Graph P_Library P_Sched P_Together P_Fetching.

Local Open Scope string_scope.

(** At every moment: a place for a binary that has changed has just what R had built for
    this package or, if the copy has failed, the beginning of it. *)
Theorem C131_only : forall e Rs j name ds f ls st p b,
  job_ok j -> setting_ok e j name ds -> rs_only Rs name -> binaries_ok e j -> tree_ok f ->
  together e Rs j (tinitial _ j f) ls st -> in_plan j p -> ball_for e p = Some b ->
  t_fs st (store_for e p b) <> f (store_for e p b) ->
  exists c r, built e Rs j f p (File (c +:+ r)) ls st /\ t_fs st (store_for e p b) = Some (File c) /\
    (Finish p (ROk false) ∈ ls \/ (Finish p (ROk true) ∈ ls /\ r = "")).
Proof.
  intros e Rs j name ds f ls st p b Hj Ho HR Hb T H Hp Eb Hn.
  exact (y_store _ _ _ _ _ _ (together_inv3 e Rs j name ds Hj Ho HR Hb f ls st T H) p b Hp Eb Hn).
Qed.

(** When all copies have been made, the binary of a package that was built and whose copy
    has not failed is in the cache, and is not in the temporary directory any more. *)
Theorem C131_stored : forall e Rs j name ds f ls st p b n,
  job_ok j -> setting_ok e j name ds -> rs_only Rs name -> binaries_ok e j -> tree_ok f ->
  together e Rs j (tinitial _ j f) ls st -> t_copies st = [] -> in_plan j p -> ball_for e p = Some b ->
  built e Rs j f p n ls st -> Finish p (ROk true) ∈ ls ->
  exists c, n = File c /\ t_fs st (store_for e p b) = Some (File c) /\ t_fs st b = None.
Proof.
  intros e Rs j name ds f ls st p b n Hj Ho HR Hb T H Hc Hp Eb (ls1 & st1 & ls2 & b1 & -> & B1 & B2 & B3 & B4 & B5) Hf.
  assert (b1 = b) as -> by congruence.
  destruct (built_later e Rs j name ds Hj Ho HR Hb f ls1 st1 p n b T Eb Hp B1 B3 B5 ls2 st B2) as [K1 K2].
  pose proof (i_exec _ _ _ _ _ _ (together_inv e Rs j name ds Hj Ho HR f _ _ T H)) as Hex.
  destruct K2 as [(w & W1 & _)|[(r & R1 & R2)|[(_ & R2 & _)|(_ & _ & R3 & c & R4 & R5)]]].
  - by destruct (proj2 (i_work _ _ _ _ _ _ (together_inv e Rs j name ds Hj Ho HR f _ _ T H) p w W1) _ Hf).
  - destruct R2. by eapply finish_unique.
  - rewrite Hc in R2. by apply elem_of_nil in R2.
  - by exists c.
Qed.

(** Without the directory for binaries of this version of R the copy cannot be made:
    InstallPackagePlan does not return then, unless installing the package has failed. *)
Theorem C131_no_directory : forall e Rs j name ds f ls st p b n errs,
  job_ok j -> setting_ok e j name ds -> rs_only Rs name -> binaries_ok e j -> tree_ok f ->
  together e Rs j (tinitial _ j f) ls st -> t_copies st = [] -> in_plan j p -> ball_for e p = Some b ->
  built e Rs j f p n ls st -> t_fs st (removelast (store_for e p b)) <> Some Dir ->
  returned (t_sched st) errs -> ~ succeeded ls p.
Proof.
  intros e Rs j name ds f ls st p b n errs Hj Ho HR Hb T H Hc Hp Eb Hbu Hd Hr [[] Hs].
  - destruct (C131_stored e Rs j name ds f ls st p b n Hj Ho HR Hb T H Hc Hp Eb Hbu Hs) as (c & _ & K & _).
    pose proof (i_tree _ _ _ _ _ _ (together_inv e Rs j name ds Hj Ho HR f _ _ T H)) as T'. apply Hd.
    destruct (store_eq e j name ds Ho p b Hp Eb) as (d & m & E). rewrite E in K |- *. rewrite removelast_last.
    apply (T' (binary_dir e p ++ [d])%list m). by rewrite K.
  - pose proof (i_exec _ _ _ _ _ _ (together_inv e Rs j name ds Hj Ho HR f _ _ T H)) as Hex.
    destruct (returned_quiet j ls _ errs Hex Hr) as (_ & _ & K & _). by apply K in Hs.
Qed.

(** Together with downloading: what a run has built from source is found in the cache by
    the next. *)
Theorem C131_found_again : forall e x ws Rs j name ds f fd ls st w n,
  job_ok j -> fetch_ok x ws -> arranged e x j name ds -> covers ws j -> rs_only Rs name ->
  fetched x ws f (e_downloads e) fd -> all_fetched ws (e_downloads e) -> tree_ok fd ->
  together e Rs j (tinitial _ j fd) ls st -> t_copies st = [] ->
  w ∈ ws -> in_plan j (w_pkg w) -> ~ means_binary (x_os x) (w_type w) -> contains "tar.gz" (w_pkg w +:+ "_" +:+ w_version w) = false ->
  built e Rs j fd (w_pkg w) n ls st -> Finish (w_pkg w) (ROk true) ∈ ls ->
  exists c bp, n = File c /\ cache_path (surroundings_for e (w_pkg w)) (request_for e (w_pkg w)) = Some bp /\ t_fs st bp = Some (File c).
Proof.
  intros e x ws Rs j name ds f fd ls st w n Hj Hok Har Hcov HR Hf Hall T H Hc Hw Hp Ht Hz Hbu Hfin.
  pose proof (linked_setting e x ws j name ds f fd Hok Har Hcov Hf Hall) as Ho.
  pose proof (linked_binaries e x ws j name ds f fd Hok Har Hcov Hf Hall) as Hb.
  pose proof Hbu as (ls1 & st1 & ls2 & b & _ & _ & _ & _ & Eb & _).
  destruct (C131_stored e Rs j name ds fd ls st (w_pkg w) b n Hj Ho HR Hb T H Hc Hp Eb Hbu Hfin) as (c & E1 & E2 & _).
  exists c, (store_for e (w_pkg w) b). split; [done|]. split; [|done].
  by apply (linked_found e x ws j name ds f fd Hok Har Hf Hall w b Hw Hp Ht Hz Eb).
Qed.

(** a is built, its binary is copied; b is about to be built. *)
Example C131_example : job_ok wx_job /\ setting_ok wx wx_job toy_name wx_dirs /\ binaries_ok wx wx_job /\ rs_only (toy_process []) toy_name /\
  tree_ok wx_staged /\ ball_for wx "a" = Some ["tmp"; "a"; "a_2.0_R_x.tar.gz"] /\
  wx_staged ["cache"; "r-"; "binary"; "4.0"; "a_2.0_R_x.tar.gz"] = None /\
  exists ls st, together wx (toy_process []) wx_job (tinitial _ wx_job wx_staged) ls st /\
    built wx (toy_process []) wx_job wx_staged "a" (File "binary") ls st /\ Finish "a" (ROk true) ∈ ls /\ t_copies st = [] /\
    store_for wx "a" ["tmp"; "a"; "a_2.0_R_x.tar.gz"] = ["cache"; "r-"; "binary"; "4.0"; "a_2.0_R_x.tar.gz"] /\
    t_fs st ["cache"; "r-"; "binary"; "4.0"; "a_2.0_R_x.tar.gz"] = Some (File "binary") /\
    t_fs st ["tmp"; "a"; "a_2.0_R_x.tar.gz"] = None.
Proof.
  split; [exact wx_job_ok|]. split; [exact wx_setting_ok|]. split.
  { split.
    - intros p p' H H'. wx_case H; wx_case H'; by apply wx_apart.
    - intros p p' b b' H H' Hne E E'. wx_case H; wx_case H'; try done; vm_compute in E, E'; injection E as <-; injection E' as <-; vm_compute; discriminate.
    - intros p p' b H H' E. wx_case H; wx_case H'; vm_compute in E; injection E as <-; vm_compute; discriminate. }
  split; [apply toy_rs_only|]. split; [by apply (staged_tree wx_conf wx_input _ wx_run_ok)|]. split; [vm_compute; reflexivity|]. split; [vm_compute; reflexivity|].
  assert (exists ls1 st1, together wx (toy_process []) wx_job (tinitial _ wx_job wx_staged) ls1 st1 /\
    t_work st1 !! "a" = Some WBall /\ t_fs st1 ["tmp"; "a"; "a_2.0_R_x.tar.gz"] = Some (File "binary") /\
    exists ls2 st, together wx (toy_process []) wx_job st1 ls2 st /\ Finish "a" (ROk true) ∈ ls2 /\ t_copies st = [] /\
      t_fs st ["cache"; "r-"; "binary"; "4.0"; "a_2.0_R_x.tar.gz"] = Some (File "binary") /\ t_fs st ["tmp"; "a"; "a_2.0_R_x.tar.gz"] = None)
    as (ls1 & st1 & H1 & H2 & H3 & ls2 & st & H4 & H5 & H6 & H7 & H8).
  { eexists _, _. split; [|split; [|split]].
    - unfold tinitial, initial, wx_job; cbn [j_starting j_workers replicate].
      sched main_add; sched main_send; sched req_mark; sched req_push.
      eapply tg_cons; [apply ts_start, work_start with (w1 := [])|cbn [app]].
      sched main_wait. build. r_good.
      eapply tg_cons; [eapply ts_work; [apply lookup_insert|eapply w_clean]|cbn [negb andb Z.eqb]]. constructor.
    - apply lookup_insert.
    - vm_compute. reflexivity.
    - eexists _, _. split; [|split; [|split; [|split]]].
      + eapply tg_cons; [eapply ts_work; [apply lookup_insert|eapply w_ball; [reflexivity|vm_compute; reflexivity]]|].
        eapply tg_cons; [eapply ts_work; [apply lookup_insert|eapply w_call; [reflexivity|vm_compute; reflexivity]]|].
        r_good. ball. finish (ROk true). copy. constructor.
      + vm_compute. set_solver.
      + reflexivity.
      + vm_compute. reflexivity.
      + vm_compute. reflexivity. }
  assert (together wx (toy_process []) wx_job (tinitial _ wx_job wx_staged) (ls1 ++ ls2)%list st) as H.
  { clear -H1 H4. induction H4; [by rewrite app_nil_r|]. rewrite app_assoc. by eapply tg_snoc. }
  exists (ls1 ++ ls2)%list, st. split; [done|]. split.
  { exists ls1, st1, ls2, ["tmp"; "a"; "a_2.0_R_x.tar.gz"]. split; [done|]. split; [done|]. split; [done|]. split; [done|]. split; [vm_compute; reflexivity|done]. }
  split; [by apply elem_of_app; right|]. split; [done|]. split; [vm_compute; reflexivity|]. done.
Qed.

(** When a copy fails half-way, what was written stays in the cache, where it is taken for
    the binary by the next run. *)
Theorem C131_part_refuted : exists e Rs j name ds f ls st p bp,
  job_ok j /\ setting_ok e j name ds /\ rs_only Rs name /\ rs_installs Rs name /\ files_ok e j f /\ tree_ok f /\
  together e Rs j (tinitial _ j f) ls st /\ t_stopped st = false /\ in_plan j p /\
  cache_path (surroundings_for e p) (request_for e p) = Some bp /\ f bp = None /\ t_fs st bp = Some (File "bin") /\
  t_fs st (e_tmp e p ++ [base_name bp])%list = Some (File "binary") /\
  wstep e Rs p WCache (t_fs st) (WFile Cached) (t_fs st) /\
  exists c, call_for e p Cached = Some c /\ rc_source c = bp.
Proof.
  exists wx, (toy_process []), wx_job, toy_name, wx_dirs, wx_staged. eexists _, _, "a", ["cache"; "r-"; "binary"; "4.0"; "a_2.0_R_x.tar.gz"].
  split; [exact wx_job_ok|]. split; [exact wx_setting_ok|]. split; [apply toy_rs_only|]. split; [apply toy_rs_installs|]. split; [exact wx_files_ok|].
  split; [by apply (staged_tree wx_conf wx_input _ wx_run_ok)|]. split.
  { unfold tinitial, initial, wx_job; cbn [j_starting j_workers replicate].
    sched main_add; sched main_send; sched req_mark; sched req_push.
    eapply tg_cons; [apply ts_start, work_start with (w1 := [])|cbn [app]].
    sched main_wait. build. r_good. use_binary. r_good. ball. finish (ROk false).
    eapply tg_cons; [eapply ts_copy with (C1 := []) (C2 := []);
      eapply (cp_part _ _ _ _ "bin" "ary"); [vm_compute; reflexivity|vm_compute; reflexivity|vm_compute; discriminate]|cbn [app]]. constructor. }
  split; [reflexivity|]. split; [by left; left|]. split; [vm_compute; reflexivity|]. split; [vm_compute; reflexivity|].
  split; [vm_compute; reflexivity|]. split; [vm_compute; reflexivity|].
  split; [eapply w_cached; vm_compute; reflexivity|]. eexists. split; vm_compute; reflexivity.
Qed.

Print Assumptions C131_only.
Print Assumptions C131_stored.
Print Assumptions C131_no_directory.
Print Assumptions C131_found_again.
Print Assumptions C131_part_refuted.
