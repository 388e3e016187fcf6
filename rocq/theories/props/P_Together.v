(** C97-C100: installing a plan concurrently, with its effect on files; whole runs. *)
From stdpp Require Import strings list gmap.
From Coq Require Import Ascii ZArith Lia.
From Verif.model Require Import GoStr Version Desc Nexus RepoDb Pacman Graph Plan Fs Rollback Stamp Yml Sched Install Download Tarballs Together.
From Verif.spec Require Import RepoSpec GraphSpec PlanSpec SchedSpec LibSpec InstallSpec TarballSpec TogetherSpec.
From Verif.proofs Require Import GraphProofs PlanProofs PlanProps FsProofs RollbackProofs RunProofs RunProps RunLink ExampleWorlds RunProps2 SchedProofs SchedProps SchedLink
  TogetherProofs WholeProofs TogetherEnd ToyR.
From Verif.props Require Import P_Graph P_Library P_Sched.

Local Open Scope string_scope.

(** ** C97 *)

(** At every moment, also after a fatal error. *)
Theorem C97_frame : forall e Rs j name ds all add f ls st,
  job_ok j -> setting_ok e j name ds -> rs_only Rs name ->
  (forall p, in_plan j p -> p ∈ all) -> (forall p, p ∈ all -> r_name p) ->
  tree_ok f -> f (e_library e) = Some Dir ->
  together e Rs j (tinitial _ j f) ls st ->
  scratch_ok (e_library e) (scratch (e_library e) ds all) /\
  install_frame (e_library e) (scratch (e_library e) ds all) all add f (t_fs st) /\ tree_ok (t_fs st).
Proof.
  intros e Rs j name ds all add f ls st Hj Ho HR H1 H2 H3 H4 H. split.
  - by eapply scratch_fine.
  - by eapply together_frame.
Qed.

(** A worker that is not disturbed does what InstallThroughBinary (C49, C50) does. *)
Theorem C97_alone : forall e R p f,
  (forall w f', alone e (rs_of R) p WLook f w f' ->
     (forall code err b, w = WEnd code err b ->
        (install_through_binary R (surroundings_for e p) (request_for e p) f).1 = (Done code err b, f')) /\
     (wstop e p w f' -> (install_through_binary R (surroundings_for e p) (request_for e p) f).1 = (Stopped, f'))) /\
  exists w f', alone e (rs_of R) p WLook f w f' /\ ((exists code err b, w = WEnd code err b) \/ wstop e p w f').
Proof.
  intros e R p f. split; [|apply go_exists].
  intros w f' H. split.
  - intros code err b ->. apply (go_through e R p f (WEnd code err b) f'); [left; eauto|done].
  - intros Hs. rewrite (go_through e R p f w f'); [|by right|done]. by destruct Hs.
Qed.

(** ** C98 *)

Theorem C98_installed : forall e Rs j name ds f ls st,
  job_ok j -> setting_ok e j name ds -> rs_only Rs name -> rs_installs Rs name ->
  tree_ok f -> files_ok e j f ->
  together e Rs j (tinitial _ j f) ls st ->
  (returned (t_sched st) None -> forall p, in_plan j p -> t_fs st (e_library e ++ [p])%list = Some Dir) /\
  (forall p w d, t_work st !! p = Some w -> depends_on j p d -> t_fs st (e_library e ++ [d])%list = Some Dir) /\
  (forall p, succeeded ls p -> t_fs st (e_library e ++ [p])%list = Some Dir).
Proof.
  intros e Rs j name ds f ls st Hj Ho HR HI Ht Hf H. split; [|split].
  - intros Hr p Hp. by eapply together_success.
  - intros p w d Hw Hd. by eapply together_deps.
  - intros p Hp. by eapply together_done.
Qed.

(** However R is run, it all comes to an end, if R does; and unless the program has
    stopped with a fatal error, a request was dropped or a binary could not be copied
    (C47), the end is that InstallPackagePlan returns. *)
Theorem C98_ends_partial : forall e Rs j m, job_ok j -> rs_bounded Rs m -> rs_live Rs -> plan_size j <= 2502 + j_workers j -> 1 <= j_workers j ->
  (forall f (run : nat -> tstate (rs_state Rs)), run 0 = tinitial _ j f ->
     ~ (forall n, exists l, tstep e Rs j (run n) l (run (S n)))) /\
  (forall f ls st, together e Rs j (tinitial _ j f) ls st -> all_stuck e Rs j st -> t_stopped st = false ->
     none_dropped ls -> all_copied ls -> exists errs, returned (t_sched st) errs).
Proof.
  intros e Rs j m Hj Hm HL Hc Hw. split.
  - intros f run H0 Hn. pose proof (together_ends e Rs j Hj m Hm f [] (run 0)) as HA.
    specialize (HA ltac:(rewrite H0; constructor)). clear H0.
    remember (run 0) as s0 eqn:E. revert run E Hn. induction HA as [s0 _ IH]. intros run -> Hn.
    apply (IH (run 1) (Hn 0) (fun n => run (S n))); [done|]. intros n. apply Hn.
  - intros f ls st H Hs Hst Hd Hcp. pose proof (blocked_scheduler e Rs j f ls st HL H Hst Hs) as K.
    exact (stuck_returned j Hj ls _ (b_exec _ _ _ _ _ (together_busy e Rs j f ls st H)) K Hc Hw Hd Hcp).
Qed.

(** ** C99: a whole run without errors *)

Theorem C99_whole_run : forall c i e Rs j R l name ds f fd f3,
  run_ok c i f -> job_ok j -> whole_ok c i e j l name ds ->
  rs_only Rs name -> rs_installs Rs name -> r_only R (fun _ => name) -> r_trees R -> r_installs R (fun _ => name) ->
  only_in (leftovers e i ds) (run_ops (prepare_ops c i) f) fd -> files_ok e j fd -> tarballs_there e j l fd ->
  installs e Rs j R l fd false false f3 ->
  let run := r_install c i (RunWorld false (fun _ => f3) false false) f in
  let g := run_final c i (RunWorld false (fun _ => f3) false false) f in
  rt_outcome run = Exit 0 ->
  (forall p, p ∈ required i -> g (Rollback.rc_library c ++ [p])%list = Some Dir) /\
  (forall p, replaced c i p -> no_dir (Rollback.rc_library c) (backup_of p) g) /\
  (ip_create_library (ri_plan i) = false -> forall q, ~ leftovers e i ds q ->
     (forall x, x ∈ required i \/ (exists p, replaced c i p /\ x = backup_of p) -> ~ in_dir (Rollback.rc_library c ++ [x])%list q) ->
     g q = f q).
Proof.
  intros c i e Rs j R l name ds f fd f3 Hrun Hj Hwh HR HI HR2 HT HI2 Hd Hf Ht Hi run g Ho.
  pose proof (WholeProofs.exit_library c i f Hrun _ Ho) as Hlib.
  pose proof (whole_frame c i e Rs j R l name ds f Hrun Hj Hwh HR HR2 HT fd false false f3 Hlib Hd Hi) as Hw.
  destruct (C36_success_partial c i _ _ f Hrun Hw ltac:(by intros [?|?]) Ho) as (S1 & S2 & _).
  split; [|split; [done|]].
  - intros p Hp. unfold g. rewrite (S1 p Hp []). cbn [rw_install].
    apply (whole_installed c i e Rs j R l name ds f Hrun Hj Hwh HR HR2 HI HI2 fd f3); try done. apply Hd, (staged_tree c i f Hrun).
  - intros Hc q H1 H2. by eapply (C35_frame c i _ _ f _ q Hrun Hw Hc H1 H2), C35_end.
Qed.

(** With planning: all that is requested, and what it needs, is in the library. *)
Theorem C99_request_installed : forall c f dirs nx nr o pkgs cfg update ip keys add add' n e Rs R l name ds fd f3,
  nexus_ok nx -> ~ available nx "R" -> oracle_ok o -> standard_config nr cfg ->
  (forall p, p ∈ pkgs -> available nx p) -> tree_ok f -> lists_library f (Rollback.rc_library c) dirs ->
  resolve_installation_reqs o pkgs (found f (Rollback.rc_library c) dirs) cfg nx update (fs_dir_exists f (Rollback.rc_library c)) nr = PlanOk ip ->
  keys ≡ₚ (map_to_list (ip_depdb ip)).*1 -> add' ≡ₚ add -> NoDup add ->
  (forall p, p ∈ get_all_packages ip keys add -> r_name p) ->
  let i := RunInput ip keys add add' (found f (Rollback.rc_library c) dirs) in
  let j := Job (ip_starting ip) (ip_depdb ip) keys n in
  whole_ok c i e j l name ds ->
  rs_only Rs name -> rs_installs Rs name -> r_only R (fun _ => name) -> r_trees R -> r_installs R (fun _ => name) ->
  only_in (leftovers e i ds) (run_ops (prepare_ops c i) f) fd -> files_ok e j fd -> tarballs_there e j l fd ->
  installs e Rs j R l fd false false f3 ->
  let w := RunWorld false (fun _ => f3) false false in
  rt_outcome (r_install c i w f) = Exit 0 ->
  forall p, closure cfg nx pkgs p \/ p ∈ add -> run_final c i w f (Rollback.rc_library c ++ [p])%list = Some Dir.
Proof.
  intros c f dirs nx nr o pkgs cfg update ip keys add add' n e Rs R l name ds fd f3 H1 H2 H3 H4 H5 H6 H7 H8 H9 H10 H11 H12
    i j Hwh HR HI HR2 HT HI2 Hd Hf Ht Hi w Ho p Hp.
  assert (run_ok c i f) as Hrun by (by eapply C33_planned_runs).
  assert (job_ok j) as Hj by (by eapply C41_planned_jobs).
  destruct (C99_whole_run c i e Rs j R l name ds f fd f3 Hrun Hj Hwh HR HI HR2 HT HI2 Hd Hf Ht Hi Ho) as [K _].
  apply K. destruct Hp as [Hp|Hp].
  - apply (planned_required c i e j l name ds Hwh). destruct (C20_plan_is_closure nx nr o pkgs _ cfg update _ ip H1 H2 H3 H4 H5 H8) as [P _].
    apply P in Hp. destruct Hp as [Hp|[d Hp]]; [by left|right; by exists d].
  - unfold required. cbn. set_solver.
Qed.

(** ** C100: a whole run in which something cannot be installed *)

Theorem C100_whole_run_undone_partial : forall c i e Rs j R l name ds f fd pe ae f3,
  run_ok c i f -> job_ok j -> whole_ok c i e j l name ds ->
  rs_only Rs name -> r_only R (fun _ => name) -> r_trees R ->
  only_in (leftovers e i ds) (run_ops (prepare_ops c i) f) fd ->
  installs e Rs j R l fd pe ae f3 -> pe = true \/ ae = true ->
  ip_create_library (ri_plan i) = false -> rc_no_rollback c = false ->
  no_stale_backups c i f -> new_are_absent c i f -> (forall p, updated c i p -> ~ overwritten i p) ->
  forall q, ~ leftovers e i ds q -> run_final c i (RunWorld false (fun _ => f3) pe ae) f q = f q.
Proof.
  intros c i e Rs j R l name ds f fd pe ae f3 Hrun Hj Hwh HR HR2 HT Hd Hi Hf Hc Hrb N1 N2 N3 q Hq.
  assert (run_ops (prepare_ops c i) f (Rollback.rc_library c) = Some Dir) as Hlib.
  { apply (staged_lib c i f Hrun). by rewrite Hc. }
  pose proof (whole_frame c i e Rs j R l name ds f Hrun Hj Hwh HR HR2 HT fd pe ae f3 Hlib Hd Hi) as Hw.
  by apply (C33_rolled_back_partial c i _ _ f Hrun Hw Hc N1 N2 N3 Hrb).
Qed.

(** ** Example: b needs a; a is outdated in the library; the tarball t is installed too. *)
Definition wx_files : list (list string * node) :=
  [([], Dir); (["lib"], Dir); (["lib"; "a"], Dir); (["lib"; "a"; "DESCRIPTION"], File "a old"); (["lib"; "a"; "R"], File "code");
   (["lib"; "z"], Dir); (["lib"; "z"; "DESCRIPTION"], File "z old"); (["tmp"], Dir); (["cache"], Dir); (["cache"; "r-"], Dir);
   (["cache"; "r-"; "src"], Dir); (["cache"; "r-"; "src"; "a_2.0.tar.gz"], File "source of a");
   (["cache"; "r-"; "src"; "b_1.0.tar.gz"], File "source of b"); (["cache"; "r-"; "binary"], Dir);
   (["cache"; "r-"; "binary"; "4.0"], Dir); (["cache"; "h"], Dir); (["cache"; "h"; "t"], Dir); (["mine"], File "mine")].

Definition wx_plan : install_plan := InstallPlan ["a"] {["b" := ["a"]]} [] [Outdated "a" "1.0" "2.0"] ∅ false true.
Definition wx_found : gmap string desc := {["a" := mk_pkg "a" "1.0" [] [] [] []]}.
Definition wx_conf : run_config := RunConfig ["lib"] false false false.
Definition wx_input : run_input := RunInput wx_plan ["b"] ["t"] ["t"] wx_found.
Definition wx_job : job := Job ["a"] {["b" := ["a"]]} ["b"] 1.
Definition wx_tarballs : list (string * additional) := [("t", {| ad_path := ["cache"; "h"; "t"]; ad_origin := "t.tar.gz" |})].
Definition wx_dirs : list (list string) := [["tmp"]; ["cache"]].

Definition wx_download (p v : string) : download :=
  {| d_path := Some ["cache"; "r-"; "src"; p +:+ "_" +:+ v +:+ ".tar.gz"]; d_new := false;
     d_wanted := {| w_pkg := p; w_version := v; w_type := STSource; w_repo := RepoURL "u" "r" "" |} |}.

Definition wx : Together.setting := {|
  e_downloads := {["a" := wx_download "a" "2.0"; "b" := wx_download "b" "1.0"]}; e_library := ["lib"]; e_pkgr := "3.0";
  e_rversion := RVersion 4 0 5; e_platform := "x";
  e_where := {| s_cwd := ["home"]; s_tmp := ["tmp"]; s_cache := ["cache"]; s_os := Linux; s_md5 := fun _ => ""; s_read := fun _ => None |};
  e_tmp := fun p => ["tmp"; p]
|}.

Lemma wx_run_ok : run_ok wx_conf wx_input (fs_of wx_files).
Proof.
  split.
  - apply r_nameb_all. vm_compute. reflexivity.
  - done.
  - cbn. repeat constructor; set_solver.
  - cbn. repeat constructor; set_solver.
  - intros x Hx. cbn in Hx. apply elem_of_list_singleton in Hx as ->. eexists. vm_compute. reflexivity.
  - apply tree_okb_sound. vm_compute. reflexivity.
  - split; [done|]. intros H. exfalso. apply H. vm_compute. reflexivity.
  - intros p [d Hd]. cbn in Hd. unfold wx_found in Hd. apply lookup_singleton_Some in Hd as [<- _]. vm_compute. reflexivity.
Qed.

Lemma wx_depends p d : depends_on wx_job p d <-> p = "b" /\ d = "a".
Proof.
  unfold depends_on, wx_job. cbn [j_depdb]. split.
  - intros (l & H1 & H2). apply lookup_singleton_Some in H1 as [<- <-]. set_solver.
  - intros [-> ->]. exists ["a"]. rewrite lookup_singleton. set_solver.
Qed.

Lemma wx_planned p : in_plan wx_job p -> p = "a" \/ p = "b".
Proof.
  intros [H|[d H]]; cbn in H; [left; set_solver|]. apply lookup_singleton_Some in H as [<- _]. by right.
Qed.

Lemma wx_job_ok : job_ok wx_job.
Proof.
  split.
  - vm_compute. repeat constructor; set_solver.
  - vm_compute. done.
  - intros p Hp. cbn in Hp. apply lookup_singleton_None. set_solver.
  - intros p l Hp. cbn [j_depdb wx_job] in Hp. apply lookup_singleton_Some in Hp as [<- <-]. split; [done|].
    split; [repeat constructor; set_solver|set_solver].
  - intros p d [_ ->]%wx_depends. left. cbn. set_solver.
  - intros p d e [-> ->]%wx_depends [H _]%wx_depends. done.
Qed.

Lemma not_below d q : below d q = false -> ~ in_dir d q.
Proof. intros H K. apply below_spec in K. congruence. Qed.

Lemma wx_apart d1 d2 : below d1 d2 || below d2 d1 = false -> apart d1 d2.
Proof. intros [H1 H2]%orb_false_iff. split; by apply not_below. Qed.

Ltac wx_case H := apply wx_planned in H as [-> | ->].

Lemma wx_in d : d ∈ wx_dirs -> forall q, below d q = true -> in_some wx_dirs q.
Proof. intros Hd q H. exists d. split; [done|]. by apply below_spec. Qed.

Lemma wx_setting_ok : setting_ok wx wx_job toy_name wx_dirs.
Proof.
  split.
  - intros p H. apply (r_nameb_all ["a"; "b"]); [vm_compute; reflexivity|]. wx_case H; set_solver.
  - intros p k c H E. wx_case H; destruct k; vm_compute in E; injection E as <-; vm_compute; reflexivity.
  - intros p H. wx_case H; vm_compute; repeat split; done.
  - vm_compute. done.
  - intros d H. unfold wx_dirs in H. apply elem_of_cons in H as [-> | H]; [by apply wx_apart|].
    apply elem_of_list_singleton in H as ->. by apply wx_apart.
  - intros p H. apply (wx_in ["tmp"]); [set_solver|]. done.
  - intros p p' H H' Hne. wx_case H; wx_case H'; try done; by apply wx_apart.
  - intros p H. apply (wx_in ["cache"]); [set_solver|]. wx_case H; vm_compute; reflexivity.
Qed.

Lemma wx_whole_ok : whole_ok wx_conf wx_input wx wx_job wx_tarballs toy_name wx_dirs.
Proof.
  split.
  - exact wx_setting_ok.
  - done.
  - done.
  - done.
  - intros p. cbn. rewrite elem_of_list_singleton. split; [intros ->; eexists; apply lookup_singleton|].
    intros [d H]. by apply lookup_singleton_Some in H as [<- _].
  - done.
  - split.
    + intros p a H. apply elem_of_list_singleton in H as [= -> ->]. split; [|done]. apply (r_nameb_all ["t"]); [done|set_solver].
    + cbn. repeat constructor; set_solver.
    + intros p a H. by apply elem_of_list_singleton in H as [= -> ->].
    + intros p a q b H1 H2 Hne. apply elem_of_list_singleton in H1 as [= -> ->]. by apply elem_of_list_singleton in H2 as [= -> ->].
    + intros p a H. apply elem_of_list_singleton in H as [= -> ->]. by apply wx_apart.
  - intros p a H. apply elem_of_list_singleton in H as [= -> ->]. by apply (wx_in ["cache"]); [set_solver|].
Qed.

(** After a has been staged. *)
Definition wx_staged : fsys := run_ops (prepare_ops wx_conf wx_input) (fs_of wx_files).

Lemma wx_files_ok : files_ok wx wx_job wx_staged.
Proof.
  split.
  - intros p H. wx_case H; vm_compute; done.
  - intros p p' H H'. wx_case H; wx_case H'; split; apply not_below; vm_compute; reflexivity.
  - intros p p' bp H H' E. wx_case H; wx_case H'; vm_compute in E; injection E as <-; split; apply not_below; vm_compute; reflexivity.
Qed.

Lemma wx_tarballs_there : tarballs_there wx wx_job wx_tarballs wx_staged.
Proof.
  intros p a H. apply elem_of_list_singleton in H as [= -> ->]. split; [vm_compute; done|].
  split; [apply not_below; vm_compute; reflexivity|]. intros p' H'. apply not_below. wx_case H'; vm_compute; reflexivity.
Qed.

(** ** Executions of the example *)

Lemma tg_cons e Rs j s l s' ls s'' : tstep e Rs j s l s' -> together e Rs j s' ls s'' -> together e Rs j s (l ++ ls)%list s''.
Proof.
  intros H1 H2. induction H2 as [|ls s2 l2 s3 H2 IH H3].
  - rewrite app_nil_r. apply (tg_snoc _ _ _ _ [] s l s'); [constructor|done].
  - rewrite app_assoc. by eapply tg_snoc.
Qed.

Lemma mkdir_yes p f : existsb (fun a => match f a with Some (File _) => true | _ => false end) (prefixes p) = false ->
  mkdir_all p f = Some (fun q => if below q p then Some Dir else f q).
Proof. intros H. unfold mkdir_all. by rewrite H. Qed.

Ltac sched c := eapply tg_cons; [apply ts_sched; [eapply c; vm_compute; (reflexivity || lia)|done]|].
Ltac busy c := eapply tg_cons; [eapply ts_work; [apply lookup_insert|eapply c; vm_compute; reflexivity]|].

(** What the worker does until R is called to build, and from R to stamping. *)
Ltac build :=
  busy w_absent;
  eapply tg_cons; [eapply ts_work; [apply lookup_insert|eapply w_not_cached; [reflexivity|vm_compute; reflexivity]]|];
  eapply tg_cons; [eapply ts_work; [apply lookup_insert|apply w_tmp, mkdir_yes; vm_compute; reflexivity]|];
  eapply tg_cons; [eapply ts_work; [apply lookup_insert|eapply w_call; [reflexivity|vm_compute; reflexivity]]|].
Ltac r_good :=
  eapply tg_cons; [eapply ts_work; [apply lookup_insert|eapply w_r; [reflexivity|]];
    split; [reflexivity|]; exists 0%Z; split; [apply toy_good; [vm_compute; reflexivity|vm_compute; set_solver]|reflexivity]|];
  eapply tg_cons; [eapply ts_work; [apply lookup_insert|eapply w_r_ok; [reflexivity|]];
    left; split; [reflexivity|]; intros _; vm_compute; reflexivity|];
  eapply tg_cons; [eapply ts_work; [apply lookup_insert|eapply w_stamp; reflexivity]|cbn [after_install]].
Ltac use_binary :=
  eapply tg_cons; [eapply ts_work; [apply lookup_insert|eapply w_clean]|cbn [negb andb Z.eqb]];
  eapply tg_cons; [eapply ts_work; [apply lookup_insert|eapply w_ball; [reflexivity|vm_compute; reflexivity]]|];
  eapply tg_cons; [eapply ts_work; [apply lookup_insert|eapply w_call; [reflexivity|vm_compute; reflexivity]]|].
Ltac finish x := eapply tg_cons; [eapply ts_finish with (r := x); [apply lookup_insert|constructor|apply work_finish with (w1 := [])]|
  cbn [app to_copy]].
Ltac ball := match goal with |- context [ball_for wx ?p] => let b := eval vm_compute in (ball_for wx p) in change (ball_for wx p) with b end.
Ltac copy :=
  cbn [to_copy app];
  eapply tg_cons; [eapply ts_copy with (C1 := []) (C2 := []);
    eapply (cp_done _ _ _ _ "binary"); [vm_compute; reflexivity|vm_compute; reflexivity|vm_compute; discriminate]|cbn [app]].
Ltac post := eapply tg_cons; [apply ts_sched; [apply work_post with (w1 := []); vm_compute; lia|done]|cbn [app]].

Lemma add_one R s pkgr lib n a f f' :
  let c := {| rc_dir := removelast (ad_path a); rc_library := lib; rc_build := true; rc_source := ad_path a |} in
  fs_exists f (ad_path a) = true -> R c f = (0%Z, f') ->
  install_additional R s pkgr lib [(n, a)] f = (false, write_description s (additional_request lib pkgr n a) lib f', [c]).
Proof. intros c H1 H2. cbn [install_additional]. unfold install. rewrite H1. cbn [negb]. fold c. by rewrite H2. Qed.

Ltac one_good :=
  unfold tinitial, initial, wx_job; cbn [j_starting j_workers replicate];
  sched main_add; sched main_send; sched req_mark; sched req_push;
  (eapply tg_cons; [apply ts_start, work_start with (w1 := [])|cbn [app]]);
  sched main_wait;
  build; r_good; use_binary; r_good; ball; finish (ROk true); copy; post;
  (eapply tg_cons; [apply ts_sched; [apply upd_ok|done]|]); change (dependents _ "a") with ["b"];
  sched upd_suggest; sched upd_send; sched req_mark; sched req_push; sched upd_copied; sched upd_done;
  (eapply tg_cons; [apply ts_start, work_start with (w1 := [])|cbn [app]]).

Ltac at_end :=
  match goal with |- context [State MWait ?w] => change w with 0%Z end;
  sched main_woken;
  (eapply tg_cons; [apply ts_sched; [apply main_return|done]|]); constructor.

(** a has been installed, R is about to build b. *)
Example C97_example : job_ok wx_job /\ setting_ok wx wx_job toy_name wx_dirs /\ rs_only (toy_process []) toy_name /\
  exists ls st, together wx (toy_process []) wx_job (tinitial _ wx_job wx_staged) ls st /\
    t_work st !! "b" = Some (WRun Build None) /\
    wx_staged ["lib"; "a"] = None /\ t_fs st ["lib"; "a"; "DESCRIPTION"] = Some (File "a new") /\
    t_fs st ["lib"; "z"; "DESCRIPTION"] = Some (File "z old") /\ t_fs st ["lib"; "b"] = None /\
    t_fs st ["cache"; "r-"; "binary"; "4.0"; "a_2.0_R_x.tar.gz"] = Some (File "binary") /\
    t_fs st ["tmp"; "b"] = Some Dir /\ scratch ["lib"] wx_dirs ["a"; "b"] ["tmp"; "b"].
Proof.
  split; [exact wx_job_ok|]. split; [exact wx_setting_ok|]. split; [apply toy_rs_only|].
  eexists _, _. split.
  - one_good. build. constructor.
  - split; [apply lookup_insert|]. split; [vm_compute; reflexivity|]. split; [vm_compute; reflexivity|].
    split; [vm_compute; reflexivity|]. split; [vm_compute; reflexivity|]. split; [vm_compute; reflexivity|].
    split; [vm_compute; reflexivity|]. left. apply (wx_in ["tmp"]); [set_solver|done].
Qed.

Example C98_example : job_ok wx_job /\ setting_ok wx wx_job toy_name wx_dirs /\ rs_only (toy_process []) toy_name /\
  rs_installs (toy_process []) toy_name /\ files_ok wx wx_job wx_staged /\ rs_live (toy_process []) /\
  rs_bounded (toy_process []) (fun x => match x with None => 1 | Some _ => 0 end) /\
  depends_on wx_job "b" "a" /\
  exists ls st, together wx (toy_process []) wx_job (tinitial _ wx_job wx_staged) ls st /\
    returned (t_sched st) None /\ t_fs st ["lib"; "a"] = Some Dir /\ t_fs st ["lib"; "b"] = Some Dir.
Proof.
  split; [exact wx_job_ok|]. split; [exact wx_setting_ok|]. split; [apply toy_rs_only|]. split; [apply toy_rs_installs|].
  split; [exact wx_files_ok|]. split; [apply toy_rs_live|]. split; [apply toy_rs_bounded|]. split; [by apply wx_depends|].
  eexists _, _. split.
  - one_good. build. r_good. use_binary. r_good. ball. finish (ROk true). copy. post.
    eapply tg_cons; [apply ts_sched; [apply upd_ok|done]|]. change (dependents _ "b") with (@nil string).
    sched upd_copied. sched upd_done. at_end.
  - split; [reflexivity|]. split; vm_compute; reflexivity.
Qed.

(** Everything can be installed. *)
Example C99_example :
  run_ok wx_conf wx_input (fs_of wx_files) /\ job_ok wx_job /\ whole_ok wx_conf wx_input wx wx_job wx_tarballs toy_name wx_dirs /\
  rs_only (toy_process []) toy_name /\ rs_installs (toy_process []) toy_name /\ r_only (toy []) (fun _ => toy_name) /\
  r_trees (toy []) /\ r_installs (toy []) (fun _ => toy_name) /\
  only_in (leftovers wx wx_input wx_dirs) (run_ops (prepare_ops wx_conf wx_input) (fs_of wx_files)) wx_staged /\
  files_ok wx wx_job wx_staged /\ tarballs_there wx wx_job wx_tarballs wx_staged /\ replaced wx_conf wx_input "a" /\
  exists f3, installs wx (toy_process []) wx_job (toy []) wx_tarballs wx_staged false false f3 /\
    let w := RunWorld false (fun _ => f3) false false in
    rt_outcome (r_install wx_conf wx_input w (fs_of wx_files)) = Exit 0 /\
    let g := run_final wx_conf wx_input w (fs_of wx_files) in
    g ["lib"; "a"; "DESCRIPTION"] = Some (File "a new") /\ g ["lib"; "a"; "R"] = None /\ g ["lib"; "b"] = Some Dir /\
    g ["lib"; "t"] = Some Dir /\ g ["lib"; "__OLD__a"] = None /\ g ["lib"; "z"; "DESCRIPTION"] = Some (File "z old") /\
    g ["mine"] = Some (File "mine").
Proof.
  split; [exact wx_run_ok|]. split; [exact wx_job_ok|]. split; [exact wx_whole_ok|]. split; [apply toy_rs_only|].
  split; [apply toy_rs_installs|]. split; [apply toy_r_only|]. split; [apply toy_trees|]. split; [apply toy_installs|].
  split; [split; done|]. split; [exact wx_files_ok|]. split; [exact wx_tarballs_there|].
  split.
  { left. split; [done|]. split; [vm_compute; set_solver|]. eexists. split; [by left|done]. }
  eexists. split.
  - eapply (installs_all _ _ _ _ _ _ _ _ None).
    + one_good. build. r_good. use_binary. r_good. ball. finish (ROk true). copy. post.
      eapply tg_cons; [apply ts_sched; [apply upd_ok|done]|]. change (dependents _ "b") with (@nil string).
      sched upd_copied. sched upd_done. at_end.
    + reflexivity.
    + reflexivity.
    + reflexivity.
    + apply add_one; [vm_compute; reflexivity|]. apply toy_good; [vm_compute; reflexivity|vm_compute; set_solver].
  - cbn zeta. split; [vm_compute; reflexivity|]. split; [vm_compute; reflexivity|]. split; [vm_compute; reflexivity|].
    split; [vm_compute; reflexivity|]. split; [vm_compute; reflexivity|]. split; [vm_compute; reflexivity|].
    split; vm_compute; reflexivity.
Qed.

(** R fails on b; a and t, which have been installed, are taken back. *)
Example C100_example :
  run_ok wx_conf wx_input (fs_of wx_files) /\ job_ok wx_job /\ whole_ok wx_conf wx_input wx wx_job wx_tarballs toy_name wx_dirs /\
  rs_only (toy_process ["b"]) toy_name /\ r_only (toy ["b"]) (fun _ => toy_name) /\ r_trees (toy ["b"]) /\
  only_in (leftovers wx wx_input wx_dirs) (run_ops (prepare_ops wx_conf wx_input) (fs_of wx_files)) wx_staged /\
  no_stale_backups wx_conf wx_input (fs_of wx_files) /\ new_are_absent wx_conf wx_input (fs_of wx_files) /\
  (forall p, updated wx_conf wx_input p -> ~ overwritten wx_input p) /\
  exists f3, installs wx (toy_process ["b"]) wx_job (toy ["b"]) wx_tarballs wx_staged true false f3 /\
    f3 ["lib"; "a"; "DESCRIPTION"] = Some (File "a new") /\ f3 ["lib"; "t"] = Some Dir /\ f3 ["lib"; "b"] = None /\
    let g := run_final wx_conf wx_input (RunWorld false (fun _ => f3) true false) (fs_of wx_files) in
    g ["lib"; "a"; "DESCRIPTION"] = Some (File "a old") /\ g ["lib"; "a"; "R"] = Some (File "code") /\ g ["lib"; "t"] = None /\
    g ["lib"; "__OLD__a"] = None /\ g ["tmp"; "b"; "00LOCK-b"] = Some Dir.
Proof.
  split; [exact wx_run_ok|]. split; [exact wx_job_ok|]. split; [exact wx_whole_ok|]. split; [apply toy_rs_only|].
  split; [apply toy_r_only|]. split; [apply toy_trees|]. split; [split; done|].
  split; [apply (no_staleb_sound _ _ _ wx_run_ok); vm_compute; reflexivity|].
  split; [apply new_absentb_sound; vm_compute; reflexivity|].
  split; [apply (disjointb_sound _ _ _ wx_run_ok); vm_compute; reflexivity|].
  eexists. split.
  - eapply (installs_all _ _ _ _ _ _ _ _ (Some ["b"])).
    + one_good. build.
      eapply tg_cons; [eapply ts_work; [apply lookup_insert|eapply w_r; [reflexivity|]];
        split; [reflexivity|]; exists 1%Z; split; [apply toy_bad; [vm_compute; reflexivity|vm_compute; set_solver]|reflexivity]|].
      eapply tg_cons; [eapply ts_work; [apply lookup_insert|eapply w_r_fail with (code := 1%Z); [reflexivity|left; done|done]]|cbn [after_install]].
      eapply tg_cons; [eapply ts_work; [apply lookup_insert|eapply w_clean]|cbn [negb andb Z.eqb]].
      finish RFail. post.
      eapply tg_cons; [apply ts_sched; [apply upd_failed|done]|]. sched upd_done. at_end.
    + reflexivity.
    + reflexivity.
    + reflexivity.
    + apply add_one; [vm_compute; reflexivity|]. apply toy_good; [vm_compute; reflexivity|vm_compute; set_solver].
  - split; [vm_compute; reflexivity|]. split; [vm_compute; reflexivity|]. split; [vm_compute; reflexivity|].
    cbn zeta. split; [vm_compute; reflexivity|]. split; [vm_compute; reflexivity|]. split; [vm_compute; reflexivity|].
    split; vm_compute; reflexivity.
Qed.

(** The hypothesis on the files in C98 is needed: when the source of b is gone, b is
    taken to be installed. *)
Theorem C98_missing_file_refuted : exists e Rs j name ds f ls st,
  job_ok j /\ setting_ok e j name ds /\ rs_only Rs name /\ rs_installs Rs name /\ tree_ok f /\
  together e Rs j (tinitial _ j f) ls st /\ returned (t_sched st) None /\
  in_plan j "b" /\ t_fs st (e_library e ++ ["b"])%list = None.
Proof.
  exists wx, (toy_process []), wx_job, toy_name, wx_dirs, (fs_of (take 2 wx_files ++ take 5 (drop 7 wx_files) ++ drop 13 wx_files)%list).
  eexists _, _. split; [exact wx_job_ok|]. split; [exact wx_setting_ok|]. split; [apply toy_rs_only|]. split; [apply toy_rs_installs|].
  split; [apply tree_okb_sound; vm_compute; reflexivity|]. split.
  - one_good. busy w_absent.
    eapply tg_cons; [eapply ts_work; [apply lookup_insert|eapply w_not_cached; [reflexivity|vm_compute; reflexivity]]|].
    eapply tg_cons; [eapply ts_work; [apply lookup_insert|apply w_tmp, mkdir_yes; vm_compute; reflexivity]|].
    eapply tg_cons; [eapply ts_work; [apply lookup_insert|eapply w_no_file; [reflexivity|vm_compute; reflexivity]]|cbn [after_install]].
    eapply tg_cons; [eapply ts_work; [apply lookup_insert|eapply w_clean]|cbn [negb andb Z.eqb]].
    finish (ROk true). post.
    eapply tg_cons; [apply ts_sched; [apply upd_ok|done]|]. change (dependents _ "b") with (@nil string).
    sched upd_copied. sched upd_done. at_end.
  - split; [reflexivity|]. split; [right; exists ["a"]; apply lookup_singleton|]. vm_compute. reflexivity.
Qed.

(** C100: a directory of the user called like a package to install, but without a
    DESCRIPTION, is deleted with its contents when the run fails. *)
Definition wj_files : list (list string * node) := (wx_files ++ [(["lib"; "t"], Dir); (["lib"; "t"; "notes"], File "notes")])%list.
Definition wj_staged : fsys := run_ops (prepare_ops wx_conf wx_input) (fs_of wj_files).

Lemma wj_run_ok : run_ok wx_conf wx_input (fs_of wj_files).
Proof.
  split.
  - apply r_nameb_all. vm_compute. reflexivity.
  - done.
  - cbn. repeat constructor; set_solver.
  - cbn. repeat constructor; set_solver.
  - intros x Hx. cbn in Hx. apply elem_of_list_singleton in Hx as ->. eexists. vm_compute. reflexivity.
  - apply tree_okb_sound. vm_compute. reflexivity.
  - split; [done|]. intros H. exfalso. apply H. vm_compute. reflexivity.
  - intros p [d Hd]. cbn in Hd. unfold wx_found in Hd. apply lookup_singleton_Some in Hd as [<- _]. vm_compute. reflexivity.
Qed.

Theorem C100_unreadable_dir_refuted : exists c i e Rs j R l name ds f fd pe ae f3 q,
  run_ok c i f /\ job_ok j /\ whole_ok c i e j l name ds /\
  rs_only Rs name /\ r_only R (fun _ => name) /\ r_trees R /\
  only_in (leftovers e i ds) (run_ops (prepare_ops c i) f) fd /\
  installs e Rs j R l fd pe ae f3 /\ (pe = true \/ ae = true) /\
  ip_create_library (ri_plan i) = false /\ rc_no_rollback c = false /\
  no_stale_backups c i f /\ (forall p, updated c i p -> ~ overwritten i p) /\
  ~ leftovers e i ds q /\ f q = Some (File "notes") /\
  run_final c i (RunWorld false (fun _ => f3) pe ae) f q = None.
Proof.
  exists wx_conf, wx_input, wx, (toy_process ["b"]), wx_job, (toy ["b"]), wx_tarballs, toy_name, wx_dirs, (fs_of wj_files), wj_staged, true, false.
  eexists. exists ["lib"; "t"; "notes"].
  split; [exact wj_run_ok|]. split; [exact wx_job_ok|]. split; [exact wx_whole_ok|]. split; [apply toy_rs_only|].
  split; [apply toy_r_only|]. split; [apply toy_trees|]. split; [split; done|].
  split.
  - eapply (installs_all _ _ _ _ _ _ _ _ (Some ["b"])).
    + one_good. build.
      eapply tg_cons; [eapply ts_work; [apply lookup_insert|eapply w_r; [reflexivity|]];
        split; [reflexivity|]; exists 1%Z; split; [apply toy_bad; [vm_compute; reflexivity|vm_compute; set_solver]|reflexivity]|].
      eapply tg_cons; [eapply ts_work; [apply lookup_insert|eapply w_r_fail with (code := 1%Z); [reflexivity|left; done|done]]|cbn [after_install]].
      eapply tg_cons; [eapply ts_work; [apply lookup_insert|eapply w_clean]|cbn [negb andb Z.eqb]].
      finish RFail. post.
      eapply tg_cons; [apply ts_sched; [apply upd_failed|done]|]. sched upd_done. at_end.
    + reflexivity.
    + reflexivity.
    + reflexivity.
    + apply add_one; [vm_compute; reflexivity|]. apply toy_good; [vm_compute; reflexivity|vm_compute; set_solver].
  - split; [by left|]. split; [done|]. split; [done|].
    split; [apply (no_staleb_sound _ _ _ wj_run_ok); vm_compute; reflexivity|].
    split; [apply (disjointb_sound _ _ _ wj_run_ok); vm_compute; reflexivity|].
    split; [|split; vm_compute; reflexivity].
    intros [(d & Hd & Hq)|[(p & _ & Hq)|(d & Hd & Hq & _)]].
    + unfold wx_dirs in Hd. apply elem_of_cons in Hd as [-> | Hd]; [|apply elem_of_list_singleton in Hd as ->];
        destruct Hq as [r Hq]; discriminate Hq.
    + destruct Hq as [r Hq]. discriminate Hq.
    + unfold wx_dirs in Hd. apply elem_of_cons in Hd as [-> | Hd]; [|apply elem_of_list_singleton in Hd as ->];
        destruct Hq as [r Hq]; discriminate Hq.
Qed.

Print Assumptions C97_frame.
Print Assumptions C97_alone.
Print Assumptions C98_installed.
Print Assumptions C98_ends_partial.
Print Assumptions C99_whole_run.
Print Assumptions C99_request_installed.
Print Assumptions C100_whole_run_undone_partial.
Print Assumptions C98_missing_file_refuted.
Print Assumptions C100_unreadable_dir_refuted.
