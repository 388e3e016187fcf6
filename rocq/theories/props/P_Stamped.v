(** C143: the DESCRIPTION of a package tells how it was installed. *)
From stdpp Require Import strings list gmap.
From Coq Require Import Ascii ZArith Lia.
From Verif.model Require Import GoStr Version Desc Nexus RepoDb Pacman Graph Plan Fs Rollback Stamp Yml Sched Install Download Tarballs Together.
From Verif.spec Require Import RepoSpec GraphSpec PlanSpec SchedSpec LibSpec InstallSpec TarballSpec TogetherSpec StampSpec StampedSpec.
From Verif.proofs Require Import GraphProofs PlanProofs PlanProps FsProofs RollbackProofs RunProofs RunProps RunLink ExampleWorlds RunProps2
  TarballProofs SchedProofs SchedProps SchedLink TogetherProofs WholeProofs TogetherEnd StampedProofs ToyR.
From Verif.props Require Import P_Graph P_Library P_Sched P_Together.

Local Open Scope string_scope.

(** During the concurrent installation of a plan: from the moment that its installation
    succeeded, the DESCRIPTION of a package that was not in the library tells all.  Full
    statement: for every R.  It is refuted below for an R that leaves a DESCRIPTION that
    cannot be read. *)
Theorem C143_concurrent_partial : forall e Rs j name ds f ls st p c,
  job_ok j -> setting_ok e j name ds -> rs_only Rs name -> rs_installs Rs name -> rs_describes Rs name (s_read (e_where e)) ->
  tree_ok f -> files_ok e j f -> together e Rs j (tinitial _ j f) ls st ->
  Finish p (ROk c) ∈ ls -> f (e_library e ++ [p])%list <> Some Dir ->
  tells e j f (t_fs st) p.
Proof.
  intros e Rs j name ds f ls st p c Hj Ho HR HI HD HT HF Ht Hp Hf.
  destruct (v_done _ _ _ _ _ _ (together_inv3 e Rs j name ds f Hj Ho HR HI HD HT HF ls st Ht) p c Hp) as [H|H]; [done|].
  by apply told_tells.
Qed.
Print Assumptions C143_concurrent_partial.

(** What a run has to put into the library: it is not there, or it is replaced. *)
Definition comes_new (c : run_config) (i : run_input) (f : fsys) (p : string) : Prop :=
  f (Rollback.rc_library c ++ [p])%list = None \/
  (replaced c i p /\ f (Rollback.rc_library c ++ [backup_of p])%list = None).

Lemma staged_absent c i f p : run_ok c i f -> r_name p -> f (Rollback.rc_library c ++ [p])%list = None ->
  run_ops (prepare_ops c i) f (Rollback.rc_library c ++ [p])%list = None.
Proof.
  intros Hrun Hn Hf. destruct (ip_create_library (ri_plan i)) eqn:Hc.
  - destruct (create_nothing c i f Hrun Hc) as (Nu & No & _). rewrite (prepare_eq c i f Hrun), Hc, Nu, No. cbn.
    destruct (mkdir_all (Rollback.rc_library c) f) as [g|] eqn:Eg; [|done]. cbn. destruct (mkdir_some _ _ _ Eg) as [G1 _]. rewrite G1.
    destruct (below (Rollback.rc_library c ++ [p])%list (Rollback.rc_library c)) eqn:E; [|done]. exfalso.
    apply below_spec in E as [z E]. apply (f_equal length) in E. rewrite !app_length in E. cbn in E. lia.
  - rewrite <- Hf. apply (f1_other c i f Hrun Hc).
    + intros H. apply (replaced_dir c i f Hrun) in H. congruence.
    + intros q _. by apply name_not_backup.
Qed.

(** A whole run without errors: of each package that it has to put into the library, at
    its end. *)
Theorem C143_run_partial : forall c i e Rs j R l name ds f fd f3,
  run_ok c i f -> job_ok j -> whole_ok c i e j l name ds ->
  rs_only Rs name -> rs_installs Rs name -> r_only R (fun _ => name) -> r_trees R ->
  rs_describes Rs name (s_read (e_where e)) -> r_describes R name (s_read (e_where e)) ->
  only_in (leftovers e i ds) (run_ops (prepare_ops c i) f) fd -> files_ok e j fd -> tarballs_there e j l fd ->
  installs e Rs j R l fd false false f3 ->
  let w := RunWorld false (fun _ => f3) false false in
  let g := run_final c i w f in
  rt_outcome (r_install c i w f) = Exit 0 ->
  (forall p, in_plan j p -> p ∉ ri_additional i -> comes_new c i f p -> tells e j fd g p) /\
  (forall p a, (p, a) ∈ l -> says g (e_library e) p (e_pkgr e) "source" (path_text (ad_path a)) "IndividualPackage").
Proof.
  intros c i e Rs j R l name ds f fd f3 Hrun Hj Hwh HR HI HR2 HT HD HD2 Hd Hf Htb Hi w g Ho.
  pose proof (WholeProofs.exit_library c i f Hrun _ Ho) as Hlib.
  pose proof (whole_frame c i e Rs j R l name ds f Hrun Hj Hwh HR HR2 HT fd false false f3 Hlib Hd Hi) as Hw.
  destruct (C36_success_partial c i _ _ f Hrun Hw ltac:(by intros [?|?]) Ho) as (S1 & _ & S3).
  pose proof (ho_library _ _ _ _ _ _ _ Hwh) as El. pose proof (ho_installable _ _ _ _ _ _ _ Hwh) as Hin.
  pose proof (ho_setting _ _ _ _ _ _ _ Hwh) as Hset.
  assert (tree_ok fd) as T by (apply Hd, (staged_tree c i f Hrun)).
  remember false as pe eqn:Epe in Hi at 1. remember false as ae eqn:Eae in Hi.
  destruct Hi as [ls st errs ae f3 t Ht Hstop Hcp Hret Ha]. destruct errs; [done|]. subst ae.
  assert (forall p a, (p, a) ∈ l -> t_fs st (ad_path a) <> None) as Hth.
  { intros p' a' Hpa. destruct (Htb p' a' Hpa) as (H1 & H2 & H3). by eapply (together_keeps e Rs j name ds Hj Hset HR). }
  assert (forall p, p ∈ required i -> g (e_library e ++ [p; "DESCRIPTION"])%list = f3 (e_library e ++ [p; "DESCRIPTION"])%list) as Hg.
  { intros p Hp. rewrite El. apply (S1 p Hp ["DESCRIPTION"]). }
  split.
  - intros p Hp Hna Hnew. assert (r_name p) as Hn by (apply Hrun; by eapply planned_required).
    assert (fd (e_library e ++ [p])%list <> Some Dir) as Hfd.
    { destruct Hd as [D1 _]. rewrite D1, El.
      - destruct Hnew as [Hnew|[Hr Hb]].
        + rewrite (staged_absent c i f p); done.
        + specialize (S3 p Hr Hb []). congruence.
      - rewrite El. intros H. unfold leftovers in H.
        pose proof (scratch_fine e j name ds Hset (required i)) as Hsc. apply Hsc in H as [_ H].
        by destruct (H p [] ltac:(by rewrite El)). }
    assert (exists c0, Finish p (ROk c0) ∈ ls) as [c0 Hc0].
    { eapply success_all; [done|exact (i_exec _ _ _ _ _ _ (together_inv e Rs j name ds Hj Hset HR fd ls st T Ht))|done|done]. }
    pose proof (C143_concurrent_partial e Rs j name ds fd ls st p c0 Hj Hset HR HI HD T Hf Ht Hc0 Hfd) as (ty & K1 & K2).
    exists ty. split; [|done]. eapply says_same; [|exact K1]. rewrite Hg by by eapply planned_required.
    destruct (decide (f3 (e_library e ++ [p; "DESCRIPTION"])%list = t_fs st (e_library e ++ [p; "DESCRIPTION"])%list)) as [|E]; [done|exfalso].
    destruct (additional_frame R (fun _ => name) (e_where e) (e_pkgr e) (e_library e) HR2 l _ _ _ _ _ Hin Ha E) as (p' & a & Hpa & [[z K]|[[z K]|K]]).
    + rewrite <- app_assoc in K. apply app_inv_head in K. injection K as -> _. apply Hna. by eapply tarball_required.
    + rewrite <- app_assoc in K. apply app_inv_head in K. injection K as -> _. by apply (lock_not_name _ p') in Hn.
    + destruct (some_not_lib e j name ds Hset _ (e_library e ++ [p; "DESCRIPTION"])%list (ho_unpacked _ _ _ _ _ _ _ Hwh p' a Hpa)) as [H _];
        [by eexists|done].
  - intros p a Hpa. eapply says_same; [|by eapply (additional_says R name (e_where e) (e_pkgr e) (e_library e) HR2 HD2 l)].
    apply Hg. by eapply tarball_required.
Qed.
Print Assumptions C143_run_partial.

(** ** Example: the run of C99, in which DESCRIPTION files can be read. *)
Definition wy : Together.setting := {|
  e_downloads := {["a" := wx_download "a" "2.0"; "b" := wx_download "b" "1.0"]}; e_library := ["lib"]; e_pkgr := "3.0";
  e_rversion := RVersion 4 0 5; e_platform := "x";
  e_where := {| s_cwd := ["home"]; s_tmp := ["tmp"]; s_cache := ["cache"]; s_os := Linux; s_md5 := fun _ => "";
                s_read := fun c => Some (scan_lines c) |};
  e_tmp := fun p => ["tmp"; p]
|}.

Lemma wy_setting_ok : setting_ok wy wx_job toy_name wx_dirs.
Proof. destruct wx_setting_ok as [H1 H2 H3 H4 H5 H6 H7 H8]. by constructor. Qed.

Lemma wy_whole_ok : whole_ok wx_conf wx_input wy wx_job wx_tarballs toy_name wx_dirs.
Proof. destruct wx_whole_ok as [_ H2 H3 H4 H5 H6 H7 H8]. constructor; [exact wy_setting_ok|done..]. Qed.

Lemma wy_files_ok : files_ok wy wx_job wx_staged.
Proof. destruct wx_files_ok as [H1 H2 H3]. by constructor. Qed.

Lemma toy_describes bad read : (forall t, read t <> None) -> r_describes (toy bad) toy_name read.
Proof.
  intros Hr c f f' H. unfold toy in H. destruct (toy_can c f) eqn:Ec; [|done]. destruct (bool_decide _); [done|]. injection H as <-.
  assert (exists t, toy_new c f (toy_desc c) = Some (File t)) as [t Ht].
  { unfold toy_new. destruct (toy_builds c (toy_put c f)).
    - unfold set_node at 1. destruct (bool_decide _); [by eexists|]. unfold toy_put, set_node. rewrite bool_decide_eq_true_2; [by eexists|done].
    - unfold toy_put, set_node. rewrite bool_decide_eq_true_2; [by eexists|done]. }
  destruct (read t) as [lines|] eqn:E; [|by apply Hr in E]. exists t, lines. split; [|done].
  rewrite <- Ht. unfold toy_desc, toy_dir. by rewrite <- app_assoc.
Qed.

(** R, which looks at its work before it ends with status 0. *)
Definition toy_checked : rsystem := {|
  rs_state := option Z; rs_init := fun _ => None;
  rs_step := fun c x f x' f' => x = None /\ exists code, toy [] c f = (code, f') /\ x' = Some code;
  rs_exit := fun c x f code => x = Some code /\
    (code = 0%Z -> f (toy_dir c) = Some Dir /\ exists t, f (toy_desc c) = Some (File t))
|}.

Lemma toy_checked_only : rs_only toy_checked toy_name.
Proof. intros c x f x' f' H. by apply (toy_rs_only [] c x f x' f'). Qed.

Lemma toy_checked_installs : rs_installs toy_checked toy_name.
Proof. intros c x f [_ H]. by apply H. Qed.

Lemma toy_checked_describes read : (forall t, read t <> None) -> rs_describes toy_checked toy_name read.
Proof.
  intros Hr c x f [_ H]. destruct (H eq_refl) as (_ & t & Ht). destruct (read t) as [lines|] eqn:E; [|by apply Hr in E].
  exists t, lines. split; [|done]. rewrite <- Ht. unfold toy_desc, toy_dir. by rewrite <- app_assoc.
Qed.

Ltac y_good :=
  eapply tg_cons; [eapply ts_work; [apply lookup_insert|eapply w_r; [reflexivity|]];
    split; [reflexivity|]; exists 0%Z; split; [apply toy_good; [vm_compute; reflexivity|vm_compute; set_solver]|reflexivity]|];
  eapply tg_cons; [eapply ts_work; [apply lookup_insert|eapply w_r_ok; [reflexivity|]];
    split; [reflexivity|]; intros _; split; [vm_compute; reflexivity|eexists; vm_compute; reflexivity]|];
  eapply tg_cons; [eapply ts_work; [apply lookup_insert|eapply w_stamp; reflexivity]|cbn [after_install]].
Ltac y_ball := match goal with |- context [ball_for wy ?p] => let b := eval vm_compute in (ball_for wy p) in change (ball_for wy p) with b end.

(** a and b are installed from source; t comes from a tarball. *)
Example C143_example :
  run_ok wx_conf wx_input (fs_of wx_files) /\ job_ok wx_job /\ whole_ok wx_conf wx_input wy wx_job wx_tarballs toy_name wx_dirs /\
  rs_only toy_checked toy_name /\ rs_installs toy_checked toy_name /\ r_only (toy []) (fun _ => toy_name) /\ r_trees (toy []) /\
  rs_describes toy_checked toy_name (s_read (e_where wy)) /\ r_describes (toy []) toy_name (s_read (e_where wy)) /\
  only_in (leftovers wy wx_input wx_dirs) (run_ops (prepare_ops wx_conf wx_input) (fs_of wx_files)) wx_staged /\
  files_ok wy wx_job wx_staged /\ tarballs_there wy wx_job wx_tarballs wx_staged /\
  comes_new wx_conf wx_input (fs_of wx_files) "a" /\ comes_new wx_conf wx_input (fs_of wx_files) "b" /\
  exists f3, installs wy toy_checked wx_job (toy []) wx_tarballs wx_staged false false f3 /\
    let w := RunWorld false (fun _ => f3) false false in
    rt_outcome (r_install wx_conf wx_input w (fs_of wx_files)) = Exit 0 /\
    let g := run_final wx_conf wx_input w (fs_of wx_files) in
    g ["lib"; "a"; "DESCRIPTION"] = Some (File (write_lines ["a new"; "PkgrVersion: 3.0"; "PkgrInstallType: source"; "PkgrRepositoryURL: u"])) /\
    g ["lib"; "b"; "DESCRIPTION"] = Some (File (write_lines ["b new"; "PkgrVersion: 3.0"; "PkgrInstallType: source"; "PkgrRepositoryURL: u"])) /\
    g ["lib"; "t"; "DESCRIPTION"] =
      Some (File (write_lines ["t new"; "PkgrVersion: 3.0"; "PkgrInstallType: source"; "PkgrRepositoryURL: /cache/h/t"])).
Proof.
  split; [exact wx_run_ok|]. split; [exact wx_job_ok|]. split; [exact wy_whole_ok|]. split; [exact toy_checked_only|].
  split; [exact toy_checked_installs|]. split; [apply toy_r_only|]. split; [apply toy_trees|].
  split; [by apply toy_checked_describes|]. split; [by apply toy_describes|]. split; [split; done|].
  split; [exact wy_files_ok|]. split; [exact wx_tarballs_there|].
  split.
  { right. split; [|vm_compute; reflexivity]. left. split; [done|]. split; [vm_compute; set_solver|]. eexists. split; [by left|done]. }
  split; [left; vm_compute; reflexivity|].
  eexists. split.
  - eapply (installs_all _ _ _ _ _ _ _ _ None).
    + unfold tinitial, initial, wx_job. cbn [j_starting j_workers replicate].
      sched main_add. sched main_send. sched req_mark. sched req_push.
      eapply tg_cons; [apply ts_start, work_start with (w1 := [])|cbn [app]].
      sched main_wait. build. y_good. use_binary. y_good. y_ball. finish (ROk true). copy. post.
      eapply tg_cons; [apply ts_sched; [apply upd_ok|done]|]. change (dependents _ "a") with ["b"].
      sched upd_suggest. sched upd_send. sched req_mark. sched req_push. sched upd_copied. sched upd_done.
      eapply tg_cons; [apply ts_start, work_start with (w1 := [])|cbn [app]].
      build. y_good. use_binary. y_good. y_ball. finish (ROk true). copy. post.
      eapply tg_cons; [apply ts_sched; [apply upd_ok|done]|]. change (dependents _ "b") with (@nil string).
      sched upd_copied. sched upd_done. at_end.
    + reflexivity.
    + reflexivity.
    + reflexivity.
    + apply add_one; [vm_compute; reflexivity|]. apply toy_good; [vm_compute; reflexivity|vm_compute; set_solver].
  - cbn zeta. split; [vm_compute; reflexivity|]. split; [vm_compute; reflexivity|]. split; vm_compute; reflexivity.
Qed.
Print Assumptions C143_example.

(** The same with a binary of a in the cache: the DESCRIPTION of a says so, though the
    plan has the source. *)
Definition wb_staged : fsys := set_node ["cache"; "r-"; "binary"; "4.0"; "a_2.0_R_x.tar.gz"] (File "binary") wx_staged.

Example C143_example_cached :
  wy.(e_where).(s_os) = Linux /\ w_type (d_wanted (download_of wy "a")) = STSource /\
  cache_path (surroundings_for wy "a") (request_for wy "a") = Some ["cache"; "r-"; "binary"; "4.0"; "a_2.0_R_x.tar.gz"] /\
  exists ls st, together wy toy_checked wx_job (tinitial _ wx_job wb_staged) ls st /\ Finish "a" (ROk true) ∈ ls /\
    t_fs st ["lib"; "a"; "DESCRIPTION"] =
      Some (File (write_lines ["a new"; "PkgrVersion: 3.0"; "PkgrInstallType: binary"; "PkgrRepositoryURL: u"])).
Proof.
  split; [done|]. split; [vm_compute; reflexivity|]. split; [vm_compute; reflexivity|].
  eexists _, _. split.
  - unfold tinitial, initial, wx_job. cbn [j_starting j_workers replicate].
    sched main_add. sched main_send. sched req_mark. sched req_push.
    eapply tg_cons; [apply ts_start, work_start with (w1 := [])|cbn [app]].
    sched main_wait. busy w_absent.
    eapply tg_cons; [eapply ts_work; [apply lookup_insert|eapply w_cached; [reflexivity|vm_compute; reflexivity]]|].
    eapply tg_cons; [eapply ts_work; [apply lookup_insert|eapply w_call; [reflexivity|vm_compute; reflexivity]]|].
    y_good. finish (ROk true). constructor.
  - split; [cbn; set_solver|]. vm_compute. reflexivity.
Qed.
Print Assumptions C143_example_cached.

(** A DESCRIPTION that cannot be read (a line of 64 KiB, for one): the package is
    installed, the run ends without error, and nothing is said. *)
Theorem C143_unreadable_refuted : exists c i e Rs j R l name ds f fd f3,
  run_ok c i f /\ job_ok j /\ whole_ok c i e j l name ds /\
  rs_only Rs name /\ rs_installs Rs name /\ r_only R (fun _ => name) /\ r_trees R /\
  only_in (leftovers e i ds) (run_ops (prepare_ops c i) f) fd /\ files_ok e j fd /\ tarballs_there e j l fd /\
  installs e Rs j R l fd false false f3 /\
  let w := RunWorld false (fun _ => f3) false false in
  rt_outcome (r_install c i w f) = Exit 0 /\ exists p, in_plan j p /\ p ∉ ri_additional i /\ comes_new c i f p /\
    ~ tells e j fd (run_final c i w f) p.
Proof.
  destruct C99_example as (H1 & H2 & H3 & H4 & H5 & H6 & H7 & _ & H8 & H9 & H10 & H11 & f3 & H12 & H13 & H14 & _).
  exists wx_conf, wx_input, wx, (toy_process []), wx_job, (toy []), wx_tarballs, toy_name, wx_dirs, (fs_of wx_files), wx_staged, f3.
  repeat (split; [done|]). exists "a". split; [left; cbn; set_solver|]. split; [cbn; set_solver|].
  split; [right; split; [done|vm_compute; reflexivity]|].
  intros (ty & (t & body & E & Ht & _) & _). cbn [e_library wx app] in E. rewrite H14 in E. injection E as <-.
  assert (forall l s, text_of l s -> l <> [] -> In (ascii_of_nat 10) (list_ascii_of_string s)) as K.
  { intros l s Hl Hne. destruct Hl as [|x l s Hl]; [done|]. clear. induction x as [|a x IH]; [by left|]. by right. }
  apply K in Ht; [|by destruct body]. cbn in Ht. repeat destruct Ht as [Ht|Ht]; done.
Qed.
Print Assumptions C143_unreadable_refuted.
