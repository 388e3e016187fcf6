(** C166: whole runs of a command line for install. *)
From stdpp Require Import strings list gmap.
From Coq Require Import Ascii ZArith Lia.
From Verif.model Require Import GoStr Version Desc Nexus Pacman RepoDb Graph Plan Fs Rollback Stamp Yml Sched Install Download Tarballs Together Urls Fetching
  Config Start Flags Cli LoadLine InstallLine.
From Verif.spec Require Import StrSpec ConfigSpec StartSpec RepoSpec GraphSpec PlanSpec SchedSpec LibSpec DownloadSpec InstallSpec TarballSpec TogetherSpec ApartSpec
  FetchingSpec EndSpec CliSpec LineSpec LoadLineSpec LinesSpec InstallLineSpec.
From Verif.proofs Require Import GraphProofs PlanProofs PlanProps SettingsProofs FsProofs RollbackProofs RunProofs RunProps RunLink ExampleChecks ExampleWorlds RunProps2 SchedProofs SchedProps SchedLink
  DownloadProofs TogetherProofs WholeProofs TogetherEnd ToyR FetchingProofs EndProofs StartProofs CliProofs.
From Verif.props Require Import P_Graph P_Library P_Sched P_Together P_Fetching P_Cli P_Start P_Config P_Line P_Lines.

Local Open Scope string_scope.

Section lines.
Context (int : string -> option Z) (w : install_case) (e : Together.setting) (x : fetch_env) (Rs : rsystem) (R : rprog).

(** The line names the file and the library: the program works on them. *)
Lemma line_starts ts dir file lib lib' dir' s : install_line int ts -> names_file (ic_cwd w) ts dir file -> names_library w ts dir lib ->
  case_starts int w (line_of ts) dir' lib' s -> dir' = dir /\ lib' = lib /\ starts_install int (line_of ts) (ic_cpus w) (ic_vars w) (ic_keys w) s.
Proof.
  intros Hl Hf (r & Hg & Hs) (g & ws & name & l' & E & Hname & -> & -> & Hlib & ->).
  destruct Hl as [[ws' H] Hh].
  destruct (C158_meant int ["install"] ts ws' (cc_down pkgr ++ [])%list (CliCommand "install" true [] [] []) H eq_refl eq_refl) as (g2 & L2 & E2).
  rewrite bool_decide_false in E2 by done. assert (g = g2) as <- by congruence.
  destruct (named_file (ic_home w) (ic_cwd w) ts dir file Hf) as (name2 & Hname2 & _ & Hd).
  assert (first_config g = first_config (given_in ts)) as E1 by (unfold first_config; by rewrite L2).
  assert (name = name2) as <- by congruence.
  assert (l' = r) as ->.
  { assert (case_library w (flags_of int g) = Some r) as El; [|congruence]. unfold case_library, flags_of. cbn [fl_library]. rewrite L2.
    destruct Hg as [(t & H1 & H2 & H3)|[H1 [(H2 & H3 & H4 & ->)|(H2 & pre & t & post & H3 & H4 & H5 & H6 & H7)]]].
    - by apply (C70_configured _ t).
    - match goal with |- library_of ?c = _ => destruct (C70_lockfile c H1) as (K & _) end. by apply K.
    - destruct (C70_lockfile {| lc_flag := last_given "library" (given_in ts); lc_env := va_library (ic_vars w); lc_file := fi_library (ic_keys w);
        lc_lock := ic_lock w; lc_renv := ic_renv w; lc_version := ic_version w; lc_platform := ic_platform w; lc_home := ic_home w |} H1) as (_ & _ & K & _).
      by apply (K H2 pre t post). }
  split; [done|]. split; [unfold config_path; rewrite Hd; by apply resolve_stands|]. by exists g, ws.
Qed.

(** What planning gives. *)
Lemma planned_case s f lib nx ip : sound_case w -> case_plan w s f lib = PIPlan nx ip ->
  exists deps, customized w deps nx /\ nexus_ok nx /\ ~ available nx "R" /\ standard_config (cf_no_recommended (ic_file w)) deps /\
    let pkgs := plan_request (sub (ic_orders w) 0) (case_config w s) (ic_tarballs w) (ic_descriptions w) in
    (forall p, p ∈ pkgs -> available nx p) /\
    resolve_installation_reqs (sub (ic_orders w) 1) pkgs (case_found w f lib) deps nx (negb (se_no_update s)) (fs_dir_exists f lib)
      (cf_no_recommended (ic_file w)) = PlanOk ip /\
    (forall q, asked_for w deps nx q <-> closure deps nx pkgs q).
Proof.
  intros [S1 S2 S3 S4 S5] E. unfold case_plan in E.
  destruct (plan_install_cases (ic_orders w) (case_config w s) (ic_nexus w) (ic_tarballs w) (ic_descriptions w) (case_found w f lib) (fs_dir_exists f lib) S1 S2)
    as [[_ H]|(deps & nx' & Es & K1 & K2 & K3 & _ & [[_ H]|[Ha H]])]; [congruence|congruence|].
  cbn [cf_no_update cf_no_recommended case_config cf_suggests cf_packages Plan.cf_customs cf_ignore] in *.
  rewrite E in H. destruct (resolve_installation_reqs _ _ _ _ _ _ _ _) as [ip'| | |] eqn:Er; try discriminate. injection H as <- <-.
  exists deps. split; [done|]. split; [done|]. split; [done|]. split; [done|]. split; [done|]. split; [done|].
  intros q. unfold asked_for, closure. split.
  - intros (p & H1 & H2 & H3). exists p. split; [|done]. apply plan_request_spec; [by apply sub_ok|done|done|]. by split.
  - intros (p & H1 & H3). apply plan_request_spec in H1 as [H1 H2]; [|by apply sub_ok|done|done]. by exists p.
Qed.

Lemma unpacked_names add l : add ≡ₚ (map_to_list (ic_unpacked w)).*1 -> l ≡ₚ map_to_list (ic_unpacked w) -> NoDup add /\ l.*1 ≡ₚ add.
Proof. intros Ha Hl. split; [rewrite Ha; apply NoDup_fst_map_to_list|]. by rewrite Hl, Ha. Qed.

(** The facts about a run that gets to its end. *)
Lemma done_facts ts dir file lib name ds f ip keys add add' l n pe ae f' :
  install_line int ts -> names_file (ic_cwd w) ts dir file -> names_library w ts dir lib ->
  sound_case w -> tree_ok f -> lists_library f lib (ic_dirs w) ->
  sound_run w e x name ds ip keys add add' l n -> all_fetched (wants ip) (e_downloads e) ->
  (forall s, starts_install int (line_of ts) (ic_cpus w) (ic_vars w) (ic_keys w) s -> tarballs_there e (Job (ip_starting ip) (ip_depdb ip) keys n) l
     (run_ops (prepare_ops (run_conf lib s) (RunInput ip keys add add' (case_found w f lib))) f)) ->
  install_program int w e x Rs R (line_of ts) f (PDone ip keys add add' l n pe ae) f' ->
  exists s deps nx fd f3, starts_install int (line_of ts) (ic_cpus w) (ic_vars w) (ic_keys w) s /\ customized w deps nx /\
    Z.of_nat n = worker_count (se_threads s) (ic_cpus w) /\
    let c := run_conf lib s in let i := RunInput ip keys add add' (case_found w f lib) in
    let j := Job (ip_starting ip) (ip_depdb ip) keys n in
    run_ok c i f /\ job_ok j /\ whole_ok c i e j l name ds /\ only_in (leftovers e i ds) (run_ops (prepare_ops c i) f) fd /\
    files_ok e j fd /\ tarballs_there e j l fd /\ installs e Rs j R l fd pe ae f3 /\
    f' = run_final c i (RunWorld false (fun _ => f3) pe ae) f /\ rt_outcome (r_install c i (RunWorld false (fun _ => f3) pe ae) f) = Exit 0 /\
    (ip_create_library ip = negb (fs_dir_exists f lib)) /\
    (forall p, p ∈ required i <-> asked_for w deps nx p \/ is_Some (ic_unpacked w !! p)).
Proof.
  intros Hl Hf Hlib Hw Ht Hd [U1 U2 U3 U4 U5] Hall Htb Hp.
  inversion Hp as [| | | |dir' lib' s nx ip' k' a1 a2 l' n' fd pe' ae' f3 Hs Hplan Hcr Hk Ha Ha' Hll Hn He Hx Hfe Hi]; subst.
  destruct (line_starts ts dir file lib _ _ s Hl Hf Hlib Hs) as (_ & Elib & Hst). rewrite Elib in *.
  destruct (planned_case s f lib nx ip Hw Hplan) as (deps & Hc & K1 & K2 & K3 & K4 & K5 & K6). cbv zeta in K4, K5, K6.
  destruct (unpacked_names add l Ha Hll) as [Hnd Hl1].
  exists s, deps, nx, fd, f3. split; [done|]. split; [done|]. split; [done|].
  set (c := run_conf lib s). set (i := RunInput ip keys add add' (case_found w f lib)). set (j := Job (ip_starting ip) (ip_depdb ip) keys n). cbv zeta.
  pose proof (sub_ok _ 1 (sc_orders _ Hw)) as Ho.
  assert (run_ok c i f) as Hrun by (by apply (C33_planned_runs c f (ic_dirs w) nx _ (sub (ic_orders w) 1) _ deps (negb (se_no_update s)) ip keys add add' K1 K2 Ho K3 K4)).
  assert (job_ok j) as Hj by (by eapply (C41_planned_jobs nx _ (sub (ic_orders w) 1) _ _ deps); try done).
  assert (forall p, p ∈ ri_keys i <-> is_Some (ip_depdb (ri_plan i) !! p)) as Hkeys.
  { intros p. cbn [ri_keys ri_plan i]. rewrite Hk, elem_of_list_fmap. split.
    - intros ([q d] & -> & H). apply elem_of_map_to_list in H. by exists d.
    - intros [d H]. exists (p, d). split; [done|]. by apply elem_of_map_to_list. }
  assert (rt_outcome (r_install c i (RunWorld false (fun _ => f3) pe ae) f) = Exit 0) as Hout.
  { unfold r_install. cbn [ri_plan i Rollback.rc_library Rollback.rc_strict c run_conf rw_download_fails]. destruct (ip_create_library ip) eqn:Ec.
    - destruct (Hcr eq_refl) as [-> Hm]. cbn [andb]. by destruct (mkdir_all lib f).
    - done. }
  pose proof (WholeProofs.exit_library c i f Hrun _ Hout) as Hld.
  destruct (C99_downloads_cover nx _ (sub (ic_orders w) 1) _ _ deps _ _ ip keys n K1 K2 Ho K3 K4 K5) as [Hcov _].
  destruct (linked_whole c i e x (wants ip) j l name ds f fd) as (W1 & W2 & W3 & W4); try done; [by rewrite Elib|by apply Htb|].
  split; [done|]. split; [done|]. split; [done|]. split; [done|]. split; [done|]. split; [done|]. split; [done|]. split; [done|]. split; [done|]. split.
  { destruct (plan_ok_inv nx _ (sub (ic_orders w) 1) _ (case_found w f lib) deps (negb (se_no_update s)) (fs_dir_exists f lib) K1 K2 Ho K3 K4 ip K5)
      as (_ & st & ls & db & _ & _ & _ & _ & _ & _ & _ & -> & _). done. }
  destruct (C20_plan_is_closure nx _ (sub (ic_orders w) 1) _ _ deps _ _ ip K1 K2 Ho K3 K4 K5) as [P _].
  assert (forall p, p ∈ add <-> is_Some (ic_unpacked w !! p)) as Hadd.
  { intros p. rewrite Ha, elem_of_list_fmap. split.
    - intros ([q d] & -> & H). apply elem_of_map_to_list in H. by exists d.
    - intros [d H]. exists (p, d). split; [done|]. by apply elem_of_map_to_list. }
  intros p. rewrite K6, <- P, <- Hadd. unfold required, get_all_packages, planned. cbn [ri_plan ri_keys ri_additional i].
  pose proof (Hkeys p) as Hkp. cbn [ri_keys ri_plan i] in Hkp. rewrite !elem_of_app, Hkp. tauto.
Qed.

(** If there is no error, all that is asked for in the file, and what it needs, and the
    tarballs are in the library that the line, the variable or the file names; and nothing
    else changes there. *)
Theorem C166_installed : forall ts dir file lib name ds f ip keys add add' l n f',
  install_line int ts -> names_file (ic_cwd w) ts dir file -> names_library w ts dir lib ->
  sound_case w -> sound_r Rs R name -> tree_ok f -> lists_library f lib (ic_dirs w) ->
  sound_run w e x name ds ip keys add add' l n -> all_fetched (wants ip) (e_downloads e) ->
  (forall s, starts_install int (line_of ts) (ic_cpus w) (ic_vars w) (ic_keys w) s -> tarballs_there e (Job (ip_starting ip) (ip_depdb ip) keys n) l
     (run_ops (prepare_ops (run_conf lib s) (RunInput ip keys add add' (case_found w f lib))) f)) ->
  install_program int w e x Rs R (line_of ts) f (PDone ip keys add add' l n false false) f' ->
  exists deps nx, customized w deps nx /\
    (forall p, asked_for w deps nx p \/ is_Some (ic_unpacked w !! p) -> f' (lib ++ [p])%list = Some Dir) /\
    (f lib = Some Dir -> forall q, ~ in_some ds q -> (forall d, d ∈ ds -> ~ in_dir q d) ->
      (forall p y, asked_for w deps nx p \/ is_Some (ic_unpacked w !! p) -> y ∈ [p; backup_of p; "00LOCK-" +:+ p] -> ~ in_dir (lib ++ [y])%list q) ->
      f' q = f q).
Proof.
  intros ts dir file lib name ds f ip keys add add' l n f' Hl Hf Hlib Hw [R1 R2 R3 R4 R5] Ht Hd Hu Hall Htb Hp.
  destruct (done_facts ts dir file lib name ds f ip keys add add' l n false false f' Hl Hf Hlib Hw Ht Hd Hu Hall Htb Hp)
    as (s & deps & nx & fd & f3 & Hs & Hc & _ & Hrun & Hj & W1 & W2 & W3 & W4 & Hi & -> & Hout & Hcr & Hreq).
  destruct (C99_whole_run _ _ e Rs _ R l name ds f fd f3 Hrun Hj W1 R1 R2 R3 R4 R5 W2 W3 W4 Hi Hout) as (Q1 & _ & Q3).
  exists deps, nx. split; [done|]. split.
  - intros p H. apply Q1. by apply Hreq.
  - intros Hdir q N1 N2 N3. apply Q3.
    + cbn [ri_plan]. rewrite Hcr. unfold fs_dir_exists. by rewrite Hdir.
    + intros [H|[(p & H1 & H2)|(d & H1 & H2 & _)]]; [done| |by apply (N2 d)].
      rewrite (ho_library _ _ _ _ _ _ _ W1) in H2. apply (N3 p ("00LOCK-" +:+ p)); [by apply Hreq| |done]. right; right; by left.
    + intros y [H|(p & H & ->)].
      * apply (N3 y y); [by apply Hreq|by left].
      * apply (N3 p (backup_of p)); [|right; by left]. apply Hreq. destruct H as [(_ & H & _)|[H _]]; [done|].
        unfold required. rewrite !elem_of_app. right; by right.
Qed.

(** With --no-rollback=false, if something cannot be installed, the library is as it was
    before.  Missing for the full statement: what C33 and C100 say. *)
Theorem C166_undone_partial : forall ts dir file lib name ds f ip keys add add' l n pe ae f',
  install_line int ts -> names_file (ic_cwd w) ts dir file -> names_library w ts dir lib -> bool_given "no-rollback" (given_in ts) = Some false ->
  sound_case w -> sound_r Rs R name -> tree_ok f -> lists_library f lib (ic_dirs w) -> f lib = Some Dir ->
  sound_run w e x name ds ip keys add add' l n -> all_fetched (wants ip) (e_downloads e) ->
  (forall s, starts_install int (line_of ts) (ic_cpus w) (ic_vars w) (ic_keys w) s -> let c := run_conf lib s in let i := RunInput ip keys add add' (case_found w f lib) in
     tarballs_there e (Job (ip_starting ip) (ip_depdb ip) keys n) l (run_ops (prepare_ops c i) f) /\
     no_stale_backups c i f /\ new_are_absent c i f /\ (forall p, updated c i p -> ~ overwritten i p)) ->
  install_program int w e x Rs R (line_of ts) f (PDone ip keys add add' l n pe ae) f' -> pe = true \/ ae = true ->
  forall q, ~ leftovers e (RunInput ip keys add add' (case_found w f lib)) ds q -> f' q = f q.
Proof.
  intros ts dir file lib name ds f ip keys add add' l n pe ae f' Hl Hf Hlib Hnr Hw [R1 R2 R3 R4 R5] Ht Hd Hdir Hu Hall Htb Hp He q Hq.
  destruct (done_facts ts dir file lib name ds f ip keys add add' l n pe ae f' Hl Hf Hlib Hw Ht Hd Hu Hall (fun s Hs => proj1 (Htb s Hs)) Hp)
    as (s & deps & nx & fd & f3 & Hs & Hc & _ & Hrun & Hj & W1 & W2 & W3 & W4 & Hi & -> & Hout & Hcr & Hreq).
  destruct (Htb s Hs) as (_ & N1 & N2 & N3).
  apply (C100_whole_run_undone_partial _ _ e Rs _ R l name ds f fd pe ae f3 Hrun Hj W1 R1 R3 R4 W2 Hi He); try done.
  - cbn [ri_plan]. rewrite Hcr. unfold fs_dir_exists. by rewrite Hdir.
  - destruct (line_settings int ts _ _ _ s Hl Hs) as (_ & S & _). cbn. by apply S.
Qed.

Lemma prior_kept dirs m p : is_Some (m !! p) -> is_Some (prior_installed dirs m !! p).
Proof.
  revert m. induction dirs as [|[z o] dirs IH]; intros m H; cbn [prior_installed]; [done|].
  apply IH. destruct (scan_installed o) as [d|]; [|done].
  destruct (decide (p = d_package d)) as [->|Hne]; [rewrite lookup_insert; by eexists|by rewrite lookup_insert_ne].
Qed.

Lemma prior_installed_all dirs m y d : (y, Some d) ∈ dirs -> d_package d <> "" ->
  is_Some (prior_installed dirs m !! d_package d).
Proof.
  intros Hin Hne. revert m. induction dirs as [|[z o] dirs IH]; intros m; [by apply elem_of_nil in Hin|].
  cbn [prior_installed]. apply elem_of_cons in Hin as [H|H]; [|by apply IH].
  injection H as -> <-. apply prior_kept. cbn [scan_installed].
  destruct (String.eqb_spec (d_package d) "") as [E|E]; [done|]. rewrite lookup_insert. by eexists.
Qed.

(** With --no-update the packages that are in the library stay as they are, but for the
    tarballs, whether all goes well or not. *)
Theorem C166_no_update : forall ts dir file lib name ds f ip keys add add' l n pe ae f' p,
  install_line int ts -> names_file (ic_cwd w) ts dir file -> names_library w ts dir lib ->
  bool_given "no-update" (given_in ts) = Some true -> bool_given "update" (given_in ts) <> Some true ->
  sound_case w -> sound_r Rs R name -> tree_ok f -> lists_library f lib (ic_dirs w) -> f lib = Some Dir ->
  sound_run w e x name ds ip keys add add' l n -> all_fetched (wants ip) (e_downloads e) ->
  (forall s, starts_install int (line_of ts) (ic_cpus w) (ic_vars w) (ic_keys w) s -> tarballs_there e (Job (ip_starting ip) (ip_depdb ip) keys n) l
     (run_ops (prepare_ops (run_conf lib s) (RunInput ip keys add add' (case_found w f lib))) f)) ->
  install_program int w e x Rs R (line_of ts) f (PDone ip keys add add' l n pe ae) f' ->
  r_name p -> (exists y d, (y, Some d) ∈ ic_dirs w /\ d_package d = p) -> ic_unpacked w !! p = None ->
  same_dir lib p f' p f.
Proof.
  intros ts dir file lib name ds f ip keys add add' l n pe ae f' p Hl Hf Hlib Hnu Hup Hw [R1 R2 R3 R4 R5] Ht Hd Hdir Hu Hall Htb Hp Hr Hin Hun.
  destruct (done_facts ts dir file lib name ds f ip keys add add' l n pe ae f' Hl Hf Hlib Hw Ht Hd Hu Hall Htb Hp)
    as (s & deps & nx & fd & f3 & Hs & Hc & _ & Hrun & Hj & W1 & W2 & W3 & W4 & Hi & -> & Hout & Hcr & Hreq).
  pose proof (WholeProofs.exit_library _ _ f Hrun _ Hout) as Hld.
  pose proof (whole_frame _ _ e Rs _ R l name ds f Hrun Hj W1 R1 R3 R4 fd pe ae f3 Hld W2 Hi) as Hwo.
  assert (ip_create_library ip = false) as Ecr by (rewrite Hcr; unfold fs_dir_exists; by rewrite Hdir).
  eapply (C38_no_update _ _ _ _ f _ p Hrun Hwo Ecr); [|done| | |apply C35_end].
  - destruct (line_settings int ts _ _ _ s Hl Hs) as (_ & _ & _ & S & _). cbn. by apply S.
  - cbn [ri_preinstalled]. unfold case_found, fs_dir_exists. rewrite Hdir. destruct Hin as (y & d & H1 & H2).
    rewrite <- H2. apply (prior_installed_all _ _ y); [done|]. rewrite H2. by intros ->.
  - cbn [ri_additional]. inversion Hp as [| | | |dir' lib' s' nx' ip' k' a1 a2 l' n' fd' pe' ae' f3' Hs' Hplan Hcr' Hk Ha]; subst.
    rewrite Ha, elem_of_list_fmap. intros ([q a] & -> & Hq). apply elem_of_map_to_list in Hq. cbn in Hun. congruence.
Qed.

(** With --threads t, and t at least 1, there are t workers. *)
Theorem C166_threads : forall ts f v t ip keys add add' l n pe ae f', install_line int ts ->
  last_given "threads" (given_in ts) = Some v -> int v = Some t -> (1 <= t)%Z ->
  install_program int w e x Rs R (line_of ts) f (PDone ip keys add add' l n pe ae) f' -> Z.of_nat n = t.
Proof.
  intros ts f v t ip keys add add' l n pe ae f' Hl Hv Ht H1 Hp.
  inversion Hp as [| | | |dir' lib' s nx ip' k' a1 a2 l' n' fd pe' ae' f3 Hs Hplan Hcr Hk Ha Ha' Hll Hn He Hx Hfe Hi]; subst.
  destruct Hs as (g & ws & name & l1 & E & _ & _ & -> & _).
  assert (starts_install int (line_of ts) (ic_cpus w) (ic_vars w) (ic_keys w) (init_settings (ic_cpus w) (flags_of int g) (ic_vars w) (ic_keys w))) as Hst by (by exists g, ws).
  destruct (line_settings int ts _ _ _ _ Hl Hst) as (_ & _ & _ & _ & S). rewrite Hn, (S v t Hv Ht). unfold worker_count. destruct (Z.ltb_spec t 1); lia.
Qed.

(** If a package that is asked for is not to be had, nothing is changed and the status
    is 1. *)
Theorem C166_missing : forall args f o f' deps nx p, sound_case w -> customized w deps nx ->
  PlanSpec.wanted (ic_file w) (ic_tarballs w) (ic_descriptions w) p -> p ∉ r_base -> ~ available nx p ->
  install_program int w e x Rs R args f o f' -> o = PExit 1 /\ f' = f.
Proof.
  intros args f o f' deps nx p Hw Hc Hp Hb Ha H.
  assert (forall s lib, exists m, case_plan w s f lib = PIMissing m) as Q.
  { intros s lib. unfold case_plan.
    destruct (plan_install_cases (ic_orders w) (case_config w s) (ic_nexus w) (ic_tarballs w) (ic_descriptions w) (case_found w f lib) (fs_dir_exists f lib)
      (sc_nexus _ Hw) (sc_r _ Hw)) as [[K _]|(deps' & nx' & Es & _ & _ & _ & _ & [[_ K]|[Hav _]])].
    - unfold customized in Hc. cbn [case_config cf_suggests cf_packages Plan.cf_customs cf_ignore cf_no_recommended] in K. congruence.
    - by eexists.
    - unfold customized in Hc. cbn [case_config cf_suggests cf_packages Plan.cf_customs cf_ignore cf_no_recommended] in Es. rewrite Hc in Es. injection Es as <- <-.
      destruct Ha. apply Hav, plan_request_spec; [by apply sub_ok, Hw|by apply Hw|by apply Hw|]. by split. }
  inversion H as [d lib s m Hs Hm|d lib s Hs Hm|d lib s nx1 ip1 Hs Hm|d lib s nx1 ip1 ? ? ? ? ? Hs Hm|d lib s nx1 ip1 ? ? ? ? ? ? ? ? ? Hs Hm]; [done|..].
  - destruct (Q s lib) as [m Em]. subst f'. rewrite Em in Hm. by destruct Hm.
  - destruct (Q s lib) as [m Em]. subst f'. congruence.
  - destruct (Q s lib) as [m Em]. congruence.
  - destruct (Q s lib) as [m Em]. congruence.
Qed.

(** With --strict nothing is changed when the library does not exist. *)
Theorem C166_strict : forall ts dir file lib f o f',
  install_line int ts -> names_file (ic_cwd w) ts dir file -> names_library w ts dir lib -> bool_given "strict" (given_in ts) = Some true ->
  sound_case w -> f lib <> Some Dir ->
  install_program int w e x Rs R (line_of ts) f o f' -> (o = PExit 1 \/ o = PStop) /\ f' = f.
Proof.
  intros ts dir file lib f o f' Hl Hf Hlib Hst Hw Hn H.
  assert (forall d lib' s, case_starts int w (line_of ts) d lib' s -> lib' = lib /\ se_strict s = true) as Q.
  { intros d lib' s Hs. destruct (line_starts ts dir file lib _ _ s Hl Hf Hlib Hs) as (_ & E & Hi). split; [done|].
    destruct (line_settings int ts _ _ _ s Hl Hi) as (_ & _ & S & _). by apply S. }
  assert (forall s nx ip, case_plan w s f lib = PIPlan nx ip -> ip_create_library ip = true) as C.
  { intros s nx ip E. destruct (planned_case s f lib nx ip Hw E) as (deps & _ & K1 & K2 & K3 & K4 & K5 & _).
    cbv zeta in K4, K5.
    destruct (plan_ok_inv nx _ (sub (ic_orders w) 1) _ (case_found w f lib) deps (negb (se_no_update s)) (fs_dir_exists f lib) K1 K2 (sub_ok _ 1 (sc_orders _ Hw)) K3 K4 ip K5)
      as (_ & st & ls & db & _ & _ & _ & _ & _ & _ & _ & -> & _).
    unfold fs_dir_exists. destruct (f lib) as [[]|]; done. }
  inversion H as [d l' s m Hs Hm|d l' s Hs Hm|d l' s nx1 ip1 Hs Hm|d l' s nx1 ip1 ? ? ? ? ? Hs Hm Hcr|d l' s nx1 ip1 ? ? ? ? ? ? ? ? ? Hs Hm Hcr].
  - by split; [left|].
  - by split; [right|].
  - by split; [right|].
  - exfalso. destruct (Q _ _ _ Hs) as [El Hse]. rewrite El in Hm. destruct (Hcr (C _ _ _ Hm)) as [K _]. congruence.
  - exfalso. destruct (Q _ _ _ Hs) as [El Hse]. rewrite El in Hm. destruct (Hcr (C _ _ _ Hm)) as [K _]. congruence.
Qed.
End lines.

(** ** Example: pkgr install --library /lib --no-rollback=false, where the file asks for b and
    a tarball with t; b needs a, of which an old version is in the library. *)
Definition wl_line : list token := [TWord "install"; TNext "library" "/lib"; TSet "no-rollback" "false"].

Definition wl_case : install_case := {|
  ic_home := "/home"; ic_cwd := ["home"]; ic_cpus := 1; ic_vars := no_vars; ic_keys := ex_file;
  ic_lock := ""; ic_renv := None; ic_version := RVersion 4 0 5; ic_platform := "x";
  ic_file := PlanConfig ["b"] [] false false false [];
  ic_nexus := Nexus [RepoDb [(STSource, list_to_map [("a", mk_pkg "a" "2.0" [] [] [] []); ("b", mk_pkg "b" "1.0" [] ["a"] [] [])]); (STBinary, ∅)]
    wz_repo STSource ""] ∅ STSource;
  ic_tarballs := [mk_pkg "t" "0.1" [] [] [] []]; ic_unpacked := list_to_map wx_tarballs; ic_descriptions := [];
  ic_dirs := [("a", Some (mk_pkg "a" "1.0" [] [] [] [])); ("z", None)]; ic_orders := id_oracle
|}.

Definition wl_settings : settings := {|
  se_no_update := false; se_no_rollback := false; se_no_secure := false; se_strict := false; se_library := "/lib"; se_rpath := "R"; se_threads := 1
|}.

Definition wl_plan : install_plan :=
  match case_plan wl_case wl_settings (fs_of wz_files) ["lib"] with PIPlan _ ip => ip | _ => wx_plan end.

Lemma wl_starts : case_starts ex_int wl_case (line_of wl_line) ["home"] ["lib"] wl_settings.
Proof. eexists _, _, _, _. split; [vm_compute; reflexivity|]. split; [reflexivity|]. split; [reflexivity|]. split; [reflexivity|]. split; reflexivity. Qed.

Lemma wl_job : Job (ip_starting wl_plan) (ip_depdb wl_plan) ["b"] 1 = wx_job.
Proof. vm_compute. reflexivity. Qed.
Lemma wl_wants : wants wl_plan = [wz_a; wz_b].
Proof. vm_compute. reflexivity. Qed.

Definition wl_input : run_input := RunInput wl_plan ["b"] ["t"] ["t"] (case_found wl_case (fs_of wz_files) ["lib"]).
Lemma wl_prepare s : se_no_update s = false -> prepare_ops (run_conf ["lib"] s) wl_input = prepare_ops wx_conf wx_input.
Proof. intros H. unfold prepare_ops, staged_updates. cbn [run_conf Rollback.rc_library rc_no_update]. rewrite H. vm_compute. reflexivity. Qed.
Lemma wl_same f3 : run_final (run_conf ["lib"] wl_settings) wl_input (RunWorld false (fun _ => f3) false false) (fs_of wz_files) =
  run_final wx_conf wx_input (RunWorld false (fun _ => f3) false false) (fs_of wz_files).
Proof. vm_compute. reflexivity. Qed.

Example C166_example :
  install_line ex_int wl_line /\ names_file (ic_cwd wl_case) wl_line ["home"] "pkgr.yml" /\ names_library wl_case wl_line ["home"] ["lib"] /\
  sound_case wl_case /\ sound_r (toy_process []) (toy []) toy_name /\ tree_ok (fs_of wz_files) /\
  lists_library (fs_of wz_files) ["lib"] (ic_dirs wl_case) /\
  sound_run wl_case wz wz_env toy_name wx_dirs wl_plan ["b"] ["t"] ["t"] wx_tarballs 1 /\ all_fetched (wants wl_plan) (e_downloads wz) /\
  (forall s, starts_install ex_int (line_of wl_line) 1 no_vars ex_file s -> tarballs_there wz (Job (ip_starting wl_plan) (ip_depdb wl_plan) ["b"] 1) wx_tarballs
     (run_ops (prepare_ops (run_conf ["lib"] s) wl_input) (fs_of wz_files))) /\
  exists g, install_program ex_int wl_case wz wz_env (toy_process []) (toy []) (line_of wl_line) (fs_of wz_files)
      (PDone wl_plan ["b"] ["t"] ["t"] wx_tarballs 1 false false) g /\
    g ["lib"; "a"; "DESCRIPTION"] = Some (File "a new") /\ g ["lib"; "b"] = Some Dir /\ g ["lib"; "t"] = Some Dir /\
    g ["lib"; "__OLD__a"] = None.
Proof.
  destruct C99_downloaded_example as (_ & _ & X1 & _ & X2 & X3 & X4 & X5 & X6 & X7 & X8 & X9 & _ & fd & f3 & X10 & X11 & _ & X12 & _ & X13 & _ & X14 & X15 & X16 & _).
  split; [split; [|done]|].
  { eexists. eexists _, _, [], "install", _. split; [reflexivity|]. split; [reflexivity|]. split; [reflexivity|]. split; [reflexivity|].
    split; [constructor|]. split; [|by left]. repeat constructor; cbn [proper].
    + eexists _, _. split; [reflexivity|done].
    + eexists. split; [reflexivity|]. by split.
    + eexists. split; [reflexivity|]. by eexists. }
  split; [left; by split|]. split.
  { exists "/lib". split.
    - left. exists "/lib". split; [by left|]. split; [done|]. apply hp_other. done.
    - apply (plain_abs_stands ["home"] ["lib"]); [done|]. intros y Hy. apply elem_of_list_singleton in Hy as ->. by repeat split. }
  split.
  { split.
    - apply nexus_okb_sound. vm_compute. reflexivity.
    - apply no_recordb_sound. vm_compute. reflexivity.
    - apply id_oracle_ok.
    - repeat constructor; apply depsb_sound; vm_compute; reflexivity.
    - constructor. }
  split; [by split|]. split; [apply tree_okb_sound; vm_compute; reflexivity|]. split.
  { apply lists_libraryb_sound. vm_compute. reflexivity. }
  split.
  { split.
    - apply r_nameb_all. vm_compute. reflexivity.
    - by rewrite wl_wants.
    - by rewrite wl_job.
    - done.
    - intros p a H. apply elem_of_list_singleton in H as [= -> ->]. by apply (wx_in ["cache"]); [set_solver|]. }
  split; [by rewrite wl_wants|]. split.
  { intros s (g & ws & E & ->). vm_compute in E. injection E as <- <-. rewrite wl_prepare, wl_job by done. exact X9. }
  eexists. split.
  { eapply (ip_done _ _ _ _ _ _ _ _ ["home"] ["lib"] wl_settings _ wl_plan ["b"] ["t"] ["t"] wx_tarballs 1 fd false false f3).
    - exact wl_starts.
    - vm_compute. reflexivity.
    - vm_compute. discriminate.
    - vm_compute. done.
    - vm_compute. done.
    - done.
    - vm_compute. done.
    - reflexivity.
    - reflexivity.
    - reflexivity.
    - fold wl_input. rewrite wl_prepare, wl_wants by done. exact X10.
    - rewrite wl_job. exact X12. }
  fold wl_input. rewrite wl_same. done.
Qed.

(** ** Example: pkgr install --no-update --library /lib, where the file asks for a only. *)
Definition wn_line : list token := [TWord "install"; TSwitch "no-update"; TNext "library" "/lib"].
Definition wn_case : install_case := {|
  ic_home := "/home"; ic_cwd := ["home"]; ic_cpus := 1; ic_vars := no_vars; ic_keys := ex_file;
  ic_lock := ""; ic_renv := None; ic_version := RVersion 4 0 5; ic_platform := "x";
  ic_file := PlanConfig ["a"] [] false false false []; ic_nexus := ic_nexus wl_case;
  ic_tarballs := []; ic_unpacked := ∅; ic_descriptions := []; ic_dirs := ic_dirs wl_case; ic_orders := id_oracle
|}.
Definition wn_settings : settings := {|
  se_no_update := true; se_no_rollback := true; se_no_secure := false; se_strict := false; se_library := "/lib"; se_rpath := "R"; se_threads := 1
|}.
Definition wn_plan : install_plan :=
  match case_plan wn_case wn_settings (fs_of wz_files) ["lib"] with PIPlan _ ip => ip | _ => wx_plan end.
Definition wn : Together.setting := {|
  e_downloads := <["a" := wz_download wz_a false]> ∅; e_library := e_library wz; e_pkgr := e_pkgr wz; e_rversion := e_rversion wz;
  e_platform := e_platform wz; e_where := e_where wz; e_tmp := e_tmp wz
|}.
Definition wn_input : run_input := RunInput wn_plan [] [] [] (case_found wn_case (fs_of wz_files) ["lib"]).

Lemma wn_job : Job (ip_starting wn_plan) (ip_depdb wn_plan) [] 1 = Job ["a"] ∅ [] 1.
Proof. vm_compute. reflexivity. Qed.
Lemma wn_wants : wants wn_plan = [wz_a].
Proof. vm_compute. reflexivity. Qed.
Lemma wn_prepare s : se_no_update s = true -> run_ops (prepare_ops (run_conf ["lib"] s) wn_input) (fs_of wz_files) = fs_of wz_files.
Proof. intros H. unfold prepare_ops, staged_updates. cbn [run_conf Rollback.rc_library rc_no_update]. rewrite H. vm_compute. reflexivity. Qed.

Example C166_no_update_example :
  install_line ex_int wn_line /\ names_file (ic_cwd wn_case) wn_line ["home"] "pkgr.yml" /\ names_library wn_case wn_line ["home"] ["lib"] /\
  bool_given "no-update" (given_in wn_line) = Some true /\ bool_given "update" (given_in wn_line) <> Some true /\
  sound_case wn_case /\ lists_library (fs_of wz_files) ["lib"] (ic_dirs wn_case) /\ fs_of wz_files ["lib"] = Some Dir /\
  sound_run wn_case wn wz_env toy_name wx_dirs wn_plan [] [] [] [] 1 /\ all_fetched (wants wn_plan) (e_downloads wn) /\
  (exists d, ("a", Some d) ∈ ic_dirs wn_case /\ d_package d = "a" /\ d_version d = "1.0") /\ w_version wz_a = "2.0" /\
  exists g, install_program ex_int wn_case wn wz_env (toy_process []) (toy []) (line_of wn_line) (fs_of wz_files)
      (PDone wn_plan [] [] [] [] 1 false false) g /\
  g ["lib"; "a"; "DESCRIPTION"] = Some (File "a old").
Proof.
  split; [split; [|done]|].
  { eexists. eexists _, _, [], "install", _. split; [reflexivity|]. split; [reflexivity|]. split; [reflexivity|]. split; [reflexivity|].
    split; [constructor|]. split; [|by left]. repeat constructor; cbn [proper].
    + eexists _, _. split; [reflexivity|done].
    + eexists. split; [reflexivity|]. done.
    + eexists. split; [reflexivity|]. by split. }
  split; [left; by split|]. split.
  { exists "/lib". split.
    - left. exists "/lib". split; [by left|]. split; [done|]. apply hp_other. done.
    - apply (plain_abs_stands ["home"] ["lib"]); [done|]. intros y Hy. apply elem_of_list_singleton in Hy as ->. by repeat split. }
  split; [reflexivity|]. split; [vm_compute; discriminate|]. split.
  { split.
    - apply nexus_okb_sound. vm_compute. reflexivity.
    - apply no_recordb_sound. vm_compute. reflexivity.
    - apply id_oracle_ok.
    - constructor.
    - constructor. }
  split. { apply lists_libraryb_sound. vm_compute. reflexivity. }
  split; [reflexivity|]. split.
  { split.
    - apply r_nameb_all. vm_compute. reflexivity.
    - rewrite wn_wants. destruct (wz_fetch_ok [wz_a; wz_b]) as [K1 K2 K3 K4 K5 K6]; [by left|].
      split; [done|done| | | |].
      + intros w H. apply K3. apply elem_of_list_singleton in H as ->. by left.
      + repeat constructor. set_solver.
      + intros a b H H' _. apply elem_of_list_singleton in H as ->. by apply elem_of_list_singleton in H' as ->.
      + intros w q H. apply K6. apply elem_of_list_singleton in H as ->. by left.
    - rewrite wn_job. assert (forall p, in_plan (Job ["a"] ∅ [] 1) p -> in_plan wx_job p) as K.
      { intros p [H|H]; [left; exact H|]. cbn [j_depdb] in H. rewrite lookup_empty in H. by destruct H. }
      destruct (wz_arranged (e_downloads wn)) as [? ? ? ? A1 ? ? ? ? A2 A3 ? A4]. split; auto.
    - split; [intros p a H|constructor|intros p a H|intros p a q b H|intros p a H]; by apply elem_of_nil in H.
    - intros p a H. by apply elem_of_nil in H. }
  split. { rewrite wn_wants. intros w H. apply elem_of_list_singleton in H as ->. by eexists. }
  split. { eexists. split; [left|by split]. }
  split; [reflexivity|]. eexists. split.
  { eapply (ip_done _ _ _ _ _ _ _ _ ["home"] ["lib"] wn_settings _ wn_plan [] [] [] [] 1 (wz_dirs (fs_of wz_files)) false false).
    - eexists _, _, _, _. split; [vm_compute; reflexivity|]. split; [reflexivity|]. split; [reflexivity|]. split; [reflexivity|]. split; reflexivity.
    - vm_compute. reflexivity.
    - vm_compute. discriminate.
    - vm_compute. done.
    - vm_compute. done.
    - done.
    - vm_compute. done.
    - reflexivity.
    - reflexivity.
    - reflexivity.
    - fold wn_input. rewrite wn_prepare, wn_wants by done.
      eexists _, _. split; [|split; [|split]].
      + eapply (fetching_on _ _ _ [wz_repo]); [vm_compute; reflexivity|dirs_made|].
        unfold finitial. cbn [map]. begin_get 0.
        get 0; [apply k_there; vm_compute; reflexivity|]. end_get 0. all_done.
      + reflexivity.
      + reflexivity.
      + reflexivity.
    - rewrite wn_job. eapply (installs_all _ _ _ _ _ _ _ _ None).
      + unfold tinitial, initial; cbn [j_starting j_workers replicate].
        sched main_add. sched main_send. sched req_mark. sched req_push.
        eapply tg_cons; [apply ts_start, work_start with (w1 := [])|cbn [app]].
        sched main_wait. busy w_present. finish (ROk true). cbn [to_copy]. post.
        eapply tg_cons; [apply ts_sched; [apply upd_ok|done]|]. change (dependents _ "a") with (@nil string).
        sched upd_copied. sched upd_done. at_end.
      + reflexivity.
      + reflexivity.
      + reflexivity.
      + reflexivity. }
  fold wn_input. vm_compute. reflexivity.
Qed.

(** ** What is not so *)

(** pkgr install --library= does not use the library of the file, but stops. *)
Definition wl_empty : list token := [TWord "install"; TSet "library" ""].

Theorem C166_empty_refuted : install_line ex_int wl_empty /\ fi_library (ic_keys wl_case) = Some "old" /\
  forall dir lib s, ~ case_starts ex_int wl_case (line_of wl_empty) dir lib s.
Proof.
  split; [split; [|done]|].
  { eexists. eexists _, _, [], "install", _. split; [reflexivity|]. split; [reflexivity|]. split; [reflexivity|]. split; [reflexivity|].
    split; [constructor|]. split; [|by left]. repeat constructor; cbn [proper].
    + eexists _, _. split; [reflexivity|done].
    + eexists. split; [reflexivity|]. done. }
  split; [reflexivity|]. intros dir lib s (g & ws & name & l & E & _ & _ & _ & Hl & _). vm_compute in E. injection E as <- <-. vm_compute in Hl. discriminate Hl.
Qed.

Print Assumptions C166_installed.
Print Assumptions C166_undone_partial.
Print Assumptions C166_no_update.
Print Assumptions C166_threads.
Print Assumptions C166_missing.
Print Assumptions C166_strict.
Print Assumptions C166_empty_refuted.
