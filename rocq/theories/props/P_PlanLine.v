(** C167: pkgr plan tells what pkgr install does with the same flags. *)
From stdpp Require Import strings list gmap.
From Coq Require Import Ascii ZArith Lia.
From Verif.model Require Import GoStr Version Desc Nexus Pacman RepoDb Graph Plan Report Fs Rollback Stamp Yml Sched Install Download Tarballs Together Urls Fetching
  Config Start Flags Cli LoadLine InstallLine PlanLine.
From Verif.spec Require Import StrSpec ConfigSpec StartSpec RepoSpec GraphSpec PlanSpec SchedSpec LibSpec DownloadSpec InstallSpec TarballSpec TogetherSpec ApartSpec
  FetchingSpec EndSpec CliSpec LineSpec ReportSpec PreviewSpec LoadLineSpec LinesSpec InstallLineSpec PlanLineSpec.
From Verif.proofs Require Import GraphProofs PlanProofs PlanProps SettingsProofs FsProofs RollbackProofs RunProofs RunProps RunLink ExampleChecks ExampleWorlds RunProps2 SchedProofs SchedProps SchedLink
  DownloadProofs TogetherProofs WholeProofs TogetherEnd DerivedProofs ToyR FetchingProofs EndProofs StartProofs CliProofs ReportProofs PreviewProofs.
From Verif.props Require Import P_Graph P_Library P_Sched P_Together P_Fetching P_Cli P_Start P_Config P_Line P_Lines P_Report P_Exact2 P_LoadLine P_InstallLine.

Local Open Scope string_scope.

Section lines.
Context (int : string -> option Z) (w : install_case) (vk : view_keys) (o : oracle) (e : Together.setting) (x : fetch_env) (Rs : rsystem) (R : rprog).

(** Both start alike. *)
Lemma both_start ts ts' dir lib s g dir' lib' s' : command_line int ["plan"] ts -> install_line int ts' -> same_options ts ts' ->
  plan_starts int w (line_of ts) dir lib s g -> case_starts int (once_more w o) (line_of ts') dir' lib' s' ->
  dir = dir' /\ lib = lib' /\ s = s'.
Proof.
  intros [[ws H] Hh] [[ws' H'] Hh'] Hsame (w1 & name & l & E & Hn & -> & -> & Hlib & ->) (g' & w2 & name' & l' & E' & Hn' & -> & -> & Hlib' & ->).
  cbn [once_more ic_home ic_cwd ic_cpus ic_vars ic_keys] in *.
  destruct (C158_meant int ["plan"] ts ws _ _ H eq_refl eq_refl) as (h & L & Eh). rewrite bool_decide_false in Eh by done.
  destruct (C158_meant int ["install"] ts' ws' _ _ H' eq_refl eq_refl) as (h' & L' & Eh'). rewrite bool_decide_false in Eh' by done.
  rewrite E in Eh. injection Eh as <- <-. rewrite E' in Eh'. injection Eh' as <- <-.
  assert (forall n, n <> "show-deps" -> last_given n g = last_given n g') as K.
  { intros n Hne. rewrite L, L'. by apply Hsame. }
  assert (flags_of int g = flags_of int g') as Ef by (unfold flags_of, bool_given; by rewrite !K by done).
  assert (first_config g = first_config g') as Ec by (unfold first_config; by rewrite K by done).
  assert (name = name') as <- by congruence. rewrite Ef in Hlib. assert (l = l') as <-.
  { assert (case_library w (flags_of int g') = case_library (once_more w o) (flags_of int g')) as El by reflexivity. congruence. }
  by rewrite Ef.
Qed.

(** Both plans are the same, up to the order. *)
Lemma both_plan s f lib : sound_case w -> oracle_ok o -> same_outcome (case_plan w s f lib) (case_plan (once_more w o) s f lib).
Proof. intros [S1 S2 S3 S4 S5] Ho. unfold case_plan, case_config, case_found, once_more. cbn [ic_orders ic_file ic_nexus ic_tarballs ic_descriptions ic_dirs]. by apply outcome_same. Qed.

Lemma sound_again : sound_case w -> oracle_ok o -> sound_case (once_more w o).
Proof. intros [S1 S2 S3 S4 S5] Ho. by split. Qed.

(** If plan cannot make a plan, install ends in the same way and changes nothing; if plan
    shows one, install does not report missing packages. *)
Theorem C167_ends : forall ts ts' f v a f', command_line int ["plan"] ts -> install_line int ts' -> same_options ts ts' ->
  sound_case w -> oracle_ok o ->
  plan_program int w vk (line_of ts) f v -> install_program int (once_more w o) e x Rs R (line_of ts') f a f' ->
  (forall c, v = SExit c -> a = PExit c /\ f' = f) /\ (v = SStop -> a = PStop /\ f' = f) /\
  (forall t, v = SShown t -> forall c, a <> PExit c).
Proof.
  intros ts ts' f v a f' Hl Hl' Hsame Hw Ho Hv Ha. pose proof (fun s lib => both_plan s f lib Hw Ho) as Hp0.
  inversion Hv as [dir lib s g m Hs E|dir lib s g Hs E|dir lib s g nx ip keys add inst deps lt Hs E]; subst;
  inversion Ha as [dir' lib' s' m' Hs' E'|dir' lib' s' Hs' E'|dir' lib' s' nx' ip' Hs' E'|dir' lib' s' nx' ip' k a1 a2 ls st Hs' E'|dir' lib' s' nx' ip' k a1 a2 l n fd pe ae f3 Hs' E']; subst;
  destruct (both_start _ _ _ _ _ _ _ _ _ Hl Hl' Hsame Hs Hs') as (_ & El & <-);
  pose proof (Hp0 s lib) as Hp; rewrite El in E, Hp;
  repeat match goal with H : _ \/ _ |- _ => destruct H as [H|H] end;
  rewrite ?E, ?E' in Hp; cbn [same_outcome] in Hp; try done;
  (split; [intros c Hc|split; [intros Hc|intros t Hc c]]); try discriminate; try (by split); by injection Hc as <-.
Qed.

(** What plan says of the workers, of the library, of the packages that are required and of the
    dependencies is what install uses. *)
Theorem C167_same : forall ts ts' f t ip keys add add' l n pe ae f', command_line int ["plan"] ts -> install_line int ts' -> same_options ts ts' ->
  sound_case w -> oracle_ok o ->
  plan_program int w vk (line_of ts) f (SShown t) ->
  install_program int (once_more w o) e x Rs R (line_of ts') f (PDone ip keys add add' l n pe ae) f' ->
  pt_workers t = Z.of_nat n /\ sm_required (pt_status t) = length (get_all_packages ip keys add) /\
  (turned_on "show-deps" ts -> NoDup (pt_deps t).*1 /\
     forall p, (forall d, (p, d) ∈ pt_deps t -> exists d', ip_depdb ip !! p = Some d' /\ d ≡ₚ d') /\
               (forall d', ip_depdb ip !! p = Some d' -> exists d, (p, d) ∈ pt_deps t /\ d ≡ₚ d')).
Proof.
  intros ts ts' f t ip keys add add' l n pe ae f' Hl Hl' Hsame Hw Ho Hv Ha.
  inversion Hv as [| |dir lib s g nx ip0 keys0 add0 inst deps lt Hs E Hk0 Ha0 Hi0 Hd]; subst. cbn [pt_workers pt_status pt_deps status_of sm_required].
  inversion Ha as [| | | |dir' lib' s' nx' ip' k a1 a2 l' n' fd pe' ae' f3 Hs' E' Hcr Hk Hadd Hadd' Hll Hn He Hx]; subst.
  destruct (both_start _ _ _ _ _ _ _ _ _ Hl Hl' Hsame Hs Hs') as (_ & El & Es). subst s'.
  pose proof (both_plan s f lib Hw Ho) as Hp. rewrite El in E, Hp. rewrite E, E' in Hp. destruct Hp as [<- (P1 & P2 & P3 & P4 & P5 & P6 & P7)].
  split; [by rewrite Hn|]. split.
  - unfold get_all_packages. rewrite !app_length, P1, Ha0, Hadd, Hk0, Hk. cbn [once_more ic_unpacked]. f_equal. f_equal.
    rewrite !fst_map_to_list_dom. f_equal. f_equal. apply set_eq. intros q. rewrite !elem_of_dom. specialize (P2 q).
    destruct (ip_depdb ip0 !! q), (ip_depdb ip !! q); try done; by split; intros [? ?].
  - intros Hon. destruct Hs as (w1 & name & l1 & Ex & _).
    destruct (C162_show_deps int vk ts ip0 deps g w1 Hl Ex Hd) as [K _]. destruct (K Hon) as [K1 K2]. split; [done|].
    intros p. specialize (P2 p). split.
    + intros d Hp%K2. rewrite Hp in P2. destruct (ip_depdb ip !! p) as [d'|]; [|done]. by exists d'.
    + intros d' Hp. rewrite Hp in P2. destruct (ip_depdb ip0 !! p) as [d|] eqn:Ed; [|done]. exists d. split; [by apply K2|done].
Qed.

(** Without tarballs, if there is no error: the packages listed were not in the library, and
    are there afterwards; what is fetched for them has the version, the repository and the
    type that the list says. *)
Theorem C167_listed : forall ts ts' dir file lib name ds f t ip keys add add' l n f',
  command_line int ["plan"] ts -> install_line int ts' -> same_options ts ts' ->
  names_file (ic_cwd w) ts' dir file -> names_library w ts' dir lib ->
  sound_case w -> oracle_ok o -> sound_r Rs R name -> tree_ok f -> lists_library f lib (ic_dirs w) -> ic_unpacked w = ∅ ->
  sound_run w e x name ds ip keys add add' l n -> all_fetched (wants ip) (e_downloads e) ->
  plan_program int w vk (line_of ts) f (SShown t) ->
  install_program int (once_more w o) e x Rs R (line_of ts') f (PDone ip keys add add' l n false false) f' ->
  forall y, y ∈ pt_lines t -> case_found w f lib !! ln_package y = None /\ f' (lib ++ [ln_package y])%list = Some Dir /\
    exists d, d ∈ wants ip /\ is_told y d.
Proof.
  intros ts ts' dir file lib name ds f t ip keys add add' l n f' Hl Hl' Hsame Hf Hlib Hw Ho Hr Ht Hd Hun Hu Hall Hv Ha y Hy.
  assert (l = []) as El0.
  { inversion Ha as [| | | |dir' lib' s' nx' ip' k a1 a2 l' n' fd pe' ae' f3 Hs' E' Hcr Hk Hadd Hadd' Hll]; subst.
    cbn [once_more ic_unpacked] in Hll. rewrite Hun, map_to_list_empty in Hll. by apply Permutation_nil_r in Hll. }
  destruct (C166_installed int (once_more w o) e x Rs R ts' dir file lib name ds f ip keys add add' l n f' Hl' Hf Hlib (sound_again Hw Ho) Hr Ht Hd) as (deps & nx & Hc & Q & _); try done.
  { by destruct Hu; split. }
  { rewrite El0. intros s _ p a Hp. by apply elem_of_nil in Hp. }
  inversion Hv as [| |dir1 lib1 s g nx0 ip0 keys0 add0 inst deps0 lt Hs E Hk0 Ha0 Hi0 Hd0]; subst t. cbn [pt_lines] in Hy.
  inversion Ha as [| | | |dir' lib' s' nx' ip' k a1 a2 l' n' fd pe' ae' f3 Hs' E' Hcr Hk Hadd Hadd' Hll Hn He Hx]; subst.
  destruct (line_starts int (once_more w o) ts' dir file lib _ _ s' Hl' Hf Hlib Hs') as (_ & Elib & _).
  destruct (both_start _ _ _ _ _ _ _ _ _ Hl Hl' Hsame Hs Hs') as (_ & El & <-). rewrite Elib in *. subst lib1.
  pose proof (both_plan s f lib Hw Ho) as Hp. rewrite E, E' in Hp. destruct Hp as [<- Hp].
  destruct (planned_case w s f lib nx0 ip0 Hw E) as (deps1 & Hc1 & K1 & K2 & K3 & K4 & K5 & K6). cbv zeta in K4, K5, K6.
  destruct (planned_case (once_more w o) s f lib nx0 ip (sound_again Hw Ho) E') as (deps2 & Hc2 & _ & _ & _ & J4 & J5 & J6). cbv zeta in J4, J5, J6.
  unfold customized in Hc, Hc1, Hc2. cbn [once_more ic_file ic_nexus] in Hc, Hc2. rewrite Hc1 in Hc, Hc2. injection Hc as <- <-. injection Hc2 as <-.
  rewrite Hun, map_to_list_empty in Ha0. apply Permutation_nil_r in Ha0 as ->.
  pose proof (sub_ok _ 1 (sc_orders _ Hw)) as Ho1. pose proof (sub_ok _ 1 Ho) as Ho2.
  assert (inst ≡ₚ names_of (case_found w f lib)) as Hi1 by (rewrite Hi0; apply fst_map_to_list_dom).
  destruct (C124_lines_partial nx0 _ _ _ _ deps1 _ _ ip0 keys0 inst K1 K2 Ho1 K3 K4 K5 Hk0 Hi1) as (L1 & _).
  destruct (L1 y Hy) as (p & Hpl & Hno & d & c & Hg & Hdp & ->). cbn [ln_package]. split; [done|].
  destruct (C20_plan_is_closure nx0 _ _ _ _ deps1 _ _ ip0 K1 K2 Ho1 K3 K4 K5) as [P _].
  destruct (C20_plan_is_closure nx0 _ _ _ _ deps1 _ _ ip K1 K2 Ho2 K3 J4 J5) as [P' _].
  assert (asked_for w deps1 nx0 p) as Hask by (by apply K6, P). split; [apply Q; by left|].
  destruct (plan_downloads nx0 _ _ _ _ deps1 _ _ K1 K2 Ho2 K3 J4 ip J5) as (_ & D2 & D3).
  assert (planned ip p) as Hpl' by (apply P', J6; exact Hask).
  assert (p ∈ map (fun dl => d_package (dl_package dl)) (ip_downloads ip)) as Hdl.
  { rewrite D3. unfold planned_names. rewrite elem_of_app. destruct Hpl' as [Hz|[d0 Hz]]; [by left|right].
    apply elem_of_list_fmap. exists (p, d0). split; [done|]. by apply elem_of_map_to_list. }
  apply elem_of_list_fmap in Hdl as (dl & Edl & Hdl). pose proof (D2 dl Hdl) as Hgd. rewrite <- Edl, Hg in Hgd. injection Hgd as Hgd1 Hgd2.
  eexists. split; [apply elem_of_list_fmap; exists dl; split; [reflexivity|done]|].
  unfold is_told. cbn [w_pkg w_version w_repo w_type ln_package ln_version ln_repo ln_type]. by rewrite <- Edl, <- Hgd1, <- Hgd2.
Qed.

(** A package of the library that plan does not announce as to be updated, and of which there
    is no tarball, stays as it is, whether there are errors or not. *)
Theorem C167_kept : forall ts ts' dir file lib name ds f t ip keys add add' l n pe ae f' p,
  command_line int ["plan"] ts -> install_line int ts' -> same_options ts ts' ->
  names_file (ic_cwd w) ts' dir file -> names_library w ts' dir lib ->
  sound_case w -> oracle_ok o -> sound_r Rs R name -> tree_ok f -> lists_library f lib (ic_dirs w) -> f lib = Some Dir ->
  sound_run w e x name ds ip keys add add' l n -> all_fetched (wants ip) (e_downloads e) ->
  (forall s, starts_install int (line_of ts') (ic_cpus w) (ic_vars w) (ic_keys w) s -> tarballs_there e (Job (ip_starting ip) (ip_depdb ip) keys n) l
     (run_ops (prepare_ops (run_conf lib s) (RunInput ip keys add add' (case_found w f lib))) f)) ->
  plan_program int w vk (line_of ts) f (SShown t) ->
  install_program int (once_more w o) e x Rs R (line_of ts') f (PDone ip keys add add' l n pe ae) f' ->
  r_name p -> is_Some (case_found w f lib !! p) -> (p, true) ∉ pt_updates t -> ic_unpacked w !! p = None ->
  same_dir lib p f' p f.
Proof.
  intros ts ts' dir file lib name ds f t ip keys add add' l n pe ae f' p Hl Hl' Hsame Hf Hlib Hw Ho [R1 R2 R3 R4 R5] Ht Hd Hdir Hu Hall Htb Hv Ha Hr Hin Hno Hun.
  destruct (done_facts int (once_more w o) e x Rs R ts' dir file lib name ds f ip keys add add' l n pe ae f' Hl' Hf Hlib (sound_again Hw Ho) Ht Hd)
    as (s & deps & nx & fd & f3 & Hs & Hc & _ & Hrun & Hj & W1 & W2 & W3 & W4 & Hi & -> & Hout & Hcr & Hreq); try done.
  { by destruct Hu; split. }
  pose proof (WholeProofs.exit_library _ _ f Hrun _ Hout) as Hld.
  pose proof (whole_frame _ _ e Rs _ R l name ds f Hrun Hj W1 R1 R3 R4 fd pe ae f3 Hld W2 Hi) as Hwo.
  assert (ip_create_library ip = false) as Ecr by (rewrite Hcr; unfold fs_dir_exists; by rewrite Hdir).
  eapply (C36_others_kept _ _ _ _ f p Hrun Hwo Ecr Hr); [exact Hin|].
  inversion Hv as [| |dir1 lib1 s1 g nx0 ip0 keys0 add0 inst deps0 lt Hs1 E Hk0 Ha0 Hi0 Hd0]; subst t. cbn [pt_updates] in Hno.
  inversion Ha as [| | | |dir' lib' s' nx' ip' k a1 a2 l' n' fd' pe' ae' f3' Hs' E' Hcr' Hk Hadd Hadd' Hll Hn He Hx]; subst.
  destruct (line_starts int (once_more w o) ts' dir file lib _ _ s' Hl' Hf Hlib Hs') as (_ & Elib & Hst).
  destruct (both_start _ _ _ _ _ _ _ _ _ Hl Hl' Hsame Hs1 Hs') as (_ & El & <-). rewrite Elib in *. subst lib1.
  pose proof (both_plan s1 f lib Hw Ho) as Hp. rewrite E, E' in Hp. destruct Hp as [<- (_ & _ & _ & P4 & _)].
  intros [(U1 & _ & q & Hq & Hqp)|[Hz _]].
  - apply Hno. apply elem_of_list_fmap. exists q. rewrite Hqp. cbn [run_conf rc_no_update] in U1. split; [|by rewrite P4].
    assert (s1 = s) as ->; [|by rewrite U1].
    destruct Hst as (g1 & w1 & G1 & ->), Hs as (g2 & w2 & G2 & ->). rewrite G1 in G2. by injection G2 as <- <-.
  - cbn [ri_additional] in Hz. rewrite Hadd, elem_of_list_fmap in Hz. destruct Hz as ([q a] & -> & Hq).
    apply elem_of_map_to_list in Hq. cbn in Hun, Hq. congruence.
Qed.
(** A package that is announced as to be updated, and that is required, is in the library;
    what is fetched for it has a newer version. *)
Theorem C167_updated : forall ts ts' dir file lib f t ip keys add add' l n pe ae f' p,
  command_line int ["plan"] ts -> install_line int ts' -> same_options ts ts' ->
  names_file (ic_cwd w) ts' dir file -> names_library w ts' dir lib -> sound_case w -> oracle_ok o ->
  plan_program int w vk (line_of ts) f (SShown t) ->
  install_program int (once_more w o) e x Rs R (line_of ts') f (PDone ip keys add add' l n pe ae) f' ->
  (p, true) ∈ pt_updates t -> planned ip p ->
  exists old d c, case_found w f lib !! p = Some old /\ d ∈ wants ip /\ w_pkg d = p /\
    compare_version_strings (w_version d) (d_version old) = Some c /\ (c > 0)%Z.
Proof.
  intros ts ts' dir file lib f t ip keys add add' l n pe ae f' p Hl Hl' Hsame Hf Hlib Hw Ho Hv Ha Hup Hpl.
  inversion Hv as [| |dir1 lib1 s g nx0 ip0 keys0 add0 inst deps0 lt Hs E Hk0 Ha0 Hi0 Hd0]; subst t. cbn [pt_updates] in Hup.
  inversion Ha as [| | | |dir' lib' s' nx' ip' k a1 a2 l' n' fd pe' ae' f3 Hs' E' Hcr Hk Hadd Hadd' Hll Hn He Hx]; subst.
  destruct (line_starts int (once_more w o) ts' dir file lib _ _ s' Hl' Hf Hlib Hs') as (_ & Elib & _).
  destruct (both_start _ _ _ _ _ _ _ _ _ Hl Hl' Hsame Hs Hs') as (_ & El & <-). rewrite Elib in *. subst lib1.
  pose proof (both_plan s f lib Hw Ho) as Hp. rewrite E, E' in Hp. destruct Hp as [<- (_ & _ & _ & P4 & _)].
  destruct (planned_case (once_more w o) s f lib nx0 ip (sound_again Hw Ho) E') as (deps2 & _ & K1 & K2 & K3 & J4 & J5 & _). cbv zeta in J4, J5.
  pose proof (sub_ok _ 1 Ho) as Ho2. cbn [once_more ic_orders] in J5.
  destruct (plan_ok_inv nx0 _ _ _ _ deps2 _ _ K1 K2 Ho2 K3 J4 ip J5) as (_ & st & ls & db & _ & _ & _ & _ & _ & Hout & _).
  assert (case_found w f lib !! "" = None) as Hnil.
  { apply eq_None_not_Some. intros [d Hd]. unfold case_found in Hd. destruct (fs_dir_exists f lib); [|done].
    by apply prior_installed_in in Hd as [(? & _)|Hd]. }
  destruct (outdated_spec nx0 (case_found w f lib) _ _ K1 Hnil (ask_perm _ _ (sub_ok _ 3 Ho2)) Hout) as [Hx1 _].
  apply elem_of_list_fmap in Hup as (q & [= -> _] & Hq). rewrite P4 in Hq. apply Hx1 in Hq as (old & new & Q1 & Q2 & _ & _ & c & Q3 & Q4).
  destruct (plan_downloads nx0 _ _ _ _ deps2 _ _ K1 K2 Ho2 K3 J4 ip J5) as (_ & D2 & D3).
  assert (op_package q ∈ map (fun dl => d_package (dl_package dl)) (ip_downloads ip)) as Hdl.
  { rewrite D3. unfold planned_names. rewrite elem_of_app. destruct Hpl as [Hz|[d0 Hz]]; [by left|right].
    apply elem_of_list_fmap. exists (op_package q, d0). split; [done|]. by apply elem_of_map_to_list. }
  apply elem_of_list_fmap in Hdl as (dl & Edl & Hdl). pose proof (D2 dl Hdl) as Hgd. rewrite <- Edl in Hgd.
  exists old. eexists. exists c. split; [done|]. split; [apply elem_of_list_fmap; exists dl; split; [reflexivity|done]|]. cbn [w_pkg w_version].
  split; [done|]. split; [|done]. unfold offered in Q2. destruct Q2 as [cc Q2]. rewrite Hgd in Q2. by injection Q2 as <- _.
Qed.
(** The library that is shown. *)
Lemma told_library ts r g : library_text w ts r -> last_given "library" g = last_given "library" (given_in ts) ->
  case_library w (flags_of int g) = Some r.
Proof.
  intros Hg L2. unfold case_library, flags_of. cbn [fl_library]. rewrite L2.
  destruct Hg as [(t & H1 & H2 & H3)|[H1 [(H2 & H3 & H4 & ->)|(H2 & pre & t & post & H3 & H4 & H5 & H6 & H7)]]].
  - by apply (C70_configured _ t).
  - match goal with |- library_of ?c = _ => destruct (C70_lockfile c H1) as (K & _) end. by apply K.
  - destruct (C70_lockfile {| lc_flag := last_given "library" (given_in ts); lc_env := va_library (ic_vars w); lc_file := fi_library (ic_keys w);
      lc_lock := ic_lock w; lc_renv := ic_renv w; lc_version := ic_version w; lc_platform := ic_platform w; lc_home := ic_home w |} H1) as (_ & _ & K & _).
    by apply (K H2 pre t post).
Qed.

Lemma count_perm {A} (P : A -> Prop) l l' n : l ≡ₚ l' -> count P l n -> count P l' n.
Proof.
  intros H. revert n. induction H as [|y l l' Hz IH|y z l|l l' l'' H1 IH1 H2 IH2]; intros n C; [done| | |by apply IH2, IH1].
  - inversion C; subst; constructor; try done; by apply IH.
  - inversion C as [|? ? ? Hy Cy|? ? ? Hy Cy]; subst; inversion Cy; subst; repeat constructor; done.
Qed.

Lemma count_map {A B} (g : A -> B) (P : B -> Prop) l n : count P (map g l) n -> count (fun y => P (g y)) l n.
Proof.
  revert n. induction l as [|y l IH]; intros n C; inversion C; subst; constructor; try done; by apply IH.
Qed.

(** The numbers: the updates, what is in the library, where the packages come from and how
    many are to be installed; and the library is shown as it is written. *)
Theorem C167_numbers : forall ts ts' dir file lib r f t ip keys add add' l n pe ae f',
  command_line int ["plan"] ts -> install_line int ts' -> same_options ts ts' ->
  names_file (ic_cwd w) ts' dir file -> library_text w ts' r -> stands_for dir r lib -> sound_case w -> oracle_ok o ->
  plan_program int w vk (line_of ts) f (SShown t) ->
  install_program int (once_more w o) e x Rs R (line_of ts') f (PDone ip keys add add' l n pe ae) f' ->
  pt_library t = r /\
  count (fun u => u.2 = true) (pt_updates t) (pt_to_update t) /\ sm_outdated (pt_status t) = length (pt_updates t) /\
  sm_installed (pt_status t) = length (names_of (case_found w f lib)) /\
  count (foreign (case_found w f lib)) (names_of (case_found w f lib)) (sm_not_from_pkgr (pt_status t)) /\
  pt_sources t !! "tarballs" = Some (length l) /\
  (forall rn m, rn <> "tarballs" -> count (fun d => ru_name (w_repo d) = rn) (wants ip) m -> default 0 (pt_sources t !! rn) = m) /\
  (forall q, NoDup q -> (forall p, p ∈ q <-> planned ip p /\ is_Some (case_found w f lib !! p) /\ ic_unpacked w !! p = None) ->
     pt_to_install t = (Z.of_nat (sm_required (pt_status t)) - Z.of_nat (length q) + Z.of_nat (pt_to_update t))%Z).
Proof.
  intros ts ts' dir file lib r f t ip keys add add' l n pe ae f' Hl Hl' Hsame Hf Hr Hstands Hw Ho Hv Ha.
  inversion Hv as [| |dir1 lib1 s g nx0 ip0 keys0 add0 inst deps0 lt Hs E Hk0 Ha0 Hi0 Hd0 Hlt]; subst t.
  cbn [pt_library pt_updates pt_to_update pt_status pt_sources pt_to_install].
  inversion Ha as [| | | |dir' lib' s' nx' ip' k a1 a2 l' n' fd pe' ae' f3 Hs' E' Hcr Hk Hadd Hadd' Hll Hn He Hx]; subst.
  assert (names_library w ts' dir lib) as Hlib by (by exists r).
  destruct (line_starts int (once_more w o) ts' dir file lib _ _ s' Hl' Hf Hlib Hs') as (_ & Elib & _).
  assert (lt = r) as ->.
  { destruct Hs as (w1 & name & l1 & Ex & _). destruct Hl as [[ws Hws] Hh].
    destruct (C158_meant int ["plan"] ts ws _ _ Hws eq_refl eq_refl) as (h & L & Eh). rewrite bool_decide_false in Eh by done.
    rewrite Ex in Eh. injection Eh as <- <-. rewrite (told_library ts' r g Hr) in Hlt; [congruence|]. rewrite L. by apply Hsame. }
  destruct (both_start _ _ _ _ _ _ _ _ _ Hl Hl' Hsame Hs Hs') as (_ & El & <-). rewrite Elib in *. subst lib1.
  pose proof (both_plan s f lib Hw Ho) as Hp. rewrite E, E' in Hp. destruct Hp as [<- (P1 & P2 & P3 & P4 & P5 & P6 & P7)].
  destruct (planned_case w s f lib nx0 ip0 Hw E) as (deps1 & Hc1 & K1 & K2 & K3 & K4 & K5 & K6). cbv zeta in K4, K5, K6.
  pose proof (sub_ok _ 1 (sc_orders _ Hw)) as Ho1.
  destruct (plan_ok_inv nx0 _ _ _ _ deps1 _ _ K1 K2 Ho1 K3 K4 ip0 K5) as (_ & st & ls & db & _ & _ & _ & _ & _ & _ & Hpre & _ & Hupd).
  assert (inst ≡ₚ names_of (case_found w f lib)) as Hi1 by (rewrite Hi0; apply fst_map_to_list_dom).
  split; [done|]. split.
  { rewrite to_update_spec. unfold update_messages. clear. generalize (ip_outdated ip0). intros out. destruct (se_no_update s); induction out as [|y ys IH]; cbn; [constructor|by apply count_no|constructor|by apply count_yes]. }
  split. { unfold update_messages. by rewrite map_length. }
  split; [|split].
  - cbn [status_of sm_installed]. rewrite Hpre. unfold names_of. by rewrite <- size_dom.
  - cbn [status_of sm_not_from_pkgr]. apply (count_perm _ inst); [done|]. rewrite Hpre. cbn [get_installers snd]. apply count_filter. intros p Hpi.
    rewrite Hi1 in Hpi. unfold names_of in Hpi. rewrite elem_of_elements, elem_of_dom in Hpi. destruct Hpi as [d Hdp]. unfold foreign.
    rewrite Hdp, negb_involutive, String.eqb_eq. split; [by exists d|]. by intros (d' & [= <-] & Ed).
  - destruct (C121_sources_partial ip0 add0) as (S1 & S2 & _). split; [|split].
    + rewrite S2. f_equal. rewrite Ha0, Hll. by rewrite fmap_length.
    + intros rn m Hrn Hm. apply S1; [done|]. apply (count_perm _ (ip_downloads ip)); [done|].
      unfold wants in Hm. by apply count_map in Hm.
    + intros q Hq Hin. rewrite to_update_spec. rewrite (C28_exact ip0 keys0 add0 q Hq).
      * cbn [status_of sm_required]. unfold get_all_packages. rewrite !app_length, Hupd. destruct (se_no_update s); cbn [negb]; lia.
      * intros p. rewrite Hin, Hpre, Ha0, Hk0. unfold planned. rewrite P1. assert (p ∈ (map_to_list (ic_unpacked w)).*1 <-> is_Some (ic_unpacked w !! p)) as X1.
        { rewrite fst_map_to_list_dom, elem_of_elements. apply elem_of_dom. }
        assert (p ∈ (map_to_list (ip_depdb ip0)).*1 <-> is_Some (ip_depdb ip !! p)) as X2.
        { rewrite fst_map_to_list_dom, elem_of_elements, elem_of_dom. specialize (P2 p).
          destruct (ip_depdb ip0 !! p), (ip_depdb ip !! p); try done; by split; intros [? ?]. }
        rewrite X1, X2, eq_None_not_Some. tauto.
Qed.
End lines.
Print Assumptions C167_ends.
Print Assumptions C167_same.
Print Assumptions C167_listed.
Print Assumptions C167_kept.
Print Assumptions C167_updated.
Print Assumptions C167_numbers.

(** ** Example: pkgr plan --library /lib --show-deps, where the file asks for b; b needs a, of
    which the version in the repository is in the library. *)
Definition wp_plan_line : list token := [TWord "plan"; TNext "library" "/lib"; TSwitch "show-deps"].
Definition wp_line : list token := [TWord "install"; TNext "library" "/lib"].
Definition wp_case : install_case := {|
  ic_home := "/home"; ic_cwd := ["home"]; ic_cpus := 1; ic_vars := no_vars; ic_keys := ex_file;
  ic_lock := ""; ic_renv := None; ic_version := RVersion 4 0 5; ic_platform := "x";
  ic_file := PlanConfig ["b"] [] false false false []; ic_nexus := ic_nexus wl_case;
  ic_tarballs := []; ic_unpacked := ∅; ic_descriptions := [];
  ic_dirs := [("a", Some (mk_pkg "a" "2.0" [] [] [] [])); ("z", None)]; ic_orders := id_oracle
|}.
Definition wp_settings : settings := {|
  se_no_update := false; se_no_rollback := true; se_no_secure := false; se_strict := false; se_library := "/lib"; se_rpath := "R"; se_threads := 1
|}.
Definition no_view : view_keys := {| vk_all := None; vk_json := None; vk_show_deps := None; vk_config := None |}.
Definition wp_plan : install_plan :=
  match case_plan wp_case wp_settings (fs_of wz_files) ["lib"] with PIPlan _ ip => ip | _ => wx_plan end.
Definition wp_input : run_input := RunInput wp_plan ["b"] [] [] (case_found wp_case (fs_of wz_files) ["lib"]).
Definition wp_text : plan_text := {|
  pt_workers := 1; pt_status := {| sm_required := 2; sm_installed := 1; sm_outdated := 0; sm_not_from_pkgr := 1 |};
  pt_sources := sources_of wp_plan []; pt_updates := []; pt_to_update := 0; pt_to_install := 1; pt_library := "/lib";
  pt_lines := [{| ln_package := "b"; ln_version := "1.0"; ln_repo := "r"; ln_type := STSource |}]; pt_deps := [("b", ["a"])] |}.
Definition wp_after : fsys := write_file (place wz_env wz_b) "source of b" (write_file (place wz_env wz_b) "" (wz_dirs (fs_of wz_files))).

Lemma wp_job : Job (ip_starting wp_plan) (ip_depdb wp_plan) ["b"] 1 = wx_job.
Proof. vm_compute. reflexivity. Qed.
Lemma wp_wants : wants wp_plan = [wz_a; wz_b].
Proof. vm_compute. reflexivity. Qed.
Lemma wp_prepare : run_ops (prepare_ops (run_conf ["lib"] wp_settings) wp_input) (fs_of wz_files) = fs_of wz_files.
Proof. vm_compute. reflexivity. Qed.

Lemma wp_sound : sound_case wp_case.
Proof.
  split.
  - apply nexus_okb_sound. vm_compute. reflexivity.
  - apply no_recordb_sound. vm_compute. reflexivity.
  - apply id_oracle_ok.
  - constructor.
  - constructor.
Qed.

Example C167_example :
  command_line ex_int ["plan"] wp_plan_line /\ install_line ex_int wp_line /\ same_options wp_plan_line wp_line /\
  names_file (ic_cwd wp_case) wp_line ["home"] "pkgr.yml" /\ names_library wp_case wp_line ["home"] ["lib"] /\
  sound_case wp_case /\ oracle_ok id_oracle /\ sound_r (toy_process []) (toy []) toy_name /\ tree_ok (fs_of wz_files) /\
  lists_library (fs_of wz_files) ["lib"] (ic_dirs wp_case) /\ ic_unpacked wp_case = ∅ /\
  sound_run wp_case wz wz_env toy_name wx_dirs wp_plan ["b"] [] [] [] 1 /\ all_fetched (wants wp_plan) (e_downloads wz) /\
  plan_program ex_int wp_case no_view (line_of wp_plan_line) (fs_of wz_files) (SShown wp_text) /\
  exists g, install_program ex_int (once_more wp_case id_oracle) wz wz_env (toy_process []) (toy []) (line_of wp_line) (fs_of wz_files)
      (PDone wp_plan ["b"] [] [] [] 1 false false) g /\
    g ["lib"; "b"] = Some Dir /\ g ["lib"; "a"; "DESCRIPTION"] = Some (File "a old").
Proof.
  destruct C99_downloaded_example as (_ & _ & X1 & _ & X2 & X3 & X4 & X5 & X6 & X7 & X8 & X9 & _ & fd & f3 & X10 & X11 & _).
  split; [split; [|done]|].
  { eexists. eexists _, _, [], "plan", _. split; [reflexivity|]. split; [reflexivity|]. split; [reflexivity|]. split; [reflexivity|].
    split; [constructor|]. split; [|by left]. repeat constructor; cbn [proper].
    + eexists _, _. split; [reflexivity|done].
    + eexists. split; [reflexivity|]. by split.
    + eexists. split; [reflexivity|]. done. }
  split; [split; [|done]|].
  { eexists. eexists _, _, [], "install", _. split; [reflexivity|]. split; [reflexivity|]. split; [reflexivity|]. split; [reflexivity|].
    split; [constructor|]. split; [|by left]. repeat constructor; cbn [proper].
    + eexists _, _. split; [reflexivity|done].
    + eexists. split; [reflexivity|]. by split. }
  split.
  { intros m Hm. change (given_in wp_plan_line) with [("library", "/lib"); ("show-deps", "true")]. change (given_in wp_line) with [("library", "/lib")].
    cbn [last_given]. destruct (String.eqb_spec "show-deps" m) as [E|E]; [congruence|done]. }
  split; [left; by split|]. split.
  { exists "/lib". split.
    - left. exists "/lib". split; [by left|]. split; [done|]. apply hp_other. done.
    - apply (plain_abs_stands ["home"] ["lib"]); [done|]. intros y Hy. apply elem_of_list_singleton in Hy as ->. by repeat split. }
  split; [exact wp_sound|]. split; [apply id_oracle_ok|]. split; [by split|]. split; [apply tree_okb_sound; vm_compute; reflexivity|].
  split. { apply lists_libraryb_sound. vm_compute. reflexivity. }
  split; [reflexivity|]. split.
  { split.
    - apply r_nameb_all. vm_compute. reflexivity.
    - by rewrite wp_wants.
    - by rewrite wp_job.
    - split; [intros p a H|constructor|intros p a H|intros p a q b H|intros p a H]; by apply elem_of_nil in H.
    - intros p a H. by apply elem_of_nil in H. }
  split; [by rewrite wp_wants|]. split.
  { assert (exists nx, case_plan wp_case wp_settings (fs_of wz_files) ["lib"] = PIPlan nx wp_plan /\
      install_lines nx wp_plan ["b"] [] ["a"] = pt_lines wp_text) as (nx & E & El) by (eexists; split; vm_compute; reflexivity).
    pose proof (pp_shown ex_int wp_case no_view (line_of wp_plan_line) (fs_of wz_files) ["home"] ["lib"] wp_settings
      [("library", "/lib"); ("show-deps", "true")] nx wp_plan ["b"] [] ["a"] [("b", ["a"])] "/lib") as P.
    rewrite El in P. change (status_of wp_plan ["b"] [] ["a"]) with (pt_status wp_text) in P.
    change (update_messages (se_no_update wp_settings) wp_plan) with (pt_updates wp_text) in P.
    change (to_update (se_no_update wp_settings) wp_plan) with (pt_to_update wp_text) in P.
    change (num_to_install wp_plan ["b"] []) with (pt_to_install wp_text) in P. apply P; clear P.
    - eexists _, _, _. split; [vm_compute; reflexivity|]. split; [reflexivity|]. split; [reflexivity|]. split; [reflexivity|]. split; reflexivity.
    - exact E.
    - vm_compute. done.
    - vm_compute. done.
    - vm_compute. done.
    - vm_compute. done.
    - reflexivity. }
  eexists. split.
  { eapply (ip_done _ _ _ _ _ _ _ _ ["home"] ["lib"] wp_settings _ wp_plan ["b"] [] [] [] 1 wp_after false false).
    - eexists _, _, _, _. split; [vm_compute; reflexivity|]. split; [reflexivity|]. split; [reflexivity|]. split; [reflexivity|]. split; reflexivity.
    - vm_compute. reflexivity.
    - vm_compute. discriminate.
    - vm_compute. done.
    - vm_compute. done.
    - done.
    - vm_compute. done.
    - reflexivity.
    - reflexivity.
    - reflexivity.
    - change (case_found (once_more wp_case id_oracle)) with (case_found wp_case). fold wp_input. rewrite wp_prepare, wp_wants.
      eexists _, _. split; [|split; [|split]].
      + eapply (fetching_on _ _ _ [wz_repo]); [vm_compute; reflexivity|dirs_made|].
        unfold finitial. cbn [map].
        begin_get 1. begin_get 0.
        get 0; [apply k_there; vm_compute; reflexivity|].
        get 1; [apply k_absent; vm_compute; reflexivity|].
        get 1; [replied (Body "source of b" true)|].
        get 1; [apply k_make; vm_compute; reflexivity|].
        end_get 0.
        get 1; [apply (k_copy _ _ _ _ "source of b" ""); discriminate|].
        get 1; [apply k_done|]. end_get 1. all_done.
      + reflexivity.
      + reflexivity.
      + reflexivity.
    - rewrite wp_job. eapply (installs_all _ _ _ _ _ _ _ _ None).
      + unfold tinitial, initial, wx_job; cbn [j_starting j_workers replicate].
        sched main_add. sched main_send. sched req_mark. sched req_push.
        eapply tg_cons; [apply ts_start, work_start with (w1 := [])|cbn [app]].
        sched main_wait. busy w_present. finish (ROk true). cbn [to_copy]. post.
        eapply tg_cons; [apply ts_sched; [apply upd_ok|done]|]. change (dependents _ "a") with ["b"].
        sched upd_suggest. sched upd_send. sched req_mark. sched req_push. sched upd_copied. sched upd_done.
        eapply tg_cons; [apply ts_start, work_start with (w1 := [])|cbn [app]].
        build. r_good. use_binary. r_good. zball. finish (ROk true). copy. post.
        eapply tg_cons; [apply ts_sched; [apply upd_ok|done]|]. change (dependents _ "b") with (@nil string).
        sched upd_copied. sched upd_done. at_end.
      + reflexivity.
      + reflexivity.
      + reflexivity.
      + reflexivity. }
  change (case_found (once_more wp_case id_oracle)) with (case_found wp_case). fold wp_input. split; vm_compute; reflexivity.
Qed.

(** The plan for the run of C166_example: a will be updated. *)
Definition wu_line : list token := [TWord "plan"; TNext "library" "/lib"; TSet "no-rollback" "false"].

Example C167_updated_example :
  command_line ex_int ["plan"] wu_line /\ same_options wu_line wl_line /\ once_more wl_case id_oracle = wl_case /\ planned wl_plan "a" /\
  exists t, plan_program ex_int wl_case no_view (line_of wu_line) (fs_of wz_files) (SShown t) /\ ("a", true) ∈ pt_updates t /\
    exists g, install_program ex_int wl_case wz wz_env (toy_process []) (toy []) (line_of wl_line) (fs_of wz_files)
      (PDone wl_plan ["b"] ["t"] ["t"] wx_tarballs 1 false false) g.
Proof.
  destruct C166_example as (_ & _ & _ & _ & _ & _ & _ & _ & _ & _ & g & Hg & _).
  split; [split; [|done]|].
  { eexists. eexists _, _, [], "plan", _. split; [reflexivity|]. split; [reflexivity|]. split; [reflexivity|]. split; [reflexivity|].
    split; [constructor|]. split; [|by left]. repeat constructor; cbn [proper].
    + eexists _, _. split; [reflexivity|done].
    + eexists. split; [reflexivity|]. by split.
    + eexists. split; [reflexivity|]. by eexists. }
  split; [by intros m Hm|]. split; [reflexivity|].
  assert (ip_starting wl_plan = ["a"]) as Es by (vm_compute; reflexivity). split; [left; rewrite Es; by left|].
  assert (exists nx, case_plan wl_case wl_settings (fs_of wz_files) ["lib"] = PIPlan nx wl_plan) as (nx & E) by (eexists; vm_compute; reflexivity).
  eexists. split; [|split].
  - apply (pp_shown ex_int wl_case no_view (line_of wu_line) (fs_of wz_files) ["home"] ["lib"] wl_settings
      [("library", "/lib"); ("no-rollback", "false")] nx wl_plan ["b"] ["t"] ["a"] [] "/lib").
    + eexists _, _, _. split; [vm_compute; reflexivity|]. split; [reflexivity|]. split; [reflexivity|]. split; [reflexivity|]. split; reflexivity.
    + exact E.
    + vm_compute. done.
    + vm_compute. done.
    + vm_compute. done.
    + vm_compute. done.
    + reflexivity.
  - cbn [pt_updates]. assert (update_messages (se_no_update wl_settings) wl_plan = [("a", true)]) as -> by (vm_compute; reflexivity). by left.
  - by exists g.
Qed.

(** ** What is not so *)

(** With --strict and without a library, plan shows a plan, and install does not start with
    the same flags. *)
Definition ws_plan_line : list token := [TWord "plan"; TSwitch "strict"; TNext "library" "/new"].
Definition ws_line : list token := [TWord "install"; TSwitch "strict"; TNext "library" "/new"].
Definition ws_settings : settings := {|
  se_no_update := false; se_no_rollback := true; se_no_secure := false; se_strict := true; se_library := "/new"; se_rpath := "R"; se_threads := 1
|}.

Theorem C167_strict_refuted :
  command_line ex_int ["plan"] ws_plan_line /\ install_line ex_int ws_line /\ same_options ws_plan_line ws_line /\ sound_case wp_case /\
  (exists t, plan_program ex_int wp_case no_view (line_of ws_plan_line) (fs_of wz_files) (SShown t)) /\
  forall a f', install_program ex_int wp_case wz wz_env (toy_process []) (toy []) (line_of ws_line) (fs_of wz_files) a f' ->
    a = PStop /\ f' = fs_of wz_files.
Proof.
  split; [split; [|done]|].
  { eexists. eexists _, _, [], "plan", _. split; [reflexivity|]. split; [reflexivity|]. split; [reflexivity|]. split; [reflexivity|].
    split; [constructor|]. split; [|by left]. repeat constructor; cbn [proper].
    + eexists _, _. split; [reflexivity|done].
    + eexists. split; [reflexivity|]. done.
    + eexists. split; [reflexivity|]. by split. }
  split; [split; [|done]|].
  { eexists. eexists _, _, [], "install", _. split; [reflexivity|]. split; [reflexivity|]. split; [reflexivity|]. split; [reflexivity|].
    split; [constructor|]. split; [|by left]. repeat constructor; cbn [proper].
    + eexists _, _. split; [reflexivity|done].
    + eexists. split; [reflexivity|]. done.
    + eexists. split; [reflexivity|]. by split. }
  split; [by intros m Hm|]. split; [exact wp_sound|].
  assert (exists nx ip, case_plan wp_case ws_settings (fs_of wz_files) ["new"] = PIPlan nx ip /\ ip_create_library ip = true) as (nx & ip & E & Ec)
    by (eexists _, _; split; vm_compute; reflexivity).
  split.
  { eexists. apply (pp_shown ex_int wp_case no_view (line_of ws_plan_line) (fs_of wz_files) ["home"] ["new"] ws_settings
      [("strict", "true"); ("library", "/new")] nx ip (map_to_list (ip_depdb ip)).*1 [] [] [] "/new").
    + eexists _, _, _. split; [vm_compute; reflexivity|]. split; [reflexivity|]. split; [reflexivity|]. split; [reflexivity|]. split; reflexivity.
    + exact E.
    + done.
    + vm_compute. done.
    + vm_compute. done.
    + vm_compute. done.
    + reflexivity. }
  assert (forall dir lib s, case_starts ex_int wp_case (line_of ws_line) dir lib s -> lib = ["new"] /\ s = ws_settings) as K.
  { intros dir lib s (g & ws & name & l & H1 & H2 & -> & -> & H3 & ->). vm_compute in H1. injection H1 as <- <-.
    vm_compute in H2. injection H2 as <-. vm_compute in H3. injection H3 as <-. split; reflexivity. }
  intros a f' Ha.
  inversion Ha as [dir' lib' s' m' Hs' E'|dir' lib' s' Hs' E'|dir' lib' s' nx' ip' Hs' E'|dir' lib' s' nx' ip' k a1 a2 ls st Hs' E' Hcr|dir' lib' s' nx' ip' k a1 a2 l n fd pe ae f3 Hs' E' Hcr]; subst;
    destruct (K _ _ _ Hs') as [El ->]; rewrite El in E'.
  - exfalso. clear - E E'. rewrite E in E'. discriminate E'.
  - by split.
  - by split.
  - exfalso. rewrite E in E'. injection E' as <- <-. destruct (Hcr Ec) as [Hx _]. discriminate Hx.
  - exfalso. rewrite E in E'. injection E' as <- <-. destruct (Hcr Ec) as [Hx _]. discriminate Hx.
Qed.
Print Assumptions C167_strict_refuted.
