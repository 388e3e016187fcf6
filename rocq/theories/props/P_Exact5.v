(** Further claims, in all cases: indexes, plans, the created library, the workers, stamps,
    unpacking, cleaning and the environment of R. *)
From stdpp Require Import strings list gmap.
From Coq Require Import Ascii ZArith Lia.
From Verif.model Require Import GoStr Version Desc Nexus Graph RepoDb Pacman Plan Fs Rollback Sched Env Install Download Stamp Extract Clean.
From Verif.spec Require Import StrSpec RepoSpec FetchSpec PlanSpec GraphSpec LibSpec RollbackSpec SchedSpec StampSpec ExtractSpec EnvSpec
  CleanSpec InstallSpec Exact4Spec.
From Verif.proofs Require Import GoStrLemmas RepoProofs FetchProofs GraphProofs PlanProofs PlanProps FsProofs RollbackProofs RunProofs RunProps2 SchedProps StampProofs
  ExtractProofs EnvProofs CleanProofs CacheProofs RunLink ExampleChecks ExampleWorlds Exact5Proofs.
From Verif.props Require Import P_Repo P_Graph P_Library P_Sched P_Stamp P_Extract P_Clean P_Env P_Install.

Local Open Scope string_scope.
Local Arguments Ascii.eqb : simpl never.
Local Arguments char_eqb : simpl never.

(** ** C11: when an index that cannot be read is reported *)

Theorem C11_exact now env cache b arr outcome : arrivals_of outcome (initial_types b) arr -> ~ fresh now env cache ->
  ((fetch_packages now env cache (initial_types b) arr).1 = FetchError <->
   b = true /\ forall st, st ∈ (initial_types b).*1 -> outcome st = None) /\
  (forall l, (fetch_packages now env cache (initial_types b) arr).1 = FetchOk l ->
   forall st m, st ∈ (initial_types b).*1 -> (index_for l st m <-> m = default ∅ (outcome st))).
Proof.
  intros Ha Hf.
  assert (NoDup (initial_types b).*1) as Hn.
  { destruct b; apply (bool_decide_unpack _); vm_compute; done. }
  assert (forall (l : list (source_type * gmap string desc)) st m m', index_for l st m -> index_for l st m' -> m = m') as Hu.
  { intros l st m m' H1 H2. apply index_for_descs in H1 as [_ <-], H2 as [_ <-]. done. }
  assert (forall st m, st ∈ (initial_types b).*1 -> index_for (initial_types b) st m <-> m = ∅) as Hi.
  { intros st m Hs. rewrite index_for_descs. split.
    - intros [_ <-]. destruct b, st; cbn in *; done.
    - intros ->. split; [done|]. destruct b, st; cbn in *; done. }
  destruct (fetch_stale now env cache (initial_types b) arr outcome Hn Ha Hf) as [S1 S2].
  assert ((b = true /\ forall st, st ∈ (initial_types b).*1 -> outcome st = None) \/
          (length (initial_types b) <= 1 \/ (exists st, st ∈ (initial_types b).*1 /\ outcome st <> None))) as Hc.
  { destruct b; [|right; left; vm_compute; lia]. destruct (outcome STBinary) eqn:E1; [right; right; exists STBinary; split; [vm_compute; set_solver|congruence]|].
    destruct (outcome STSource) eqn:E2; [right; right; exists STSource; split; [vm_compute; set_solver|congruence]|].
    left. split; [done|]. intros st Hs. cbn in Hs. set_solver. }
  destruct Hc as [[Eb Hall]|Hok].
  - rewrite S1; [|rewrite Eb; vm_compute; lia|done]. split; [done|]. intros l El. discriminate El.
  - destruct (S2 Hok) as (l & -> & Hl & H). cbn [fst]. split.
    + split; [done|]. intros [Eb Hall]. exfalso. destruct Hok as [Hlen|(st & Hs & No)]; [rewrite Eb in Hlen; vm_compute in Hlen; lia|]. by apply No, Hall.
    + intros l' [= <-] st m Hs. specialize (H st Hs). destruct (outcome st) as [m0|] eqn:Eo; cbn [default].
      * split; [intros Hm; by eapply Hu|by intros ->].
      * rewrite H. by apply Hi.
Qed.

Example C11_exact_example :
  let arr := [(STSource, None)] in
  arrivals_of (fun _ => None) (initial_types false) arr /\
  (fetch_packages 100 None None (initial_types false) arr).1 <> FetchError /\
  (fetch_packages 100 None None (initial_types true) [(STSource, None); (STBinary, None)]).1 = FetchError.
Proof.
  split; [unfold arrivals_of; cbn; reflexivity|]. split; [vm_compute; discriminate|].
  apply (C11_exact 100 None None true _ (fun _ => None)).
  - unfold arrivals_of. cbn. apply perm_swap.
  - by intros (cf & n & H & _).
  - done.
Qed.

(** ** C18: when two index files have the same name *)

Theorem C18_exact b b' x x' r r' rv rv' : rv_ok rv -> rv_ok rv' ->
  hash_text b r (initial_types x) (rv_full rv) = hash_text b' r' (initial_types x') (rv_full rv') <->
  ru_name r +:+ ru_url r = ru_name r' +:+ ru_url r' /\ rv = rv'.
Proof.
  intros H H'. unfold hash_text. rewrite !initial_sum. split.
  - intros E.
    assert (forall s t v, s +:+ t +:+ "source" +:+ v = ((s +:+ t) +:+ "sourc") +:+ String "e" v) as A.
    { intros s t v. rewrite !app_assoc_str. done. }
    rewrite !A in E. apply (split_at_last version_byte) in E as (E1 & _ & E2); try done; try apply rv_full_bytes.
    apply app_inj_right in E1. split; [done|]. by apply rv_full_inj.
  - intros [E ->]. rewrite <- !(app_assoc_str (ru_name _)), E. done.
Qed.

(** A repository "a" at "bc" and a repository "ab" at "c" share their index file. *)
Example C18_exact_example :
  hash_text false (RepoURL "bc" "a" "") (initial_types true) (rv_full (RVersion 4 0 1)) =
  hash_text true (RepoURL "c" "ab" "") (initial_types false) (rv_full (RVersion 4 0 1)).
Proof. apply C18_exact; [by repeat constructor..|done]. Qed.

(** ** C29: when planning succeeds, fails and crashes *)

Theorem C29_exact nx nr o pkgs pre cfg update le :
  nexus_ok nx -> ~ available nx "R" -> oracle_ok o -> standard_config nr cfg -> pre !! "" = None ->
  (forall p, p ∈ pkgs -> available nx p) ->
  let circular := has_cycle (fun a b => closure cfg nx pkgs a /\ needs nx nr a b) in
  let comparable := forall p d d', pre !! p = Some d -> offered nx p d' ->
    compare_version_strings (d_version d') (d_version d) <> None in
  let result := resolve_installation_reqs o pkgs pre cfg nx update le nr in
  ((exists ip, result = PlanOk ip) <-> ~ circular /\ pkgs <> [] /\ comparable) /\
  (result = PlanError <-> circular) /\
  (result = PlanPanic <-> ~ circular /\ ~ (pkgs <> [] /\ comparable)).
Proof.
  intros Hnx HR Ho Hc H0 Hav circular comparable result.
  assert (result = PlanError <-> circular) as E1 by (by apply plan_error_cycle).
  assert ((exists ip, result = PlanOk ip) <-> ~ circular /\ pkgs <> [] /\ comparable) as E2.
  { split.
    - intros [ip Hip]. split; [intros Hcy; apply E1 in Hcy; congruence|].
      destruct (plan_cases nx nr Hnx HR o pkgs pre cfg update le Ho Hc Hav)
        as [[_ E]|(_ & ls & db & (N & F & M & _) & _ & E)]; [subst result; congruence|]. cbv zeta in E.
      subst result. rewrite E in Hip. clear E. destruct (get_outdated _ _) as [out|] eqn:Eo; [|done].
      split.
      + intros ->. destruct ls as [|l ls]; [done|]. apply Forall_cons in F as [Fl _].
        destruct l as [|p l]; [done|]. assert (p ∈ concat ((p :: l) :: ls)) as Hp by (cbn; left).
        apply M in Hp as (q & Hq & _). by apply elem_of_nil in Hq.
      + intros p d d' Hp Hof. pose proof Hof as [c Hg].
        pose proof (get_outdated_defined _ _ _ Eo) as D.
        assert (d_package d' = p) as Hname by (by eapply offered_name).
        specialize (D (PkgDl c d') d). cbn [dl_package] in D. rewrite Hname in D. apply D; [|done].
        apply elem_of_list_fmap. exists p. unfold get_package_go. rewrite Hg. split; [done|].
        rewrite (ask_perm _ _ (sub_ok o 3 Ho)). apply elem_of_elements, elem_of_dom. by eexists.
    - intros (A1 & A2 & A3). by apply plan_succeeds. }
  split; [exact E2|]. split; [exact E1|]. split.
  - intros Hp. split; [intros Hcy; apply E1 in Hcy; congruence|]. intros [H1 H2].
    assert (~ circular) as Hn by (intros Hcy; apply E1 in Hcy; congruence).
    destruct (proj2 E2 (conj Hn (conj H1 H2))) as [ip Hip]. congruence.
  - intros [Hn Hno].
    destruct (plan_cases nx nr Hnx HR o pkgs pre cfg update le Ho Hc Hav) as [[Hcy _]|(_ & ls & db & _ & _ & E)]; [done|].
    cbv zeta in E. fold result in E. destruct (get_outdated _ _); [destruct ls|]; [done| |done].
    exfalso. apply Hno. destruct (proj1 E2) as (_ & H1 & H2); [by eexists|done].
Qed.

Example C29_exact_example :
  resolve_installation_reqs id_oracle ["core"] {[ "core" := mk_pkg "core" "2" [] [] [] [] ]}
    (default_config false) ex_nx true true false = PlanPanic /\
  compare_version_strings "2.1.0" "2" = None /\
  exists ip, resolve_installation_reqs id_oracle ["core"] {[ "core" := mk_pkg "core" "2.0" [] [] [] [] ]}
    (default_config false) ex_nx true true false = PlanOk ip.
Proof. split; [vm_compute; reflexivity|]. split; [vm_compute; reflexivity|]. eexists. vm_compute. reflexivity. Qed.

(** ** C34: what is left of a library that was created *)

Theorem C34_exact c i sc w f : run_ok c i f -> world_ok c i sc w f ->
  ip_create_library (ri_plan i) = true -> rc_no_rollback c = false -> failed w ->
  rt_outcome (r_install c i w f) = Exit 0 ->
  (forall q, in_dir (Rollback.rc_library c) q -> run_final c i w f q = None) /\
  (forall q, ~ sc q -> in_dir q (Rollback.rc_library c) -> q <> Rollback.rc_library c -> run_final c i w f q = Some Dir) /\
  (forall q, ~ sc q -> ~ in_dir q (Rollback.rc_library c) -> ~ in_dir (Rollback.rc_library c) q -> run_final c i w f q = f q).
Proof.
  intros Hok Hw Hc Hr Hf Ho. destruct (created_removed c i sc w f Hok Hw Hc Hr Hf Ho) as (A1 & A2 & _).
  split; [intros q [s ->]; apply A1|]. split; [|intros q Hsc N1 N2; by destruct (A2 q Hsc N2) as [|[? _]]].
  intros q Hsc [s Es] Nq. assert (s <> []) as Ns by (intros ->; rewrite app_nil_r in Es; done).
  assert (~ in_dir (Rollback.rc_library c) q) as Nl.
  { intros [t Et]. rewrite Et, <- app_assoc in Es. rewrite <- (app_nil_r (Rollback.rc_library c)) in Es at 1.
    apply app_inv_head in Es. symmetry in Es. apply app_eq_nil in Es as [-> ->]. done. }
  destruct (create_nothing c i f Hok Hc) as (Nu & No & _).
  unfold run_final, r_install in *. rewrite Hc in *. cbn [andb] in *.
  destruct (rc_strict c); [done|]. destruct (mkdir_all (Rollback.rc_library c) f) as [g|] eqn:Em; [|done].
  destruct (rw_download_fails w); [done|].
  unfold run_changes. cbn [rt_prepare rt_install rt_rollback rt_cleanup].
  assert (run_ops (prepare_ops c i) f = g) as F1.
  { rewrite (prepare_eq c i f Hok), Hc, Nu, No. cbn. by rewrite Em. }
  rewrite !run_ops_app. rewrite F1. cbn [run_ops fold_left exec].
  assert (forall h, rollback_ops c i w h = [ORemoveAll (Rollback.rc_library c)]) as R.
  { intros h. unfold rollback_ops. rewrite Hr, Hc. cbn [negb andb].
    replace (rw_plan_error w || rw_additional_error w) with true by (symmetry; apply orb_true_iff; exact Hf).
    done. }
  rewrite R. cbn [run_ops fold_left exec].
  assert (forall h, cleanup_ops c i h = []) as C.
  { intros h. unfold cleanup_ops. rewrite (plan_updates c i f Hok), (plan_additional c i f Hok), Nu, No. done. }
  rewrite C. cbn [run_ops fold_left]. destruct (mkdir_some _ _ _ Em) as [G1 _].
  rewrite remove_other by done. destruct Hw as (_ & [H _] & _). rewrite F1 in H. rewrite H; [|done|].
  - rewrite G1. rewrite (proj2 (below_spec q (Rollback.rc_library c))); [done|]. by exists s.
  - intros p _ Hp. apply Nl. destruct Hp as [t ->]. exists (p :: t). by rewrite slot_eq.
Qed.

Example C34_exact_example :
  run_final (ex_conf false false) (ex_run [([], Dir)] [] []) fails (fs_of [([], Dir)]) ["srv"] = Some Dir /\
  run_final (ex_conf false false) (ex_run [([], Dir)] [] []) fails (fs_of [([], Dir)]) L = None.
Proof. vm_compute. split; reflexivity. Qed.

(** ** C46: when a run without failures ends *)

Theorem C46_exact j ls s : job_ok j -> plan_size j <= 2502 + j_workers j -> 1 <= j_workers j ->
  execution j (initial j) ls s -> Sched.stuck j s -> no_failures ls ->
  (returned s None <-> all_copied ls) /\ (~ all_copied ls <-> forall e, ~ returned s e).
Proof.
  intros Hj Hc Hw H Hs Hn.
  assert (all_copied ls -> returned s None) as A by (intros Ha; by eapply (proj2 (C46_terminates_partial j Hj Hc Hw))).
  assert (forall e, returned s e -> all_copied ls) as B.
  { intros e He. by destruct (returned_quiet j ls s e H He) as (_ & _ & ? & _). }
  split; [split; [apply B|exact A]|]. split.
  - intros Hna e He. apply Hna. by eapply B.
  - intros Hr Ha. by eapply Hr, A.
Qed.

Example C46_exact_example : exists s, execution ex_job (initial ex_job) ex_history s /\ returned s None.
Proof.
  destruct C46_example as (H1 & H2 & H3 & H4 & s & H5 & H6). exists s. split; [done|].
  apply (C46_exact ex_job ex_history s H1); try done; vm_compute; lia.
Qed.

(** ** C50: when a downloaded binary is found again *)

Theorem C50_exact s (rhel : bool) w p lib pkgr rv platform : means_binary (s_os s) (w_type w) -> s_os s = Linux ->
  plain (w_pkg w) -> plain (w_version w) -> plain platform ->
  cache_path s (request_of w p lib pkgr rv platform) = Some (download_path (s_md5 s) (s_os s) rhel (s_cache s) rv w) <->
  platform = if rhel then "x86_64-redhat-linux-gnu" else "x86_64-pc-linux-gnu".
Proof.
  intros Ht Eo P1 P2 P3. split; [|intros E; apply downloaded_found; [done|]; by right; right].
  apply binary_meant in Ht. unfold cache_path, download_path, request_of.
  cbn [q_meta_pkg q_meta_version q_platform q_repo q_rversion]. rewrite Ht, Eo. cbn [binary_name].
  assert (forall pl, plain pl -> file_name (w_pkg w +:+ "_" +:+ w_version w +:+ "_R_" +:+ pl +:+ ".tar.gz")) as F.
  { intros pl Hpl. by apply (binary_name_file Linux (w_pkg w) (w_version w) pl). }
  assert (cran_binary_name Linux rhel (w_pkg w) (w_version w) = w_pkg w +:+ "_" +:+ w_version w +:+ "_R_" +:+
    (if rhel then "x86_64-redhat-linux-gnu" else "x86_64-pc-linux-gnu") +:+ ".tar.gz") as ->.
  { by destruct rhel. }
  set (known := if rhel then "x86_64-redhat-linux-gnu" else "x86_64-pc-linux-gnu").
  assert (plain known) as Pk by (unfold known; destruct rhel; vm_compute; repeat (split; [discriminate|]); done).
  intros E. injection E as E.
  set (d := join_path (join_path (join_path (s_cache s) (repo_dir (s_md5 s) (w_repo w))) "binary") (rv_short rv)) in E.
  pose proof (join_file d _ (F platform P3)) as J1. pose proof (join_file d _ (F known Pk)) as J2.
  assert (join_path d (w_pkg w +:+ "_" +:+ w_version w +:+ "_R_" +:+ platform +:+ ".tar.gz") =
    join_path d (w_pkg w +:+ "_" +:+ w_version w +:+ "_R_" +:+ known +:+ ".tar.gz")) as E2 by exact E.
  rewrite J1, J2 in E2. apply app_inj_tail in E2 as [_ E2]. do 4 apply app_inj_left in E2. by apply app_inj_right in E2.
Qed.

Example C50_exact_example :
  let w := {| w_pkg := "MASS"; w_version := "7.3"; w_type := STBinary; w_repo := RepoURL "https://a.org" "MPN" "" |} in
  cache_path toy_surroundings (request_of w "" ["lib"] "3.0" (RVersion 4 1 2) "x86_64-pc-linux-gnu") =
    Some (download_path (s_md5 toy_surroundings) Linux false ["cache"] (RVersion 4 1 2) w) /\
  cache_path toy_surroundings (request_of w "" ["lib"] "3.0" (RVersion 4 1 2) "aarch64-unknown-linux-gnu") <>
    Some (download_path (s_md5 toy_surroundings) Linux false ["cache"] (RVersion 4 1 2) w).
Proof. split; [vm_compute; reflexivity|vm_compute; discriminate]. Qed.

(** ** C59: stamping twice *)

Theorem C59_exact lines version ty url repo :
  let once := stamp lines version ty url repo in
  let twice := stamp once version ty url repo in
  (~ mentions_own repo -> twice = once) /\
  (mentions_own repo -> twice = List.filter (fun l => negb (String.eqb l ("Repository: " +:+ repo))) once) /\
  stamp twice version ty url repo = twice.
Proof.
  cbv zeta. split; [apply stamp_twice|]. split; [apply stamp_again|].
  destruct (stamp_line repo) eqn:E.
  - apply stamp_line_spec in E. rewrite (stamp_again (stamp lines version ty url repo)), stamp_again by done.
    induction (stamp lines version ty url repo) as [|l r IH]; [done|]. cbn [List.filter].
    destruct (String.eqb l _) eqn:El; cbn [negb]; [exact IH|]. cbn [List.filter]. rewrite El. cbn [negb]. by rewrite IH.
  - assert (~ mentions_own repo) as N by (rewrite <- stamp_line_spec; congruence). by rewrite !stamp_twice.
Qed.

Example C59_exact_example :
  stamp (stamp ["Repository: CRAN"] "1" "source" "u" "PkgrVersion:") "1" "source" "u" "PkgrVersion:" =
  ["OriginalRepository: CRAN"; "PkgrVersion: 1"; "PkgrInstallType: source"; "PkgrRepositoryURL: u"].
Proof. vm_compute. reflexivity. Qed.

(** ** C65: when the unpacked tree is complete *)

Theorem C65_exact a dir f f' : untar a dir f = (f', true) ->
  (complete a dir f' <-> (f dir <> Some Dir \/ complete a dir f)).
Proof.
  intros H. destruct (decide (f dir = Some Dir)) as [E|E].
  - assert (f' = f) as -> by (unfold untar, fs_dir_exists in H; rewrite E in H; congruence). tauto.
  - split; [by left|]. intros _. by eapply untar_complete.
Qed.

Example C65_exact_example : ~ complete evil_tarball ["cache"; "h"] (fun q => if below q ["cache"; "h"] then Some Dir else None).
Proof.
  intros H. destruct H as (_ & H & _). destruct (H {| en_name := "MASS/R"; en_kind := KReg "f <- 1" |}) as (l & p & _ & _ & Hp).
  { do 2 right. by left. }
  cbn [en_kind] in Hp. by destruct (below _ _).
Qed.

(** ** C66, C67: what cleaning removes *)

Theorem C66_exact c d f r : cache_of c d -> tree_ok f -> clean_cache c f r ->
  (cc_src_only c = true -> cc_binaries_only c = true -> r = Cleaned f true) /\
  (cc_src_only c && cc_binaries_only c = false ->
    (f d = None -> r = Panics) /\
    (f d <> None -> exists f', r = Cleaned f' false /\
       forall q, (f' q = None \/ f' q = f q) /\ (f' q = None <-> f q = None \/ swept c d f q))).
Proof. apply clean_exact. Qed.

Example C66_exact_example :
  swept (ex_clean "A-1" true []) ["c"] ex_cache ["c"; "A-1"; "src"] /\
  ~ swept (ex_clean "A-1" true []) ["c"] ex_cache ["c"; "A-1"] /\
  left_empty (ex_clean "B-2" true []) ["c"] ex_cache ["c"; "B-2"].
Proof.
  split; [|split].
  - left. exists "A-1", "src". split; [right; exists ["A-1"]; split; [done|]; split; [|by left]|].
    { intros y Hy. by apply elem_of_list_singleton in Hy as ->. }
    split; [by left|]. by exists [].
  - intros [(x & s & _ & _ & [t E])|[(x & _ & E & _ & H)|(h & Hh & _)]]; [done| |by apply elem_of_nil in Hh].
    injection E as <-. destruct (H "binary") as [[E _]|[_ E]]; [vm_compute; discriminate|done|done].
  - exists "B-2". split; [right; exists ["B-2"]; split; [done|]; split; [|by left]|].
    { intros y Hy. by apply elem_of_list_singleton in Hy as ->. }
    split; [done|]. split; [vm_compute; reflexivity|]. intros y. unfold ex_cache.
    assert (forall z, below ["c"; "B-2"; y] ["c"; "B-2"; z] = String.eqb y z) as Eb.
    { intros z. unfold below. cbn [strip]. rewrite !String.eqb_refl. by destruct (String.eqb_spec y z). }
    cbn [app]. rewrite Eb. destruct (String.eqb_spec y "src") as [->|]; [by left|]. done.
Qed.

(** Without a configured cache directory the unpacked tarballs stay, unless the working
    directory happens to be the cache. *)
Theorem C67_exact c d f f' h : cache_of c d -> tree_ok f -> cc_cache c = "" -> (forall h, h ∈ cc_hashes c -> file_name h) ->
  h ∈ cc_hashes c -> clean_cache c f (Cleaned f' false) ->
  (forall q, in_dir (d ++ [h])%list q -> f' q = None) <->
  (forall q, in_dir (d ++ [h])%list q -> f q <> None ->
     CleanSpec.chosen c d q \/ left_empty c d f q \/ exists h', h' ∈ cc_hashes c /\ in_dir (cc_cwd c ++ [h'])%list q).
Proof.
  intros Hd T Hc Hfn Hh H. destruct (clean_exact c d f _ Hd T H) as [_ E].
  assert (cc_src_only c && cc_binaries_only c = false) as Hb.
  { destruct (cc_src_only c) eqn:E1, (cc_binaries_only c) eqn:E2; try done. by apply (C66_both_flags c f _ E1 E2) in H. }
  destruct (E Hb) as [En Es]. destruct (f d) as [n|] eqn:Ed; [|by discriminate (En eq_refl)].
  destruct (Es ltac:(done)) as (g & [= <-] & G). clear E En Es.
  assert (forall q, swept c d f q <-> CleanSpec.chosen c d q \/ left_empty c d f q \/ exists h', h' ∈ cc_hashes c /\ in_dir (cc_cwd c ++ [h'])%list q) as S.
  { intros q. unfold swept. assert (forall h', h' ∈ cc_hashes c -> tarball_dir c h' = (cc_cwd c ++ [h'])%list) as Ht.
    { intros h' Hh'. unfold tarball_dir. rewrite Hc. cbn [String.eqb]. apply join_file. by apply Hfn. }
    split; (intros [?|[?|(h' & H1 & H2)]]; [by left|right; by left|right; right; exists h'; split; [done|]]).
    - by rewrite <- Ht.
    - by rewrite Ht. }
  split.
  - intros A q Hq Hn. apply S. destruct (G q) as [_ Gq]. destruct (proj1 Gq (A q Hq)); done.
  - intros A q Hq. apply G. destruct (f q) eqn:Eq; [right|by left]. apply S, A; [done|congruence].
Qed.

Example C67_exact_example :
  ~ CleanSpec.chosen ex_default ["c"] ["c"; "h"; "MASS"] /\ ~ left_empty ex_default ["c"] ex_unpacked ["c"; "h"; "MASS"].
Proof.
  split.
  - intros (x & s & _ & Hs & [t E]). injection E as <- <- _. by destruct Hs as [[? _]|[? _]].
  - intros (x & _ & E & _). discriminate E.
Qed.

(** ** C55, C56: callers with padded names *)

Theorem C55_exact sys rs tmpdir k v :
  (forall kv, kv ∈ e_package rs -> var_name kv.1) -> NoDup (map fst (e_package rs)) ->
  (k, v) ∈ e_package rs -> k <> "R_LIBS_USER" -> k <> "R_LIBS_SITE" -> unpadded v ->
  ((forall ev w, ev ∈ sys -> ~ padded_entry k ev w) -> env_value (configure_env sys rs tmpdir) k v) /\
  (forall w, last_padded sys k w -> env_value (configure_env sys rs tmpdir) k w).
Proof. apply package_exact. Qed.

Theorem C56_exact sys rs tmpdir name w : var_name name -> sensitive name ->
  (forall p, p ∈ e_global rs -> var_name (n_name p) /\ n_name p <> name) ->
  (forall kv, kv ∈ e_package rs -> var_name kv.1 /\ kv.1 <> name) -> w <> "**HIDDEN**" ->
  (name +:+ "=" +:+ w) ∈ configure_env sys rs tmpdir <-> exists ev, ev ∈ sys /\ padded_entry name ev w.
Proof. apply secrets_exact. Qed.

Example C55_exact_example :
  env_value (configure_env [" FOO=caller"; "FOO=x"] ex_settings "/tmp/xyz") "FOO" "caller".
Proof.
  apply (C55_exact [" FOO=caller"; "FOO=x"] ex_settings "/tmp/xyz" "FOO" "custom").
  - intros kv H. apply elem_of_list_singleton in H as ->. split; [by apply unpadded_dec_ok|done].
  - apply NoDup_singleton.
  - by left.
  - done.
  - done.
  - by apply unpadded_dec_ok.
  - exists [], " FOO=caller", ["FOO=x"]. split; [done|]. split; [by apply padded_value_spec|].
    intros ev' w' H Hp. apply elem_of_list_singleton in H as ->. apply padded_value_spec in Hp. discriminate Hp.
Qed.

Lemma ex_padded : padded_entry "GITHUB_PAT" " GITHUB_PAT=s3cret " "s3cret".
Proof. by apply padded_value_spec. Qed.

Example C56_exact_example :
  "GITHUB_PAT=s3cret" ∈ configure_env ["HOME=/h"; " GITHUB_PAT=s3cret "]
    {| e_global := []; e_package := []; e_rpath := "R"; e_libs := ["/l"] |} "/tmp/x".
Proof.
  apply (C56_exact _ _ _ "GITHUB_PAT" "s3cret").
  - split; [by apply unpadded_dec_ok|done].
  - by right; left.
  - intros p H. by apply elem_of_nil in H.
  - intros p H. by apply elem_of_nil in H.
  - done.
  - exists " GITHUB_PAT=s3cret ". split; [by right; left|apply ex_padded].
Qed.

Print Assumptions C11_exact.
Print Assumptions C18_exact.
Print Assumptions C29_exact.
Print Assumptions C34_exact.
Print Assumptions C46_exact.
Print Assumptions C50_exact.
Print Assumptions C59_exact.
Print Assumptions C65_exact.
Print Assumptions C66_exact.
Print Assumptions C67_exact.
Print Assumptions C55_exact.
Print Assumptions C56_exact.
