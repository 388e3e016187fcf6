(** Further claims, in all cases: loading, the environment of R, addresses, trees of
    dependencies, indexes, the validation tools, messages and statuses. *)
From stdpp Require Import strings list gmap relations sorting.
From Coq Require Import Ascii ZArith Lia.
From Verif.model Require Import GoStr Version Desc Nexus Graph RepoDb Pacman Plan Fs Env Install Download Urls Control Inspect Valtools
  Load LoadCmd Report Clean Status.
From Verif.spec Require Import StrSpec VersionSpec RepoSpec GraphSpec PlanSpec LibSpec EnvSpec UrlSpec InspectSpec ValSpec LoadSpec
  ReportSpec StatusSpec CleanSpec Exact4Spec.
From Verif.proofs Require CleanProofs.
From Verif.proofs Require Import GoStrLemmas UrlProofs WayProofs RepoProofs FetchProofs GraphProofs LayerProofs PlanProofs PlanProps DerivedProofs
  EnvProofs InspectProofs ValProofs LoadProofs LoadCmdProofs ReportProofs ExampleChecks Exact5Proofs Exact6Proofs.
From Verif.props Require Import P_Env P_Url P_Inspect P_Control P_Val P_Load P_LoadCmd P_Report P_Status P_Graph P_Clean.

Local Open Scope string_scope.
Local Arguments Ascii.eqb : simpl never.
Local Arguments char_eqb : simpl never.

(** ** C68: when loading hangs or panics *)

Theorem C68_exact threads n ends :
  (sem_cap threads = None <-> (threads < 0)%Z) /\
  (forall cap, sem_cap threads = Some cap ->
     (exists o, lexec n cap ends o /\ LoadSpec.stuck n cap ends o) <-> threads = 0%Z /\ 0 < n).
Proof.
  split.
  { unfold sem_cap. destruct (Z.ltb_spec (threads * 2) 0); split; done || lia. }
  intros cap Hc. split.
  - intros (o & He & Hs). destruct (decide (1 <= threads)%Z) as [Ht|Ht].
    { destruct (C68_terminates_partial n threads cap ends Ht Hc) as (_ & K & _). destruct (K o He Hs). }
    assert (threads = 0%Z) as ->. { unfold sem_cap in Hc. destruct (Z.ltb_spec (threads * 2) 0); [done|lia]. }
    split; [done|]. destruct n as [|n]; [|lia]. exfalso. injection Hc as <-. destruct Hs as [Hs Hm].
    destruct o as [s|]; [|done]. eapply Hs. apply l_return; [done|].
    pose proof (linv_exec _ _ _ _ He) as I. cbn in I.
    assert (forall o, lexec 0 0 ends o -> match o with Going s => ls_got s = [] /\ ls_chan s = [] /\ ls_gs s = [] | Load.Fatal => True end) as K.
    { clear. intros o H. induction H as [|o o' H IH Hs]; [done|].
      destruct Hs; destruct IH as (A & B & C); cbn [ls_got ls_chan ls_gs];
        first [match goal with E : ls_gs _ !! _ = Some _ |- _ => rewrite C in E; discriminate E end|congruence|done]. }
    destruct (K _ He) as (-> & _). done.
  - intros [-> Hn]. destruct (C68_zero_threads_refuted n ends Hn) as (E & H1 & H2). rewrite E in Hc. injection Hc as <-. eauto.
Qed.

Example C68_exact_example : exists o, lexec 2 0 ex_ends o /\ LoadSpec.stuck 2 0 ex_ends o.
Proof. apply (proj2 (C68_exact 0 2 ex_ends) 0 eq_refl). split; [done|lia]. Qed.

(** ** C75: when R_LIBS is passed to R *)

Theorem C75_exact sys rs tmpdir :
  (forall p, p ∈ e_global rs -> var_name (n_name p)) -> (forall kv, kv ∈ e_package rs -> var_name kv.1) ->
  (exists w, ("R_LIBS=" +:+ w) ∈ configure_env sys rs tmpdir) <->
  (exists k v, (k +:+ "=" +:+ v) ∈ sys /\ without "=" k /\ stripped k "R_LIBS" /\ v <> "") \/
  (exists p, p ∈ e_global rs /\ n_name p = "R_LIBS") \/ (exists kv, kv ∈ e_package rs /\ kv.1 = "R_LIBS").
Proof.
  intros Hg Hk.
  assert (without "=" "R_LIBS") as Hw by done.
  set (l := add_package (add_globals [] (e_global rs)) (e_package rs)).
  assert (bare_names l) as Hb.
  { unfold l. rewrite add_package_eq. intros p [Hp|Hp]%elem_of_app.
    - revert p Hp. apply bare_globals. by intros p ?%elem_of_nil.
    - apply elem_of_list_fmap in Hp as (kv & -> & _). apply trim_again. }
  assert ((exists w, ("R_LIBS=" +:+ w) ∈ configure_env sys rs tmpdir) <-> "R_LIBS" ∈ map n_name (fold_left (add_system (e_rpath rs)) sys l)) as ->.
  { unfold configure_env. rewrite env_list_eq. fold l. split.
    - intros (w & H). apply elem_of_list_fmap in H as (p & E & H). unfold nvp_string in E.
      apply elem_of_app in H as [H|H].
      + assert (without "=" (n_name p)) as Hp.
        { destruct (system_ext (e_rpath rs) sys l) as (e & E1 & E2). rewrite E1 in H. apply elem_of_app in H as [H|H].
          - unfold l in H. rewrite add_package_eq in H. apply elem_of_app in H as [H|H].
            + destruct (globals_ext [] (e_global rs)) as (e' & E3 & E4). rewrite E3 in H. destruct (E4 p H) as (q & Hq & ->).
              destruct (Hg q Hq) as [_ Hq']. by apply trim_without.
            + apply elem_of_list_fmap in H as (kv & -> & Hkv). destruct (Hk kv Hkv) as [_ H]. by apply trim_without.
          - destruct (E2 p H) as (k & v & _ & Hwk & _ & _ & _ & _ & -> & _). by apply trim_without. }
        destruct (eq_split "R_LIBS" (n_name p) w (n_value p) Hw Hp E) as [-> _]. by apply elem_of_list_fmap_1.
      + exfalso. destruct (eq_split "R_LIBS" (n_name p) w (n_value p) Hw (libs_without _ _ _ H) E) as [En _].
        destruct (libs_names _ _ _ H) as [H'|H']; rewrite <- En in H'; discriminate H'.
    - intros H. apply elem_of_list_fmap in H as (p & E & H). exists (n_value p). apply elem_of_list_fmap. exists p.
      split; [unfold nvp_string; by rewrite <- E|]. apply elem_of_app. by left. }
  split.
  - intros H. apply elem_of_list_fmap in H as (p & E & H).
    destruct (system_ext (e_rpath rs) sys l) as (e & E1 & E2). rewrite E1 in H. apply elem_of_app in H as [H|H].
    + right. unfold l in H. rewrite add_package_eq in H. apply elem_of_app in H as [H|H].
      * left. destruct (globals_ext [] (e_global rs)) as (e' & E3 & E4). rewrite E3 in H. destruct (E4 p H) as (q & Hq & Eq).
        exists q. split; [done|]. destruct (Hg q Hq) as [Hu _]. rewrite (unpadded_trim _ Hu) in Eq. congruence.
      * right. apply elem_of_list_fmap in H as (kv & -> & Hkv). exists kv. split; [done|]. destruct (Hk kv Hkv) as [Hu _].
        cbn [n_name as_nvp] in E. rewrite (unpadded_trim _ Hu) in E. done.
    + left. destruct (E2 p H) as (k & v & Hin & Hwk & Hv & _ & _ & _ & Ek & _). exists k, v. split; [done|]. split; [done|].
      split; [|done]. apply trim_stripped. congruence.
  - intros [(k & v & Hin & Hwk & Hs & Hv)|H].
    + apply (system_named (e_rpath rs) k v); try done. by apply trim_stripped.
    + assert ("R_LIBS" ∈ map n_name l) as Hl.
      { unfold l. rewrite add_package_eq, map_app, elem_of_app. destruct H as [(p & Hp & E)|(kv & Hkv & E)].
        - left. rewrite <- E. apply globals_named; [done|]. destruct (Hg p Hp) as [Hu _]. by apply unpadded_trim.
        - right. apply elem_of_list_fmap. exists (as_nvp kv). split; [|by apply elem_of_list_fmap_1].
          destruct (Hk kv Hkv) as [Hu _]. cbn [n_name as_nvp]. by rewrite (unpadded_trim _ Hu). }
      apply elem_of_list_fmap in Hl as (p & -> & Hp). apply elem_of_list_fmap_1. by apply system_keep.
Qed.

Example C75_exact_example :
  (exists w, ("R_LIBS=" +:+ w) ∈ configure_env ["R_LIBS =/home/u/R"] {| e_global := []; e_package := []; e_rpath := "R"; e_libs := ["/l"] |} "/tmp/x") /\
  ~ (exists w, ("R_LIBS=" +:+ w) ∈ configure_env ["R_LIBS="] {| e_global := []; e_package := []; e_rpath := "R"; e_libs := ["/l"] |} "/tmp/x").
Proof.
  split.
  - apply C75_exact; [by intros p ?%elem_of_nil..|]. left. exists "R_LIBS ", "/home/u/R". split; [by left|]. split; [done|]. split; [|done].
    by apply trim_stripped.
  - intros (w & H). change (configure_env _ _ _) with ["R_LIBS_USER=/tmp/x"; "R_LIBS_SITE=/l"] in H. rewrite !elem_of_cons in H. destruct H as [H|[H|H]]; [discriminate H..|by apply elem_of_nil in H].
Qed.

(** ** C81: when packages are fetched beside their index *)

Theorem C81_exact os rel rv repos cs db vs st file u :
  db ∈ configured_dbs os rel repos cs -> entries_for (ru_name (db_repo db)) cs vs ->
  package_url os rel rv (db_repo db) st file = Some u ->
  let suffix (v : option repo_custom) := match v with Some v => rq_suffix v | None => "" end in
  (exists i, index_url os rel rv db st = Some i /\ beside i u file) <->
  st = STSource \/ (os = Linux /\ suffix (head vs) = suffix (last vs)) \/ (os <> Linux /\ suffix (head vs) = "").
Proof.
  intros Hdb Hv Hu suffix. rewrite (beside_exact os rel rv db st file u Hu).
  assert (db_suffix db = suffix (last vs) /\ ru_suffix (db_repo db) = suffix (head vs)) as [-> ->].
  { apply elem_of_list_fmap in Hdb as (r & -> & Hr). cbn [new_repo_db db_suffix db_repo] in *.
    apply configured_repos_inv in Hr as [_ ->]. rewrite (install_config_lookup _ _ _ Hv), (custom_by_name _ _ _ Hv).
    split; [by destruct (last vs)|by destruct (head vs)]. }
  destruct (decide (os = Linux)) as [E|E].
  - rewrite bool_decide_eq_true_2 by done. naive_solver.
  - rewrite bool_decide_eq_false_2 by done. naive_solver.
Qed.

Example C81_exact_example :
  let cs := [[("MPN", with_suffix "x")]; [("MPN", with_suffix "y")]; [("MPN", with_suffix "x")]] in
  exists i, index_url Linux (Some ubuntu) r41 (mpn_db Linux cs) STBinary = Some i /\
    beside i "https://mpn.org/a/bin/linux/ubuntu/focal/x/contrib/4.1/a.tar.gz" "a.tar.gz".
Proof.
  intros cs.
  apply (C81_exact Linux (Some ubuntu) r41 one_repo cs (mpn_db Linux cs) [with_suffix "x"; with_suffix "y"; with_suffix "x"]);
    [apply mpn_db_in|done|done|]. right. left. done.
Qed.

(** ** C96: the trees, with and without --reverse, whatever packages are named *)

(** [R] between packages of the plan; other packages are shown without dependencies. *)
Theorem C96_exact : forall nx nr o pkgs pre cfg update le ip fuel o' reverse args,
  nexus_ok nx -> ~ available nx "R" -> oracle_ok o -> oracle_ok o' -> standard_config nr cfg ->
  (forall p, p ∈ pkgs -> available nx p) ->
  resolve_installation_reqs o pkgs pre cfg nx update le nr = PlanOk ip ->
  length (planned_names ip) < fuel ->
  exists ts, inspect fuel o' true reverse true args (ip_depdb ip) = ShownTree ts /\
    NoDup (map root_of ts) /\
    Forall (tree_of (tc (fun q r => planned ip q /\ needs nx nr q r))) ts /\
    (args <> [] -> forall q, q ∈ map root_of ts <-> q ∈ args) /\
    (args = [] -> reverse = false -> forall q, q ∈ map root_of ts <-> planned ip q /\ exists r, needs nx nr q r) /\
    (args = [] -> reverse = true -> forall q, q ∈ map root_of ts <-> exists p, planned ip p /\ tc (needs nx nr) p q).
Proof.
  intros nx nr o pkgs pre cfg update le ip fuel o' reverse args Hnx HR Ho Ho' Hc Hav Hp Hf.
  destruct (inspect_plan nx nr o pkgs pre cfg update le ip Hnx HR Ho Hc Hav Hp) as (H1 & H2 & H3).
  set (R := fun q r => planned ip q /\ needs nx nr q r).
  assert (forall q r, planned ip q -> tc (needs nx nr) q r <-> tc R q r) as HT.
  { intros q r Hq. split.
    - intros H. revert Hq. induction H as [a b Hab|a b c Hab _ IH]; intros Hq; [by apply tc_once|].
      eapply tc_l; [by split|]. apply IH. eapply H3; [done|]. by apply tc_once.
    - clear Hq. intros H. induction H as [a b [_ Hab]|a b c [_ Hab] _ IH]; [by apply tc_once|by eapply tc_l]. }
  assert (forall q, is_Some (ip_depdb ip !! q) -> planned ip q) as Hkeys by (intros q H; by right).
  assert (forall q deps, ip_depdb ip !! q = Some deps -> NoDup deps /\ q ∉ deps /\ forall r, r ∈ deps <-> tc R q r) as G1.
  { intros q deps E. destruct (H1 q deps E) as (A & B & C). split; [done|]. split; [done|]. intros r. rewrite C. apply HT, Hkeys. eauto. }
  assert (forall q, True -> ip_depdb ip !! q = None -> forall r, ~ R q r) as G2.
  { intros q _ E r [Hq Hr]. by apply (H2 q Hq E r). }
  assert (forall q r : string, True -> tc R q r -> True) as G3 by done.
  assert (forall q, length (default [] (ip_depdb ip !! q)) < fuel) as Hlen.
  { intros q. destruct (ip_depdb ip !! q) as [deps|] eqn:E; cbn [default id].
    - pose proof (deps_bound nx nr o pkgs pre cfg update le ip Hnx HR Ho Hc Hav Hp q (Hkeys q ltac:(eauto))) as K.
      rewrite E in K. cbn [default id] in K. lia.
    - cbn. lia. }
  unfold inspect, print_deps. cbv zeta.
  set (inv := invert_dependencies (ip_depdb ip) (ask (sub o' 0) (elements (dom (D := gset string) (ip_depdb ip))))).
  set (all := sort_strings <$> (if reverse then inv else ip_depdb ip)).
  set (m := match args with [] => all | _ => keep_deps all args end).
  assert (forall q, q ∈ ask (sub o' 1) (elements (dom (D := gset string) m)) <-> is_Some (m !! q)) as K.
  { intros q. by rewrite (ask_perm _ _ (sub_ok o' 1 Ho')), elem_of_elements, elem_of_dom. }
  destruct (forest R (ip_depdb ip) (fun _ => True) G1 G2 G3 fuel (ask (sub o' 1) (elements (dom (D := gset string) m)))) as (ts & -> & Hm & HTs);
    [done|intros q _; apply Hlen|].
  exists ts. split; [done|]. rewrite Hm. split; [apply oracle_nodup; [by apply sub_ok|apply NoDup_elements]|]. split; [done|].
  split; [|split].
  - intros Ha q. rewrite K. unfold m. destruct args as [|a args]; [done|]. rewrite keep_deps_lookup.
    destruct (decide (q ∈ a :: args)) as [Hq|Hq].
    + split; [done|intros _; by eexists].
    + split; [by intros [? ?]|done].
  - intros -> -> q. rewrite K. unfold m, all. rewrite lookup_fmap, fmap_is_Some. split.
    + intros [deps E]. split; [by apply Hkeys; eauto|].
      destruct (plan_deps nx nr o pkgs pre cfg update le Hnx HR Ho Hc Hav ip Hp) as [P1 P2].
      destruct (C95_dependencies nx nr o pkgs pre cfg update le ip fuel o' [] Hnx HR Ho Hc Hav Hp) as (m' & E' & M1 & _).
      unfold inspect, print_deps in E'. cbv zeta in E'. injection E' as E'.
      destruct (M1 eq_refl q) as [M _]. apply M. rewrite <- E', lookup_fmap, E. by eexists.
    + intros [Hq [r Hr]]. destruct (ip_depdb ip !! q) as [deps|] eqn:E; [by eauto|]. by destruct (H2 q Hq E r).
  - intros -> -> q. rewrite K. unfold m, all. rewrite lookup_fmap, fmap_is_Some.
    destruct (inverted (needs nx nr) (ip_depdb ip) (planned ip) H1 H2 Hkeys o' q Ho') as [_ Hi]. fold inv in Hi. split.
    + intros [deps E]. destruct (inverted (needs nx nr) (ip_depdb ip) (planned ip) H1 H2 Hkeys o' q Ho') as [(_ & _ & Hl) _].
      fold inv in Hl. rewrite E in Hl. cbn [default id] in Hl. destruct deps as [|x deps].
      * exfalso. destruct (invert_spec (ip_depdb ip) (ask (sub o' 0) (elements (dom (D := gset string) (ip_depdb ip))))) as [I1 _].
        { rewrite (ask_perm _ _ (sub_ok o' 0 Ho')). symmetry. apply fst_map_to_list_dom. }
        { intros p l El. by destruct (H1 p l El). }
        fold inv in I1. by destruct (I1 q [] E) as (N & _).
      * exists x. apply Hl. by left.
    + intros (p & Hp1 & Hp2). destruct (inv !! q) as [deps|] eqn:E; [by eauto|]. exfalso. by apply (proj1 Hi eq_refl p).
Qed.

(** A package that is not in the plan is shown without its dependencies. *)
Example C96_exact_example :
  match P_Inspect.ex_plan with
  | Some ip => inspect 9 id_oracle true false true ["core"; "unknown"] (ip_depdb ip) =
      ShownTree [DepTree "unknown" []; DepTree "core" []] /\
      inspect 9 id_oracle true true true [] (ip_depdb ip) =
      ShownTree [DepTree "lib2" [DepTree "core" []]; DepTree "lib1" [DepTree "core" []]; DepTree "MASS" []; DepTree "core" []]
  | None => False
  end.
Proof. vm_compute. split; reflexivity. Qed.

(** ** C104: what is used as an index *)

Theorem C104_exact a b : get_body a = Body b <-> a = Status 200 (Some b) \/ a = Contents b \/ a = CannotRead b.
Proof.
  split.
  - destruct a as [|n t| |got|t]; cbn; try discriminate.
    + destruct (N.eqb_spec n 200) as [-> |]; [|discriminate]. destruct t as [t|]; [|discriminate]. intros [= ->]. by left.
    + intros [= ->]. by right; right.
    + intros [= ->]. by right; left.
  - by intros [-> |[-> | ->]].
Qed.

Example C104_exact_example : get_body (Status 304 (Some "x")) <> Body "x" /\ get_body (CannotRead "x") = Body "x".
Proof. split; [discriminate|]. apply C104_exact. by right; right. Qed.

(** ** C106: which addresses are fetched over HTTP *)

Theorem C106_exact os rel rv r st file u : package_url os rel rv r st file = Some u ->
  is_http u = true <-> exists rest, ru_url r = "http" +:+ rest.
Proof. intros H. rewrite (package_same_way _ _ _ _ _ _ _ H). apply is_http_true. Qed.

Example C106_exact_example :
  package_url Linux None r41 (RepoURL "httpd/cran" "local" "") STSource "a.tar.gz" = Some "httpd/cran/src/contrib/a.tar.gz" /\
  is_http "httpd/cran/src/contrib/a.tar.gz" = true.
Proof.
  split; [reflexivity|]. apply (C106_exact Linux None r41 (RepoURL "httpd/cran" "local" "") STSource "a.tar.gz"); [reflexivity|]. by exists "d/cran".
Qed.

(** ** C108: the status of fmttests, for all streams *)

Theorem C108_exact : forall subtests allow es ok,
  let broken := ok = false \/ None ∈ es \/ exists e, Some e ∈ es /\ ev_test e <> "" /\ ~ known e in
  let bad := exists e, Some e ∈ es /\ ev_test e <> "" /\ (ev_action e = "fail" \/ allow = false /\ ev_action e = "skip") in
  let status := fmttests_exit allow (run_events subtests es ok) in
  (status = 2%Z <-> broken) /\ (status = 1%Z <-> ~ broken /\ bad) /\ (status = 0%Z <-> ~ broken /\ ~ bad).
Proof.
  intros subtests allow es ok broken bad status.
  pose proof (C108_error subtests allow es ok) as H2. fold status broken in H2.
  split; [done|].
  assert (~ broken -> status = 1%Z /\ bad \/ status = 0%Z /\ ~ bad) as K.
  { intros Hb. assert (ok = true) as Eok. { destruct ok; [done|]. destruct Hb. by left. }
    assert (exists es', es = map Some es') as [es' ->].
    { assert (None ∉ es) as Hn by (intros H; apply Hb; by right; left). clear -Hn.
      induction es as [|[e|] es IH]; [by exists []| |destruct Hn; by left].
      destruct IH as [es' ->]; [intros H; apply Hn; by right|]. by exists (e :: es'). }
    assert (forall e, Some e ∈ map Some es' <-> e ∈ es') as Hin.
    { intros e. rewrite elem_of_list_fmap. split; [by intros (x & [= ->] & ?)|]. intros H. by exists e. }
    destruct (C108_status_partial subtests allow es') as [[E (e & A & B & C)]|[E A]].
    - intros e He Ht. destruct (decide (ev_action e ∈ ["fail"; "pass"; "skip"; "output"; "cont"; "pause"; "run"; "start"])) as [H|H]; [done|].
      destruct Hb. right. right. exists e. by rewrite Hin.
    - left. unfold status. rewrite Eok. split; [done|]. exists e. by rewrite Hin.
    - right. unfold status. rewrite Eok. split; [done|]. intros (e & He & Ht & [H|[H1 H]]); rewrite Hin in He; destruct (A e He Ht) as [A1 A2];
        [by apply A1|by apply A2]. }
  split.
  - split.
    + intros E. assert (~ broken) as Hb by (intros H; apply H2 in H; congruence). destruct (K Hb) as [[_ ?]|[? _]]; [done|congruence].
    + intros [Hb H]. destruct (K Hb) as [[? _]|[_ ?]]; done.
  - split.
    + intros E. assert (~ broken) as Hb by (intros H; apply H2 in H; congruence). destruct (K Hb) as [[? _]|[_ ?]]; [congruence|done].
    + intros [Hb H]. destruct (K Hb) as [[_ ?]|[? _]]; done.
Qed.

(** An unknown action in a record of a test: status 2, whatever else was read. *)
Example C108_exact_example :
  fmttests_exit false (run_events false [Some (ev "fail" "TestA" ""); Some (ev "bench" "TestB" "")] true) = 2%Z.
Proof.
  apply C108_exact. right. right. exists (ev "bench" "TestB" ""). split; [by right; left|]. split; [done|].
  intros H. by apply existsb_elem in H.
Qed.

(** ** C111: when short names coincide *)

Theorem C111_exact links m files short i j f g s t : m <> "" -> shorten_names links m "" files = Some short ->
  files !! i = Some f -> files !! j = Some g -> short !! i = Some s -> short !! j = Some t ->
  s = t <-> f = g \/ (f = m +:+ "/" +:+ g /\ forall x, g <> m +:+ "/" +:+ x) \/ (g = m +:+ "/" +:+ f /\ forall x, f <> m +:+ "/" +:+ x).
Proof.
  intros Hm H Hf Hg Hs Ht. destruct (C111_names_partial links m files short Hm H) as [H1 _].
  pose proof (Forall2_lookup_lr _ _ _ _ _ _ H1 Hf Hs) as Kf. pose proof (Forall2_lookup_lr _ _ _ _ _ _ H1 Hg Ht) as Kg. cbn beta in *.
  split.
  - intros <-. destruct Kf as [-> |[-> Nf]], Kg as [-> |[Eg Ng]].
    + by left.
    + right. left. split; [by rewrite Eg|done].
    + by right; right.
    + left. congruence.
  - intros [E|[[E N]|[E N]]].
    + destruct Kf as [Ef|[Ef Nf]], Kg as [Eg|[Eg Ng]].
      * apply (app_inj_left m). apply (f_equal (append m)). rewrite E, Eg in Ef. apply app_inj_left in Ef. by injection Ef as ->.
      * by destruct (Ng s); rewrite <- E, Ef.
      * by destruct (Nf t); rewrite E, Eg.
      * congruence.
    + destruct Kg as [Eg|[Eg _]]; [by destruct (N t)|]. destruct Kf as [Ef|[_ Nf]]; [|by destruct (Nf g)].
      rewrite E in Ef. apply app_inj_left in Ef. injection Ef as ->. done.
    + destruct Kf as [Ef|[Ef _]]; [by destruct (N s)|]. destruct Kg as [Eg|[_ Ng]]; [|by destruct (Ng f)].
      rewrite E in Eg. apply app_inj_left in Eg. injection Eg as ->. done.
Qed.

Example C111_exact_example :
  let files := ["x.org/pkgr/x.org/pkgr/a.go"; "x.org/pkgr/a.go"] in
  exists short, shorten_names (fun _ => None) "x.org/pkgr" "" files = Some short /\ short !! 0 <> short !! 1.
Proof. eexists. split; [vm_compute; reflexivity|]. vm_compute. discriminate. Qed.

(** ** C119: the entries of the report of load, for every plan *)

Theorem C119_exact : forall r dir threads all user plan keys additional rep,
  load_command r dir threads all user plan keys additional (LoadReports rep) ->
  (forall nx ip, plan = PIPlan nx ip -> keys ≡ₚ (map_to_list (ip_depdb ip)).*1) ->
  forall p, is_Some (fl_results rep !! p) <->
    (all = false /\ p ∈ user) \/ (all = true /\ exists nx ip, plan = PIPlan nx ip /\ (planned ip p \/ p ∈ additional)).
Proof.
  intros r dir threads all user plan keys additional rep H Hk p. destruct all.
  - assert ((exists nx ip, plan = PIPlan nx ip) \/ exists missing, plan = PIMissing missing) as [(nx & ip & ->)|(missing & ->)].
    { destruct plan; try done; [left|right]; by eauto. }
    + rewrite (C119_all_partial r dir threads user nx ip keys additional rep H (Hk nx ip eq_refl) p). split.
      * intros Hp. right. split; [done|]. by exists nx, ip.
      * intros [[? _]|(_ & nx' & ip' & [= <- <-] & Hp)]; done.
    + unfold load_command in H. destruct (sem_cap threads) as [cap|]; [|done]. destruct H as [(s & He & Hm & [= ->])|[_ ?]]; [|done].
      unfold to_load, full_report_of. split.
      * intros [x Hx]. exfalso.
        assert (forall got rep0, fold_left (fun rep i => match ([] : list string) !! i with
           | Some p => match attempt_full r dir p with Some x => add_full rep x | None => rep end | None => rep end) got rep0 = rep0) as K.
        { induction got as [|i got IH]; intros rep0; [done|]. cbn [fold_left]. by rewrite lookup_nil. }
        rewrite K in Hx. cbn in Hx. by rewrite lookup_empty in Hx.
      * intros [[? _]|(_ & nx & ip & ? & _)]; done.
  - rewrite (C119_configured r dir threads user plan keys additional rep H p). split.
    + intros Hp. by left.
    + intros [[_ ?]|[? _]]; done.
Qed.

Example C119_exact_example r dir rep : load_command r dir 1 true ["core"] (PIMissing ["nope"]) [] ["mine"] (LoadReports rep) ->
  fl_results rep !! "core" = None /\ fl_results rep !! "mine" = None.
Proof.
  intros H. assert (forall p, fl_results rep !! p = None) as K; [|done]. intros p.
  apply eq_None_not_Some. rewrite (C119_exact r dir 1 true ["core"] (PIMissing ["nope"]) [] ["mine"] rep H); [|done].
  intros [[? _]|(_ & nx & ip & ? & _)]; done.
Qed.

(** ** C120: the last message and the status of load, for all plans and settings of threads *)

Lemma lexec_more n cap cap' ends o : cap <= cap' -> lexec n cap ends o -> lexec n cap' ends o.
Proof.
  intros Hc H. induction H as [|o o' H IH Hs]; [apply le_init|]. eapply le_step; [exact IH|].
  inversion Hs; subst; [apply l_acquire|apply l_send|eapply l_fatal|apply l_release|apply l_receive|apply l_return]; try done. lia.
Qed.

Theorem C120_exact : forall r dir threads all user plan keys additional e,
  load_command r dir threads all user plan keys additional e ->
  let pkgs := to_load all user plan keys additional in
  let ends p := an_end (r dir ("library('" +:+ p +:+ "')")) in
  let starts := ((exists nx ip, plan = PIPlan nx ip) \/ (exists missing, plan = PIMissing missing)) /\ (0 <= threads)%Z in
  (load_status e = 0 <-> starts /\ forall p, p ∈ pkgs -> ends p <> CannotRun) /\
  (says_all_loaded e = true <-> starts /\ forall p, p ∈ pkgs -> ends p = ExitZero).
Proof.
  intros r dir threads all user plan keys additional e H pkgs ends starts.
  assert (starts \/ ~ starts) as [Hs|Hs].
  { unfold starts. destruct (decide (0 <= threads)%Z) as [Ht|Ht]; [|right; by intros [_ ?]].
    destruct plan; [left; split; [|done]; left; by eauto|left; split; [|done]; right; by eauto|right..]; intros [[(nx & ip & ?)|(m & ?)] _]; done. }
  - destruct Hs as [Hplan Ht].
    assert (load_command r dir (Z.max 1 threads) all user plan keys additional e) as H'.
    { destruct (decide (1 <= threads)%Z) as [H1|H1]; [by rewrite Z.max_r|]. assert (threads = 0%Z) as -> by lia. change (Z.max 1 0) with 1%Z.
      assert (forall pkgs', (exists s, lexec (length pkgs') 0 (session_ends r dir pkgs') (Going s) /\ ls_main s = true /\
             e = LoadReports (full_report_of r dir pkgs' (ls_got s))) \/
          (lexec (length pkgs') 0 (session_ends r dir pkgs') Load.Fatal /\ e = LoadStops 1) ->
        (exists s, lexec (length pkgs') 2 (session_ends r dir pkgs') (Going s) /\ ls_main s = true /\
             e = LoadReports (full_report_of r dir pkgs' (ls_got s))) \/
          (lexec (length pkgs') 2 (session_ends r dir pkgs') Load.Fatal /\ e = LoadStops 1)) as K.
      { intros pkgs' [(s & A & B)|[A B]]; [left; exists s; split; [|done]|right; split; [|done]]; eapply lexec_more; [|exact A| |exact A]; lia. }
      unfold load_command in *. destruct Hplan as [(nx & ip & ->)|(missing & ->)]; cbn [sem_cap Z.mul Z.ltb Z.compare] in *; by apply K. }
    destruct (C120_message_partial r dir (Z.max 1 threads) all user plan keys additional e H' ltac:(lia) Hplan) as [K1 K2].
    fold pkgs in K1, K2. split; [rewrite K2|rewrite K1]; (split; [by intros ?|by intros [_ ?]]).
  - assert (load_status e <> 0 /\ says_all_loaded e = false) as [E1 E2].
    { unfold load_command in H. destruct plan as [nx ip|missing| | |]; try done.
      - destruct (sem_cap threads) as [cap|] eqn:Ec; [|by rewrite H]. destruct Hs. split; [left; by eauto|].
        unfold sem_cap in Ec. destruct (Z.ltb_spec (threads * 2) 0); [done|lia].
      - destruct (sem_cap threads) as [cap|] eqn:Ec; [|by rewrite H]. destruct Hs. split; [right; by eauto|].
        unfold sem_cap in Ec. destruct (Z.ltb_spec (threads * 2) 0); [done|lia].
      - by rewrite H.
      - by rewrite H. }
    rewrite E2. split; (split; [done|by intros [? _]]).
Qed.

Example C120_exact_example r dir nx ip e : load_command r dir (-1) false [] (PIPlan nx ip) [] [] e -> load_status e <> 0.
Proof.
  intros H E. apply (C120_exact r dir (-1) false [] (PIPlan nx ip) [] [] e H) in E as [[_ ?] _]. lia.
Qed.

(** ** C121: the sum of the numbers of packages *)

Theorem C121_exact : forall nx nr o pkgs pre cfg update le ip keys additional installed n,
  nexus_ok nx -> ~ available nx "R" -> oracle_ok o -> standard_config nr cfg ->
  (forall p, p ∈ pkgs -> available nx p) ->
  resolve_installation_reqs o pkgs pre cfg nx update le nr = PlanOk ip ->
  keys ≡ₚ (map_to_list (ip_depdb ip)).*1 ->
  count (comes_from "tarballs") (ip_downloads ip) n ->
  total (sources_of ip additional) + n = sm_required (status_of ip keys additional installed).
Proof.
  intros nx nr o pkgs pre cfg update le ip keys additional installed n H1 H2 H3 H4 H5 E Hk Hn.
  rewrite (sources_total_exact ip additional n Hn). cbn [status_of sm_required]. unfold get_all_packages.
  destruct (plan_downloads nx nr o pkgs pre cfg update le H1 H2 H3 H4 H5 ip E) as (_ & _ & D).
  apply Permutation_length in D. rewrite map_length in D. rewrite D. unfold planned_names. rewrite <- Hk, !app_length. lia.
Qed.

Example C121_exact_example :
  match resolve_installation_reqs id_oracle ["lib1"] ∅ (default_config false) odd_nx true true false with
  | PlanOk ip => count (comes_from "tarballs") (ip_downloads ip) 2 /\
      total (sources_of ip ["mine"]) + 2 = sm_required (status_of ip (map_to_list (ip_depdb ip)).*1 ["mine"] [])
  | _ => False
  end.
Proof.
  pose proof C121_name_refuted as K.
  destruct (resolve_installation_reqs id_oracle ["lib1"] ∅ (default_config false) odd_nx true true false) as [ip| | |] eqn:E; [|done..].
  destruct K as (K & _). split; [done|]. vm_compute in E. injection E as <-. vm_compute. reflexivity.
Qed.

(** ** C124: the packages to install, for all plans *)

(** What is said about a package: the name, version and repository it would be downloaded
    from, or nothing if no repository has it. *)
Theorem C124_exact : forall nx ip keys additional installed kept l,
  nexus_ok nx -> keys ≡ₚ (map_to_list (ip_depdb ip)).*1 -> installed ≡ₚ names_of (ip_installed ip) ->
  count (fun q => planned ip q /\ q ∉ additional) (names_of (ip_installed ip)) kept ->
  let required := length (get_all_packages ip keys additional) in
  let updates := if ip_update ip then length (ip_outdated ip) else 0 in
  l ∈ install_lines nx ip keys additional installed <->
  kept <> updates /\ kept < required + updates /\
  exists p, (planned ip p \/ p ∈ additional) /\ ip_installed ip !! p = None /\
    (describes nx p l \/
     get_package nx p = None /\ l = {| ln_package := ""; ln_version := ""; ln_repo := ""; ln_type := STDefault |}).
Proof.
  intros nx ip keys additional installed kept l Hnx Hk Hi Hkept required updates.
  assert (forall p, p ∈ get_all_packages ip keys additional <-> planned ip p \/ p ∈ additional) as Hall.
  { intros p. unfold get_all_packages. rewrite app_assoc, elem_of_app, (planned_in ip keys Hk). done. }
  assert (length (List.filter (fun q => existsb (String.eqb q) (get_all_packages ip keys additional) && negb (existsb (String.eqb q) additional))
      (elements (dom (D := gset string) (ip_installed ip)))) = kept) as Ek.
  { eapply count_fun; [|exact Hkept]. unfold names_of. apply count_filter. intros q _.
    rewrite andb_true_iff, negb_true_iff, <- not_true_iff_false, !existsb_elem, Hall. naive_solver. }
  assert (((0 <? num_to_install ip keys additional)%Z && negb (num_to_install ip keys additional =? Z.of_nat required)%Z) = true <->
    kept <> updates /\ kept < required + updates) as Hcond.
  { unfold num_to_install. cbv zeta. rewrite Ek. fold required updates.
    rewrite andb_true_iff, negb_true_iff, Z.ltb_lt, Z.eqb_neq. lia. }
  assert (forall p, describes nx p (line_for nx p) \/
     get_package nx p = None /\ line_for nx p = {| ln_package := ""; ln_version := ""; ln_repo := ""; ln_type := STDefault |}) as Hline.
  { intros p. unfold line_for, get_package_go. destruct (get_package nx p) as [[d c]|] eqn:E; [left|by right].
    assert (d_package d = p) as Hd. { apply (offered_name nx Hnx). by exists c. }
    exists d, c. split; [done|]. split; [done|]. by rewrite Hd. }
  assert (forall p l', (describes nx p l' \/
     get_package nx p = None /\ l' = {| ln_package := ""; ln_version := ""; ln_repo := ""; ln_type := STDefault |}) -> l' = line_for nx p) as Huniq.
  { intros p l' Hl'. destruct (Hline p) as [(d & c & E & _ & ->)|[E ->]], Hl' as [(d' & c' & E' & _ & ->)|[E' ->]]; congruence. }
  unfold install_lines. cbv zeta. fold required.
  destruct ((0 <? num_to_install ip keys additional)%Z && negb (num_to_install ip keys additional =? Z.of_nat required)%Z).
  - rewrite elem_of_list_fmap. split.
    + intros (p & -> & Hp). apply elem_of_list_In, filter_In in Hp as [Hp1 Hp2]. apply elem_of_list_In, Hall in Hp1.
      destruct (proj1 Hcond eq_refl) as [C1 C2]. split; [done|]. split; [done|]. exists p. split; [done|]. split; [|apply Hline].
      apply negb_true_iff, not_true_iff_false in Hp2. rewrite existsb_elem, Hi in Hp2. unfold names_of in Hp2.
      rewrite elem_of_elements, elem_of_dom in Hp2. by apply eq_None_not_Some.
    + intros (_ & _ & p & Hp & Hn & Hl). exists p. split; [by apply Huniq|]. apply elem_of_list_In, filter_In.
      split; [by apply elem_of_list_In, Hall|]. apply negb_true_iff, not_true_iff_false. rewrite existsb_elem, Hi. unfold names_of.
      rewrite elem_of_elements, elem_of_dom, Hn. by intros [? ?].
  - split; [by intros ?%elem_of_nil|]. intros (C1 & C2 & _). discriminate (proj2 Hcond (conj C1 C2)).
Qed.

Example C124_exact_example :
  {| ln_package := ""; ln_version := ""; ln_repo := ""; ln_type := STDefault |} ∈
    install_lines ex_nx core_plan (map_to_list (ip_depdb core_plan)).*1 ["mine"; "MASS"] (names_of core_installed) /\
  get_package ex_nx "mine" = None /\ ip_installed core_plan !! "mine" = None.
Proof.
  destruct C124_tarball_refuted as [_ ->]. split; [right; by left|]. split; vm_compute; reflexivity.
Qed.

(** ** C125: the statuses *)

Theorem C125_exact :
  (forall strict library_exists p e, planning_ends strict library_exists p = Some e ->
     exit_status e = 0 <-> exists nx ip, p = PIPlan nx ip) /\
  (forall version_known r, exit_status (run_ends version_known r) = if version_known then 0 else 1) /\
  (forall c f r, clean_cache c f r ->
     let there := f (user_cache (cc_cwd c) (cc_default c) (cc_cache c)) <> None in
     (exit_status (clean_cache_ends r) = 0 <-> cc_src_only c && cc_binaries_only c = true \/ there) /\
     (exit_status (clean_cache_ends r) = 2 <-> cc_src_only c && cc_binaries_only c = false /\ ~ there)).
Proof.
  split; [|split].
  - intros strict le p e E. destruct p as [nx ip|m| | |]; injection E as <- || discriminate E; cbn;
      (split; [intros H; discriminate H || by eauto|intros (nx' & ip' & H); discriminate H || done]).
  - by intros [] r.
  - intros c f r H there. unfold clean_cache in H. destruct (cc_src_only c && cc_binaries_only c) eqn:Eb.
    { rewrite H. cbn. split; (split; [|done || by intros [? _]]); [by left|done]. }
    destruct H as (r1 & H1 & H2). set (cache := user_cache (cc_cwd c) (cc_default c) (cc_cache c)) in *.
    assert (forall x l f1, remove_all (cache ++ x :: l)%list f1 cache = f1 cache) as Ho.
    { intros x l f1. apply CleanProofs.remove_other. intros [t E]. apply (f_equal length) in E. rewrite !app_length in E. cbn in E. lia. }
    assert (forall sub xs f1 f2, clean_list cache sub xs f1 f2 -> f2 cache = f1 cache) as Hl.
    { intros sub xs. induction xs as [|x xs IH]; intros f1 f2; cbn [clean_list]; [by intros ->|].
      intros (f3 & [[_ ->]|[_ ->]] & Hx); apply IH in Hx; by rewrite Hx, !Ho. }
    assert (forall repos sub f1 r', delete_sub cache repos sub f1 r' ->
      f1 cache = None /\ r' = Panics \/ f1 cache <> None /\ exists g, r' = Cleaned g false /\ g cache = f1 cache) as Hd.
    { intros repos sub f1 r'. unfold delete_sub. destruct (f1 cache) as [[|]|] eqn:Ef; intros Hx.
      - right. split; [done|]. by exists f1.
      - right. split; [done|]. destruct Hx as (? & g & _ & Hx & ->). exists g. apply Hl in Hx. by rewrite <- Ef.
      - by left. }
    assert (f cache = None /\ r1 = Panics \/ f cache <> None /\ exists g, r1 = Cleaned g false) as K.
    { destruct (negb (cc_src_only c) && negb (cc_binaries_only c)).
      - destruct H1 as (r0 & H3 & H4). destruct (Hd _ _ _ _ H3) as [[E ->]|(E & g & -> & Eg)]; [by left|].
        destruct (Hd _ _ _ _ H4) as [[E' ->]|(E' & g' & -> & _)]; [by rewrite Eg in E'|]. right. split; [done|]. by exists g'.
      - destruct (cc_src_only c); destruct (Hd _ _ _ _ H1) as [[E ->]|(E & g & -> & _)]; [by left| |by left|];
          (right; split; [done|by exists g]). }
    unfold there. destruct K as [[E ->]|(E & g & ->)]; rewrite H2; cbn.
    + split; (split; [|done || by intros [?|?]]); [done|]. intros _. split; [done|]. by intros ?.
    + split; [by split; [right|]|]. split; [done|]. by intros [_ ?].
Qed.

Example C125_exact_example : forall c r, cc_src_only c = true -> cc_binaries_only c = false ->
  clean_cache c (fun _ => None) r -> exit_status (clean_cache_ends r) = 2.
Proof.
  intros c r E1 E2 H. apply (proj2 (proj2 (proj2 C125_exact) c (fun _ => None) r H)). rewrite E1, E2. split; [done|]. by intros [].
Qed.

Print Assumptions C68_exact.
Print Assumptions C75_exact.
Print Assumptions C81_exact.
Print Assumptions C96_exact.
Print Assumptions C104_exact.
Print Assumptions C106_exact.
Print Assumptions C108_exact.
Print Assumptions C111_exact.
Print Assumptions C119_exact.
Print Assumptions C120_exact.
Print Assumptions C121_exact.
Print Assumptions C124_exact.
Print Assumptions C125_exact.
