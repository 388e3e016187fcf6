(** C16, C20-C32, C69, C72, C73: planning. *)
From stdpp Require Import strings list gmap relations sorting.
From Coq Require Import Ascii ZArith Lia.
From Verif.model Require Import GoStr Version Desc Nexus Pacman Graph RepoDb Plan.
From Verif.spec Require Import VersionSpec RepoSpec GraphSpec PlanSpec.
From Verif.proofs Require Import VersionProofs RepoProofs FetchProofs GraphProofs LayerProofs PlanProofs PlanProps
  SettingsProofs DerivedProofs ExampleChecks.

Local Open Scope string_scope.

(** ** Example database *)
Definition deps_of (l : list string) : gmap string dep :=
  list_to_map (map (fun n => (n, Dep n zero_version CNone)) l).

Definition mk_pkg (name ver : string) (depends imports linkingto suggests : list string) : desc :=
  Desc name ver "" "" false (deps_of imports) (deps_of suggests) (deps_of depends) (deps_of linkingto) "" "" "".

Definition mk_db (name : string) (ds : list desc) : repo_db :=
  RepoDb [(STSource, list_to_map (map (fun d => (d_package d, d)) ds)); (STBinary, ∅)]
    (RepoURL ("https://" +:+ name) name "") STSource "".

(** app needs lib1 (Depends), lib2 (Imports) and comes with suggestions; lib1
    links to core; lib2 imports core and the base package utils; extra is suggested. *)
Definition ex_descs : list desc :=
  [mk_pkg "app" "1.0" ["R"; "lib1"] ["lib2"; "stats"] [] ["extra"; "utils"];
   mk_pkg "lib1" "0.2" [] [] ["core"] [];
   mk_pkg "lib2" "0.3" [] ["core"; "utils"; "absent"] [] [];
   mk_pkg "core" "2.1.0" [] [] [] [];
   mk_pkg "extra" "0.9" [] ["lib1"; "MASS"] [] [];
   mk_pkg "MASS" "7.3-51" [] [] [] [];
   mk_pkg "utils" "3.6.0" [] [] [] [];
   mk_pkg "c1" "1.0" [] ["c2"] [] [];
   mk_pkg "c2" "1.0" [] ["c1"] [] []].

Definition ex_nx : nexus := Nexus [mk_db "CRAN" ex_descs] ∅ STSource.

Definition id_oracle : oracle := fun _ l => l.
Definition rev_oracle : oracle := fun _ l => rev l.

(** Suggested packages of app are wanted too. *)
Definition ex_cfg : install_deps := set_suggests "app" true (default_config false).

Definition summary (r : plan_result) : option (list string * list (string * list string)) :=
  match r with
  | PlanOk ip => Some (sort_strings (ip_starting ip),
      map (fun kv => (kv.1, sort_strings kv.2)) (map_to_list (ip_depdb ip)))
  | _ => None
  end.

Lemma ex_nexus_ok : nexus_ok ex_nx.
Proof. apply nexus_okb_sound. vm_compute. reflexivity. Qed.

Lemma ex_no_R : no_record ex_nx "R".
Proof. apply no_recordb_sound. vm_compute. reflexivity. Qed.

Lemma ex_cfg_standard : standard_config false ex_cfg.
Proof.
  intros p. unfold ex_cfg. rewrite settings_config, config_for_set. destruct (decide (p = "app")); [done|].
  apply default_config_standard.
Qed.

Lemma ex_available : forall p, p ∈ ["app"; "core"] -> available ex_nx p.
Proof. apply availableb_all. vm_compute. reflexivity. Qed.

(** C20 *)
Theorem C20_plan_is_closure : forall nx nr o pkgs pre cfg update le ip,
  nexus_ok nx -> ~ available nx "R" -> oracle_ok o -> standard_config nr cfg ->
  (forall p, p ∈ pkgs -> available nx p) ->
  resolve_installation_reqs o pkgs pre cfg nx update le nr = PlanOk ip ->
  (forall q, planned ip q <-> closure cfg nx pkgs q) /\ NoDup (planned_names ip).
Proof. intros nx nr o pkgs pre cfg update le ip H1 H2 H3 H4 H5. by apply plan_closure. Qed.
Print Assumptions C20_plan_is_closure.

(** Databases filled from indexes file every record under its own name. *)
Theorem C20_databases_ok : forall nx,
  (forall db, db ∈ nx_db nx -> forall st m, (st, m) ∈ db_types db ->
     m = ∅ \/ exists parse rv body, read_index parse rv body = Some m) ->
  nexus_ok nx.
Proof.
  intros nx H db st p d Hdb Hl. apply descs_record in Hl. destruct (descs_of_in (db_types db) st) as [E|[t Ht]].
  - by rewrite E, lookup_empty in Hl.
  - destruct (H db Hdb t _ Ht) as [E|(parse & rv & body & E)]; [by rewrite E, lookup_empty in Hl|].
    by eapply read_index_names.
Qed.
Print Assumptions C20_databases_ok.

Example C20_example :
  nexus_ok ex_nx /\ ~ available ex_nx "R" /\ standard_config false ex_cfg /\
  (forall p, p ∈ ["app"; "core"] -> available ex_nx p) /\
  summary (resolve_installation_reqs id_oracle ["app"; "core"] ∅ ex_cfg ex_nx true true false) =
  Some (["MASS"; "core"; "utils"],
        [("lib2", ["core"]); ("lib1", ["core"]); ("app", ["core"; "lib1"; "lib2"]);
         ("extra", ["MASS"; "core"; "lib1"])]).
Proof.
  split; [exact ex_nexus_ok|]. split; [apply no_record_unavailable, ex_no_R|].
  split; [exact ex_cfg_standard|]. split; [exact ex_available|]. vm_compute. reflexivity.
Qed.

(** C21 *)
Theorem C21_layers : forall o g nr ls, oracle_ok o -> resolve_layers o g nr = LayersOk ls ->
  concat ls ≡ₚ elements (dom (D := gset string) g) /\
  Forall (fun l => l <> []) ls /\
  (forall p r k, in_layer ls k p -> graph_dep nr g p r -> exists j, j < k /\ in_layer ls j r) /\
  (forall p k, in_layer ls k p -> k <> 0 -> exists r, graph_dep nr g p r /\ in_layer ls (k - 1) r).
Proof. exact resolve_layers_spec. Qed.
Print Assumptions C21_layers.

Definition ex_graph : gmap string (list string) :=
  list_to_map [("a", ["b"; "c"; "utils"]); ("b", ["c"]); ("c", []); ("d", []); ("e", ["d"; "a"])].

Example C21_example :
  resolve_layers id_oracle ex_graph false = LayersOk [["d"; "c"]; ["b"]; ["a"]; ["e"]].
Proof. vm_compute. reflexivity. Qed.

(** C22 *)
Theorem C22_cycles : forall o g nr, oracle_ok o -> graph_closed nr g ->
  (resolve_layers o g nr = LayersCircular <-> has_cycle (graph_dep nr g)) /\
  resolve_layers o g nr <> LayersOutOfFuel.
Proof. exact resolve_layers_cycle. Qed.
Print Assumptions C22_cycles.

(** And for whole requests. *)
Theorem C22_plan_cycles : forall nx nr o pkgs pre cfg update le,
  nexus_ok nx -> ~ available nx "R" -> oracle_ok o -> standard_config nr cfg ->
  (forall p, p ∈ pkgs -> available nx p) ->
  resolve_installation_reqs o pkgs pre cfg nx update le nr = PlanError <->
  has_cycle (fun a b => closure cfg nx pkgs a /\ needs nx nr a b).
Proof. exact plan_error_cycle. Qed.
Print Assumptions C22_plan_cycles.

Example C22_example :
  (forall p, p ∈ ["c1"] -> available ex_nx p) /\
  resolve_installation_reqs id_oracle ["c1"] ∅ (default_config false) ex_nx true true false = PlanError /\
  resolve_layers id_oracle (list_to_map [("a", ["b"]); ("b", ["a"]); ("c", [])]) false = LayersCircular.
Proof.
  split; [apply availableb_all; vm_compute; reflexivity|]. split; vm_compute; reflexivity.
Qed.

(** C23 *)
Theorem C23_deterministic : forall nx nr o o' pkgs pre cfg update le,
  nexus_ok nx -> ~ available nx "R" -> oracle_ok o -> oracle_ok o' -> standard_config nr cfg ->
  (forall p, p ∈ pkgs -> available nx p) ->
  match resolve_installation_reqs o pkgs pre cfg nx update le nr,
        resolve_installation_reqs o' pkgs pre cfg nx update le nr with
  | PlanOk a, PlanOk b => same_plan a b
  | PlanError, PlanError | PlanPanic, PlanPanic => True
  | _, _ => False
  end.
Proof. exact plan_deterministic. Qed.
Print Assumptions C23_deterministic.

Theorem C23_layers_deterministic : forall o o' g nr, oracle_ok o -> oracle_ok o' ->
  (resolve_layers o g nr = LayersCircular /\ resolve_layers o' g nr = LayersCircular) \/
  (exists ls ls', resolve_layers o g nr = LayersOk ls /\ resolve_layers o' g nr = LayersOk ls' /\
     same_layers ls ls').
Proof. intros. by apply resolve_layers_det. Qed.
Print Assumptions C23_layers_deterministic.

Example C23_example :
  oracle_ok rev_oracle /\
  resolve_layers rev_oracle ex_graph false = LayersOk [["c"; "d"]; ["b"]; ["a"]; ["e"]] /\
  summary (resolve_installation_reqs rev_oracle ["app"; "core"] ∅ ex_cfg ex_nx true true false) =
  summary (resolve_installation_reqs id_oracle ["app"; "core"] ∅ ex_cfg ex_nx true true false).
Proof. split; [exact rev_oracle_ok|]. split; vm_compute; reflexivity. Qed.

(** C24 *)
Theorem C24_recorded_deps : forall nx nr o pkgs pre cfg update le ip,
  nexus_ok nx -> ~ available nx "R" -> oracle_ok o -> standard_config nr cfg ->
  (forall p, p ∈ pkgs -> available nx p) ->
  resolve_installation_reqs o pkgs pre cfg nx update le nr = PlanOk ip ->
  (forall q, q ∈ ip_starting ip <-> closure cfg nx pkgs q /\ forall r, ~ needs nx nr q r) /\
  (forall q deps, ip_depdb ip !! q = Some deps ->
     NoDup deps /\ q ∉ deps /\ forall r, r ∈ deps <-> tc (needs nx nr) q r).
Proof. intros nx nr o pkgs pre cfg update le ip H1 H2 H3 H4 H5. by apply plan_deps. Qed.
Print Assumptions C24_recorded_deps.

(** C25 *)
Theorem C25_inversion : forall depdb keys, keys ≡ₚ (map_to_list depdb).*1 ->
  (forall p l, depdb !! p = Some l -> NoDup l) ->
  (forall r l, invert_dependencies depdb keys !! r = Some l ->
     l <> [] /\ StronglySorted byte_le l /\ NoDup l /\
     forall p, p ∈ l <-> exists deps, depdb !! p = Some deps /\ r ∈ deps) /\
  (forall r, invert_dependencies depdb keys !! r = None <->
     forall p deps, depdb !! p = Some deps -> r ∉ deps).
Proof. exact invert_spec. Qed.
Print Assumptions C25_inversion.

Example C25_example :
  map_to_list (invert_dependencies (list_to_map [("b", ["x"; "y"]); ("a", ["x"])]) ["b"; "a"]) =
  [("x", ["a"; "b"]); ("y", ["b"])].
Proof. vm_compute. reflexivity. Qed.

(** C26 *)
Theorem C26_downloads : forall nx nr o pkgs pre cfg update le ip,
  nexus_ok nx -> ~ available nx "R" -> oracle_ok o -> standard_config nr cfg ->
  (forall p, p ∈ pkgs -> available nx p) ->
  resolve_installation_reqs o pkgs pre cfg nx update le nr = PlanOk ip ->
  (forall dl, dl ∈ ip_downloads ip ->
     get_package nx (d_package (dl_package dl)) = Some (dl_package dl, dl_config dl)) /\
  map (fun dl => d_package (dl_package dl)) (ip_downloads ip) ≡ₚ planned_names ip /\
  NoDup (map (fun dl => d_package (dl_package dl)) (ip_downloads ip)).
Proof.
  intros nx nr o pkgs pre cfg update le ip H1 H2 H3 H4 H5 E.
  destruct (plan_downloads nx nr o pkgs pre cfg update le H1 H2 H3 H4 H5 ip E) as (_ & D1 & D2).
  split; [done|]. split; [done|]. rewrite D2.
  apply (plan_closure nx nr o pkgs pre cfg update le H1 H2 H3 H4 H5 ip E).
Qed.
Print Assumptions C26_downloads.

Example C26_example :
  match resolve_installation_reqs id_oracle ["app"; "core"] ∅ ex_cfg ex_nx true true false with
  | PlanOk ip => sort_strings (map (fun dl => d_package (dl_package dl)) (ip_downloads ip)) =
      ["MASS"; "app"; "core"; "extra"; "lib1"; "lib2"; "utils"] /\
      Forall (fun dl => pc_type (dl_config dl) = STSource) (ip_downloads ip)
  | _ => False
  end.
Proof. vm_compute. split; [reflexivity|]. repeat constructor. Qed.

(** C27: a suggested base package is planned. *)
Theorem C27_base_packages_refuted :
  exists ip, "utils" ∈ r_base /\
    resolve_installation_reqs id_oracle ["app"; "core"] ∅ ex_cfg ex_nx true true false = PlanOk ip /\
    "utils" ∉ ["app"; "core"] /\ planned ip "utils".
Proof.
  eexists. split; [apply existsb_elem; reflexivity|]. split; [vm_compute; reflexivity|]. split.
  - rewrite <- existsb_elem. vm_compute. discriminate.
  - left. cbn [ip_starting]. apply existsb_elem. vm_compute. reflexivity.
Qed.
Print Assumptions C27_base_packages_refuted.

(** What holds: only requested and suggested packages can be such packages. *)
Theorem C27_base_packages_partial : forall nx nr o pkgs pre cfg update le ip q,
  nexus_ok nx -> ~ available nx "R" -> oracle_ok o -> standard_config nr cfg ->
  (forall p, p ∈ pkgs -> available nx p) ->
  resolve_installation_reqs o pkgs pre cfg nx update le nr = PlanOk ip ->
  planned ip q -> comes_with_r nr q ->
  q ∈ pkgs \/ exists p, planned ip p /\ suggests cfg nx p q.
Proof.
  intros nx nr o pkgs pre cfg update le ip q H1 H2 H3 H4 H5 E Hq Hc.
  destruct (plan_closure nx nr o pkgs pre cfg update le H1 H2 H3 H4 H5 ip E) as [Hpl _].
  apply Hpl in Hq as (p & Hp & Hr). apply rtc_inv_r in Hr as [->|(x & Hx & [[H|H] _])]; [by left| |].
  - destruct H as (_ & _ & _ & _ & H). destruct (H4 x) as (_ & _ & _ & Hn). rewrite Hn in H. done.
  - right. exists x. split; [|done]. apply Hpl. by exists p.
Qed.
Print Assumptions C27_base_packages_partial.

(** C28: an installed package outside the plan with a newer version is counted. *)
Definition ex_installed : gmap string desc :=
  {[ "core" := mk_pkg "core" "2.1.0" [] [] [] []; "MASS" := mk_pkg "MASS" "7.3-50" [] [] [] [] ]}.

Definition ex_plan : install_plan :=
  match resolve_installation_reqs id_oracle ["lib1"] ex_installed (default_config false) ex_nx true true false with
  | PlanOk ip => ip
  | _ => InstallPlan [] ∅ [] [] ∅ false false
  end.

Lemma only_outdated (l : list outdated_package) q : map op_package l = [q] -> forall x, x ∈ l -> op_package x = q.
Proof.
  intros E x Hx. assert (op_package x ∈ map op_package l) as H by (apply elem_of_list_fmap; by exists x).
  rewrite E in H. by apply elem_of_list_singleton in H.
Qed.

Theorem C28_count_refuted :
  exists ip, resolve_installation_reqs id_oracle ["lib1"] ex_installed (default_config false) ex_nx true true false
      = PlanOk ip /\
    ip_update ip = true /\ ~ planned ip "MASS" /\
    count (fun p => ip_installed ip !! p = None \/ p ∈ @nil string) (planned_names ip) 1 /\
    count (fun p => ip_update ip = true /\ exists x, x ∈ ip_outdated ip /\ op_package x = p) (planned_names ip) 0 /\
    num_to_install ip (map_to_list (ip_depdb ip)).*1 [] = 2%Z.
Proof.
  exists ex_plan.
  assert (planned_names ex_plan = ["core"; "lib1"]) as E by (vm_compute; reflexivity).
  assert (ip_installed ex_plan = ex_installed) as Ei by (vm_compute; reflexivity).
  assert (map op_package (ip_outdated ex_plan) = ["MASS"]) as Eo by (vm_compute; reflexivity).
  split; [vm_compute; reflexivity|]. split; [vm_compute; reflexivity|]. rewrite E, Ei. split; [|split; [|split]].
  - intros H. assert ("MASS" ∈ planned_names ex_plan) as H'.
    { unfold planned_names. apply elem_of_app. destruct H as [H|[x H]]; [by left|right].
      apply elem_of_list_fmap. exists ("MASS", x). split; [done|]. by apply elem_of_map_to_list. }
    rewrite E in H'. apply existsb_elem in H'. discriminate.
  - apply count_no; [|apply count_yes; [by left|constructor]].
    intros [H|H]; [vm_compute in H; discriminate|by apply elem_of_nil in H].
  - assert (forall x, x ∈ ip_outdated ex_plan -> op_package x = "MASS") as K.
    { exact (only_outdated _ _ Eo). }
    repeat (apply count_no; [intros (_ & x & Hx & Hp); apply K in Hx; congruence|]). constructor.
  - vm_compute. reflexivity.
Qed.
Print Assumptions C28_count_refuted.

(** The number is right when all outdated packages are required, and no tarball
    is also a planned package. *)
Theorem C28_count_partial : forall ip keys additional,
  keys ≡ₚ (map_to_list (ip_depdb ip)).*1 ->
  NoDup (ip_starting ip ++ keys ++ additional) ->
  NoDup (map op_package (ip_outdated ip)) ->
  (forall x, x ∈ ip_outdated ip -> op_package x ∈ (ip_starting ip ++ keys ++ additional)%list) ->
  forall n u, count (fun p => ip_installed ip !! p = None \/ p ∈ additional)
                (ip_starting ip ++ keys ++ additional) n ->
    count (fun p => ip_update ip = true /\ exists x, x ∈ ip_outdated ip /\ op_package x = p)
      (ip_starting ip ++ keys ++ additional) u ->
    num_to_install ip keys additional = Z.of_nat (n + u).
Proof. exact num_to_install_spec. Qed.
Print Assumptions C28_count_partial.

Example C28_example :
  match resolve_installation_reqs id_oracle ["lib1"; "MASS"] ex_installed (default_config false) ex_nx true true false with
  | PlanOk ip => num_to_install ip (map_to_list (ip_depdb ip)).*1 [] = 2%Z /\
      map op_package (ip_outdated ip) = ["MASS"]
  | _ => False
  end.
Proof. vm_compute. split; reflexivity. Qed.

(** C29: the empty request aborts, and so does an installed package whose
    version has a single component. *)
Theorem C29_total_refuted :
  resolve_installation_reqs id_oracle [] ∅ (default_config false) ex_nx true true false = PlanPanic /\
  resolve_installation_reqs id_oracle ["core"] {[ "core" := mk_pkg "core" "2" [] [] [] [] ]}
    (default_config false) ex_nx true true false = PlanPanic.
Proof. split; vm_compute; reflexivity. Qed.
Print Assumptions C29_total_refuted.

Theorem C29_total_partial : forall nx nr o pkgs pre cfg update le,
  nexus_ok nx -> ~ available nx "R" -> oracle_ok o -> standard_config nr cfg ->
  (forall p, p ∈ pkgs -> available nx p) -> pkgs <> [] ->
  (forall p d d', pre !! p = Some d -> offered nx p d' ->
     compare_version_strings (d_version d') (d_version d) <> None) ->
  pre !! "" = None ->
  ~ has_cycle (fun a b => closure cfg nx pkgs a /\ needs nx nr a b) ->
  exists ip, resolve_installation_reqs o pkgs pre cfg nx update le nr = PlanOk ip.
Proof. exact plan_succeeds. Qed.
Print Assumptions C29_total_partial.

(** C30: a second entry for the same package resets its setting. *)
Theorem C30_suggests_refuted :
  exists cs cfg' nx',
    set_plan_customizations false ["app"] cs (default_config false) ex_nx = Some (cfg', nx') /\
    (forall b, setting "Suggests" cu_suggests cs "app" b -> b = true) /\
    (exists b, setting "Suggests" cu_suggests cs "app" b) /\
    pd_suggests (settings_for cfg' "app") = false.
Proof.
  exists [[("app", Custom ["Suggests"] true "" "")]; [("app", Custom ["Env"] false "" "")]],
    (set_suggests "app" false (set_suggests "app" true (default_config false))), ex_nx.
  split; [reflexivity|]. split; [|split].
  - intros b H. apply setting_concat in H as (c & H1 & H2 & <-). cbn in H1.
    apply elem_of_cons in H1 as [[= ->]|H1]; [done|]. apply elem_of_list_singleton in H1 as [= ->].
    apply elem_of_list_singleton in H2. discriminate.
  - exists true. apply setting_concat. eexists. split; [by left|]. split; [by left|done].
  - vm_compute. reflexivity.
Qed.
Print Assumptions C30_suggests_refuted.

Theorem C30_suggests_partial : forall sug pkgs cs nr nx cfg' nx', customs_distinct cs ->
  set_plan_customizations sug pkgs cs (default_config nr) nx = Some (cfg', nx') ->
  forall p,
    (forall b, setting "Suggests" cu_suggests cs p b -> pd_suggests (settings_for cfg' p) = b) /\
    ((forall b, ~ setting "Suggests" cu_suggests cs p b) ->
       (pd_suggests (settings_for cfg' p) = true <-> sug = true /\ p ∈ pkgs)).
Proof. exact suggests_settings. Qed.
Print Assumptions C30_suggests_partial.

(** Nothing but Suggests is customized, so plans always use a standard configuration. *)
Theorem C30_standard_config : forall sug pkgs cs nr nx cfg' nx',
  set_plan_customizations sug pkgs cs (default_config nr) nx = Some (cfg', nx') ->
  nx_db nx' = nx_db nx /\ standard_config nr cfg'.
Proof. exact plan_customizations_frame. Qed.
Print Assumptions C30_standard_config.

Example C30_example :
  customs_distinct [[("app", Custom ["Suggests"] false "" ""); ("lib1", Custom ["Suggests"] true "" "")]] /\
  match set_plan_customizations true ["app"; "core"]
    [[("app", Custom ["Suggests"] false "" ""); ("lib1", Custom ["Suggests"] true "" "")]]
    (default_config false) ex_nx with
  | Some (c, _) => map (fun p => pd_suggests (settings_for c p)) ["app"; "core"; "lib1"; "lib2"] =
                   [false; true; true; false]
  | None => False
  end.
Proof. split; [|vm_compute; reflexivity]. unfold customs_distinct. cbn. repeat constructor; set_solver. Qed.

(** C31 *)
Theorem C31_outdated : forall nx pre keys r, nexus_ok nx -> pre !! "" = None ->
  keys ≡ₚ elements (dom (D := gset string) pre) ->
  get_outdated pre (ap_packages (get_packages nx keys)) = Some r ->
  (forall x, x ∈ r <-> exists d d', pre !! op_package x = Some d /\ offered nx (op_package x) d' /\
     op_old x = d_version d /\ op_new x = d_version d' /\
     exists c, compare_version_strings (d_version d') (d_version d) = Some c /\ (c > 0)%Z) /\
  NoDup (map op_package r).
Proof. exact outdated_spec. Qed.
Print Assumptions C31_outdated.

(** In terms of the numbers: for versions of two to four numeric components. *)
Theorem C31_outdated_numeric : forall nx pre keys r p d d' v v', nexus_ok nx -> pre !! "" = None ->
  keys ≡ₚ elements (dom (D := gset string) pre) ->
  get_outdated pre (ap_packages (get_packages nx keys)) = Some r ->
  pre !! p = Some d -> offered nx p d' ->
  d_version d = vtext_text v -> d_version d' = vtext_text v' -> vtext_ok v -> vtext_ok v' ->
  2 <= length (vtext_numerals v) <= 4 -> 2 <= length (vtext_numerals v') <= 4 ->
  Outdated p (d_version d) (d_version d') ∈ r <-> lex_compare (vtext_values v') (vtext_values v) = Gt.
Proof.
  intros nx pre keys r p d d' v v' H1 H2 H3 H4 Hp Ho E E' V V' L L'.
  destruct (outdated_spec nx pre keys r H1 H2 H3 H4) as [H _]. rewrite H. cbn [op_package op_old op_new].
  pose proof (compare_strings_numeric v' v V' V L' L) as C. rewrite <- E, <- E' in C. split.
  - intros (d1 & d1' & F1 & F2 & _ & _ & c & F3 & F4).
    assert (d1 = d) as -> by congruence.
    assert (d1' = d') as -> by (destruct Ho as [? Ho], F2 as [? F2]; congruence).
    assert (c = sign_of (lex_compare (vtext_values v') (vtext_values v))) as -> by congruence.
    clear -F4. revert F4. destruct (lex_compare _ _); cbn; [lia|lia|done].
  - intros Hl. exists d, d'. repeat (split; [done|]). rewrite C. eexists. split; [done|].
    rewrite Hl. done.
Qed.
Print Assumptions C31_outdated_numeric.

Example C31_example :
  get_outdated ex_installed (ap_packages (get_packages ex_nx
    (elements (dom (D := gset string) ex_installed)))) = Some [Outdated "MASS" "7.3-50" "7.3-51"].
Proof. vm_compute. reflexivity. Qed.

(** C32 *)
Theorem C32_scan : forall dirs, NoDup dirs.*1 ->
  (forall name d, (name, Some d) ∈ dirs -> d_package d <> "" -> d_package d = name) ->
  (forall p d, prior_installed dirs ∅ !! p = Some d <->
     p <> "" /\ d_package d = p /\ (p, Some d) ∈ dirs) /\
  (forall dirs', dirs ≡ₚ dirs' -> prior_installed dirs ∅ = prior_installed dirs' ∅).
Proof.
  intros dirs H1 H2. split.
  - intros p d. rewrite prior_installed_spec by done. rewrite lookup_empty. split.
    + intros [H|[_ ?]]; done.
    + by left.
  - intros dirs' P. by apply prior_installed_perm.
Qed.
Print Assumptions C32_scan.

Theorem C32_installers : forall ip keys a b, get_installers ip keys = (a, b) ->
  (a ++ b)%list ≡ₚ keys /\
  (forall p, p ∈ a <-> p ∈ keys /\ exists d, ip !! p = Some d /\ d_pkgr_version d <> "") /\
  (forall p, p ∈ b <-> p ∈ keys /\ ~ exists d, ip !! p = Some d /\ d_pkgr_version d <> "").
Proof. exact get_installers_spec. Qed.
Print Assumptions C32_installers.

(** A left-over backup directory is taken for the package it is a backup of. *)
Example C32_backup_counts :
  (d_version <$> prior_installed [("foo", Some (mk_pkg "foo" "2.0" [] [] [] []));
      ("__OLD__foo", Some (mk_pkg "foo" "1.0" [] [] [] []))] ∅ !! "foo") = Some "1.0".
Proof. vm_compute. reflexivity. Qed.

Example C32_example :
  map_to_list (d_version <$> prior_installed
    [("foo", Some (mk_pkg "foo" "2.0" [] [] [] [])); ("junk", None); ("bar", Some (mk_pkg "bar" "1.0" [] [] [] []))] ∅)
  = [("bar", "1.0"); ("foo", "2.0")].
Proof. vm_compute. reflexivity. Qed.

(** C16: whatever is requested or required. *)
Theorem C16_ignored : forall o cfg nx tarballs descriptions installed le nx' ip p,
  oracle_ok o -> nexus_ok nx -> no_record nx "R" ->
  plan_install o cfg nx tarballs descriptions installed le = PIPlan nx' ip ->
  p ∈ cf_ignore cfg -> ~ planned ip p.
Proof. intros o cfg nx t de i le nx' ip p H1 H2 H3. by apply plan_install_ignores. Qed.
Print Assumptions C16_ignored.

Definition ex_plan_cfg : plan_config :=
  PlanConfig ["app"; "stats"] ["lib1"] false false false [[("core", Custom ["Repo"] false "CRAN" "")]].

Definition plan_names (r : planned_install) : option (list string) :=
  match r with PIPlan _ ip => Some (sort_strings (planned_names ip)) | _ => None end.

Example C16_example :
  plan_names (plan_install id_oracle ex_plan_cfg ex_nx [] [] ∅ true) = Some ["app"; "core"; "lib2"] /\
  plan_names (plan_install id_oracle (PlanConfig ["app"] [] false false false []) ex_nx [] [] ∅ true) =
    Some ["app"; "core"; "lib1"; "lib2"].
Proof. split; vm_compute; reflexivity. Qed.

(** C69: Depends is left out. *)
Definition ex_tarball : desc := mk_pkg "tb" "1.0" ["R"; "lib1"] ["core"] ["lib2"] ["extra"].

Theorem C69_description_deps_refuted :
  is_Some (d_depends ex_tarball !! "lib1") /\ "lib1" ∉ r_base /\
  "lib1" ∉ plan_request id_oracle (PlanConfig [] [] false false false []) [ex_tarball] [ex_tarball].
Proof.
  split; [vm_compute; eauto|]. split.
  - rewrite <- existsb_elem. vm_compute. discriminate.
  - rewrite <- existsb_elem. vm_compute. discriminate.
Qed.
Print Assumptions C69_description_deps_refuted.

Theorem C69_description_deps_partial : forall o cfg tarballs descriptions p, oracle_ok o ->
  Forall desc_deps_ok tarballs -> Forall desc_deps_ok descriptions ->
  p ∈ plan_request o cfg tarballs descriptions <->
  wanted cfg tarballs descriptions p /\ p ∉ r_base.
Proof. exact plan_request_spec. Qed.
Print Assumptions C69_description_deps_partial.

Example C69_example :
  desc_deps_ok ex_tarball /\
  sort_strings (plan_request id_oracle ex_plan_cfg [ex_tarball] []) = ["app"; "core"; "lib2"].
Proof. split; [repeat split; apply depsb_sound; vm_compute; reflexivity|vm_compute; reflexivity]. Qed.

(** C72 *)
Theorem C72_bare_r_refuted :
  (forall d c rv, d_depends d !! "R" = Some c -> dep_constraint c = CNone -> is_r_compatible d rv = false) /\
  (forall rv, is_r_compatible (mk_pkg "app" "1.0" ["R"] [] [] []) rv = false).
Proof.
  assert (H : forall d c rv, d_depends d !! "R" = Some c -> dep_constraint c = CNone -> is_r_compatible d rv = false).
  { intros d c rv H1 H2. unfold is_r_compatible. rewrite H1. unfold check_r_version. rewrite H2. by case_match. }
  split; [done|]. intros rv. by apply (H _ (Dep "R" zero_version CNone)).
Qed.
Print Assumptions C72_bare_r_refuted.

(** C73: from the configuration to the plan. *)
Theorem C73_plan_install : forall o cfg nx tarballs descriptions installed le nx' ip,
  oracle_ok o -> nexus_ok nx -> no_record nx "R" ->
  plan_install o cfg nx tarballs descriptions installed le = PIPlan nx' ip ->
  Forall desc_deps_ok tarballs -> Forall desc_deps_ok descriptions ->
  exists deps, set_plan_customizations (cf_suggests cfg) (cf_packages cfg) (cf_customs cfg)
      (default_config (cf_no_recommended cfg)) (ignore_packages nx (cf_ignore cfg)) = Some (deps, nx') /\
  (forall q, planned ip q <-> exists p, wanted cfg tarballs descriptions p /\ p ∉ r_base /\
     rtc (pulls deps nx') p q) /\
  NoDup (planned_names ip) /\
  (forall q, planned ip q -> available nx' q /\ q ∉ cf_ignore cfg) /\
  (forall dl, dl ∈ ip_downloads ip ->
     get_package nx' (d_package (dl_package dl)) = Some (dl_package dl, dl_config dl)).
Proof. intros o cfg nx t de i le nx' ip H1 H2 H3. by apply plan_install_spec. Qed.
Print Assumptions C73_plan_install.

(** The pins: repository and type of customized packages, others as without customizations. *)
Theorem C73_pins : forall sug pkgs cs nr nx cfg' nx', customs_distinct cs ->
  set_plan_customizations sug pkgs cs (default_config nr) nx = Some (cfg', nx') ->
  (forall p repo, setting "Repo" cu_repo cs p repo -> repo <> "" ->
     forall d c, get_package nx' p = Some (d, c) -> ru_name (pc_repo c) = repo) /\
  (forall p t, setting "Type" cu_type cs p t ->
     exists st, set_type t = Some st /\ forall d c, get_package nx' p = Some (d, c) -> pc_type c = st) /\
  (forall p, p ∉ (concat cs).*1 -> get_package nx' p = get_package nx p).
Proof. exact pins_settings. Qed.
Print Assumptions C73_pins.

(** Missing packages give no plan, and the report lists exactly them. *)
Theorem C73_missing : forall o cfg nx tarballs descriptions installed le missing,
  oracle_ok o -> nexus_ok nx -> no_record nx "R" ->
  plan_install o cfg nx tarballs descriptions installed le = PIMissing missing ->
  Forall desc_deps_ok tarballs -> Forall desc_deps_ok descriptions ->
  exists deps nx', set_plan_customizations (cf_suggests cfg) (cf_packages cfg) (cf_customs cfg)
      (default_config (cf_no_recommended cfg)) (ignore_packages nx (cf_ignore cfg)) = Some (deps, nx') /\
    missing <> [] /\
    forall p, p ∈ missing <->
      wanted cfg tarballs descriptions p /\ p ∉ r_base /\ ~ available nx' p.
Proof.
  intros o cfg nx t de i le missing H1 H2 H3 E D1 D2.
  destruct (plan_install_cases o cfg nx t de i le H2 H3)
    as [[_ H]|(deps & nx' & Es & _ & _ & _ & _ & [[(x & Hx1 & Hx2) H]|[_ H]])]; [congruence| |].
  - exists deps, nx'. split; [done|]. rewrite E in H. injection H as ->.
    assert (forall p, p ∈ ap_missing (get_packages nx' (plan_request (sub o 0) cfg t de)) <->
      p ∈ plan_request (sub o 0) cfg t de /\ ~ available nx' p) as M.
    { intros p. cbn [get_packages ap_missing]. rewrite elem_of_list_In, filter_In, <- elem_of_list_In.
      unfold get_package_go, available, offered. destruct (get_package nx' p) as [[d c]|]; cbn; naive_solver. }
    split.
    + intros Hn. assert (x ∈ @nil string) as Hx; [|by apply elem_of_nil in Hx]. rewrite <- Hn. by apply M.
    + intros p. rewrite M, plan_request_spec by (done || by apply sub_ok). tauto.
  - rewrite E in H. destruct (resolve_installation_reqs _ _ _ _ _ _ _ _); discriminate.
Qed.
Print Assumptions C73_missing.

Example C73_example :
  plan_names (plan_install id_oracle ex_plan_cfg ex_nx [ex_tarball] [] ex_installed true) =
    Some ["app"; "core"; "lib2"] /\
  plan_install id_oracle (PlanConfig ["nope"; "app"] ["app"] false false false []) ex_nx [] [] ∅ true =
    PIMissing ["nope"; "app"].
Proof. split; vm_compute; reflexivity. Qed.
