(** C121-C124: what planInstall says about the plan. *)
From stdpp Require Import strings list gmap relations sorting.
From Coq Require Import Ascii ZArith Lia.
From Verif.model Require Import GoStr Version Desc Nexus Pacman Graph RepoDb Plan Fs Rollback Report.
From Verif.spec Require Import VersionSpec RepoSpec GraphSpec PlanSpec LibSpec ReportSpec.
From Verif.proofs Require Import RepoProofs FetchProofs GraphProofs LayerProofs PlanProofs PlanProps DerivedProofs
  ExampleChecks ReportProofs.
From Verif.props Require Import P_Graph.

Local Open Scope string_scope.

(** The plan of the examples: lib1 needs core, which is installed; MASS is installed,
    outdated and not asked for. *)
Definition names_of (m : gmap string desc) : list string := elements (dom (D := gset string) m).

(** * C121: the sources

    In full: for each repository the number that is announced is the number of packages
    that come from it, for tarballs it is the number of tarballs, and the numbers add
    up to the number of required packages.  Missing: a repository called tarballs. *)

Theorem C121_sources_partial : forall ip additional,
  (forall rn n, rn <> "tarballs" -> count (comes_from rn) (ip_downloads ip) n ->
     default 0 (sources_of ip additional !! rn) = n) /\
  sources_of ip additional !! "tarballs" = Some (length additional) /\
  (forall rn, is_Some (sources_of ip additional !! rn) <->
     rn = "tarballs" \/ exists dl, dl ∈ ip_downloads ip /\ comes_from rn dl).
Proof.
  intros ip additional. split; [|split].
  - intros rn n. apply sources_other.
  - unfold sources_of. apply lookup_insert.
  - intros rn. apply sources_names.
Qed.
Print Assumptions C121_sources_partial.

Theorem C121_sum_partial : forall nx nr o pkgs pre cfg update le ip keys additional installed,
  nexus_ok nx -> ~ available nx "R" -> oracle_ok o -> standard_config nr cfg ->
  (forall p, p ∈ pkgs -> available nx p) ->
  resolve_installation_reqs o pkgs pre cfg nx update le nr = PlanOk ip ->
  keys ≡ₚ (map_to_list (ip_depdb ip)).*1 ->
  (forall dl, dl ∈ ip_downloads ip -> ~ comes_from "tarballs" dl) ->
  total (sources_of ip additional) = sm_required (status_of ip keys additional installed).
Proof.
  intros nx nr o pkgs pre cfg update le ip keys additional installed H1 H2 H3 H4 H5 E Hk Ht.
  rewrite sources_total by done. cbn [status_of sm_required]. unfold get_all_packages.
  destruct (plan_downloads nx nr o pkgs pre cfg update le H1 H2 H3 H4 H5 ip E) as (_ & _ & D).
  apply Permutation_length in D. rewrite map_length in D. rewrite D. unfold planned_names. rewrite <- Hk, !app_length. lia.
Qed.
Print Assumptions C121_sum_partial.

(** A repository called tarballs is not counted at all. *)
Definition odd_nx : nexus := Nexus [mk_db "tarballs" ex_descs] ∅ STSource.

Theorem C121_name_refuted :
  match resolve_installation_reqs id_oracle ["lib1"] ∅ (default_config false) odd_nx true true false with
  | PlanOk ip => count (comes_from "tarballs") (ip_downloads ip) 2 /\ sources_of ip [] !! "tarballs" = Some 0 /\
      total (sources_of ip []) = 0 /\ sm_required (status_of ip (map_to_list (ip_depdb ip)).*1 [] []) = 2
  | _ => False
  end.
Proof.
  destruct (resolve_installation_reqs id_oracle ["lib1"] ∅ (default_config false) odd_nx true true false) as [ip| | |] eqn:E;
    [|vm_compute in E; discriminate E..].
  assert (map (fun dl => ru_name (pc_repo (dl_config dl))) (ip_downloads ip) = ["tarballs"; "tarballs"]) as E1.
  { vm_compute in E. injection E as <-. vm_compute. reflexivity. }
  split; [|split; [|split]].
  - destruct (ip_downloads ip) as [|a [|b [|? ?]]]; try discriminate E1. injection E1 as Ea Eb.
    apply count_yes; [done|]. apply count_yes; [done|]. constructor.
  - unfold sources_of. apply lookup_insert.
  - unfold sources_of. rewrite E1. vm_compute. reflexivity.
  - vm_compute in E. injection E as <-. vm_compute. reflexivity.
Qed.
Print Assumptions C121_name_refuted.

Example C121_example :
  match resolve_installation_reqs id_oracle ["app"] ∅ (default_config false) ex_nx true true false with
  | PlanOk ip => sources_of ip ["mine"] !! "CRAN" = Some 4 /\ sources_of ip ["mine"] !! "tarballs" = Some 1 /\
      total (sources_of ip ["mine"]) = 5
  | _ => False
  end.
Proof. vm_compute. done. Qed.

(** * C122: the numbers of packages

    In full: the number of required packages is the number of packages that are planned
    or given as a tarball, the number of installed ones that of the packages in the
    library, and the number not from pkgr that of the installed packages without
    pkgr's mark.  Missing: a tarball of a package that is planned too. *)

Theorem C122_required_partial : forall nx nr o pkgs pre cfg update le ip keys additional installed,
  nexus_ok nx -> ~ available nx "R" -> oracle_ok o -> standard_config nr cfg ->
  (forall p, p ∈ pkgs -> available nx p) ->
  resolve_installation_reqs o pkgs pre cfg nx update le nr = PlanOk ip ->
  keys ≡ₚ (map_to_list (ip_depdb ip)).*1 ->
  NoDup additional -> (forall p, p ∈ additional -> ~ planned ip p) ->
  exists l : list string, NoDup l /\ (forall p, p ∈ l <-> planned ip p \/ p ∈ additional) /\
    sm_required (status_of ip keys additional installed) = length l.
Proof.
  intros nx nr o pkgs pre cfg update le ip keys additional installed H1 H2 H3 H4 H5 E Hk Ha Hp.
  exists ((ip_starting ip ++ keys) ++ additional)%list.
  pose proof (names_nodup nx nr o pkgs pre cfg update le ip H1 H2 H3 H4 H5 E keys Hk) as Hn. split; [|split].
  - apply NoDup_app. split; [done|]. split; [|done]. intros p Hi Hj. apply (Hp p Hj).
    by apply (planned_in ip keys Hk).
  - intros p. rewrite elem_of_app. by rewrite (planned_in ip keys Hk).
  - cbn [status_of sm_required]. unfold get_all_packages. by rewrite app_assoc.
Qed.
Print Assumptions C122_required_partial.

Theorem C122_installed : forall nx nr o pkgs pre cfg update le ip keys additional installed n,
  nexus_ok nx -> ~ available nx "R" -> oracle_ok o -> standard_config nr cfg ->
  (forall p, p ∈ pkgs -> available nx p) ->
  resolve_installation_reqs o pkgs pre cfg nx update le nr = PlanOk ip ->
  installed ≡ₚ names_of pre -> count (foreign pre) installed n ->
  sm_installed (status_of ip keys additional installed) = length installed /\
  sm_not_from_pkgr (status_of ip keys additional installed) = n.
Proof.
  intros nx nr o pkgs pre cfg update le ip keys additional installed n H1 H2 H3 H4 H5 E Hi Hn.
  destruct (plan_ok_inv nx nr o pkgs pre cfg update le H1 H2 H3 H4 H5 ip E) as (_ & st & ls & db & _ & _ & _ & _ & _ & _ & Ei & _).
  cbn [status_of sm_installed sm_not_from_pkgr]. rewrite Ei. split.
  - rewrite Hi. unfold names_of. by rewrite <- size_dom.
  - by apply foreign_count.
Qed.
Print Assumptions C122_installed.

(** A tarball of core, which lib1 needs too: two packages are announced as three. *)
Theorem C122_twice_refuted :
  match resolve_installation_reqs id_oracle ["lib1"] ∅ (default_config false) ex_nx true true false with
  | PlanOk ip => planned ip "core" /\ planned ip "lib1" /\ (forall p, planned ip p -> p = "core" \/ p = "lib1") /\
      sm_required (status_of ip (map_to_list (ip_depdb ip)).*1 ["core"] []) = 3
  | _ => False
  end.
Proof.
  destruct (resolve_installation_reqs id_oracle ["lib1"] ∅ (default_config false) ex_nx true true false) as [ip| | |] eqn:E;
    [|vm_compute in E; discriminate E..].
  assert (ip_starting ip = ["core"] /\ (map_to_list (ip_depdb ip)).*1 = ["lib1"]) as [E1 E2].
  { vm_compute in E. injection E as <-. vm_compute. done. }
  assert (forall p, planned ip p <-> p ∈ ["core"; "lib1"]) as Hp.
  { intros p. rewrite <- (planned_in ip (map_to_list (ip_depdb ip)).*1 (reflexivity _)), E1, E2. done. }
  split; [|split; [|split]].
  - apply Hp. by left.
  - apply Hp. by right; left.
  - intros p H. apply Hp in H. apply elem_of_cons in H as [H|H]; [by left|]. apply elem_of_list_singleton in H. by right.
  - cbn [status_of sm_required]. unfold get_all_packages. by rewrite E1, E2.
Qed.
Print Assumptions C122_twice_refuted.

Definition marked : gmap string desc :=
  {[ "core" := Desc "core" "2.1.0" "" "" false ∅ ∅ ∅ ∅ "3.1.0" "source" "https://CRAN";
     "MASS" := mk_pkg "MASS" "7.3-51" [] [] [] [] ]}.

Example C122_example :
  match resolve_installation_reqs id_oracle ["lib1"] marked (default_config false) ex_nx true true false with
  | PlanOk ip => status_of ip (map_to_list (ip_depdb ip)).*1 [] (names_of marked) =
      {| sm_required := 2; sm_installed := 2; sm_outdated := 0; sm_not_from_pkgr := 1 |}
  | _ => False
  end.
Proof. vm_compute. done. Qed.

(** * C123: the updates

    In full: the packages that "will be updated" are those that the installation
    replaces by a newer version, and their number is announced; with NoUpdate there are
    none.  Missing: outdated packages in the library that are not asked for. *)

Theorem C123_updates_partial : forall c i, 
  (forall x, x ∈ ip_outdated (ri_plan i) -> op_package x ∈ required i) ->
  (forall p, (p, true) ∈ update_messages (rc_no_update c) (ri_plan i) <-> updated c i p) /\
  length (List.filter (fun m => m.2) (update_messages (rc_no_update c) (ri_plan i))) = to_update (rc_no_update c) (ri_plan i).
Proof.
  intros c i H. rewrite to_update_spec. unfold update_messages, updated. split.
  - intros p. rewrite elem_of_list_fmap. split.
    + intros (x & [= -> E] & Hx). destruct (rc_no_update c); [done|]. split; [done|]. split; [by apply H|by exists x].
    + intros (-> & _ & x & Hx & <-). by exists x.
  - destruct (rc_no_update c); cbn [negb]; induction (ip_outdated (ri_plan i)) as [|x l IH]; try done.
    + cbn. apply IH. intros y Hy. apply H. by right.
    + cbn. f_equal. apply IH. intros y Hy. apply H. by right.
Qed.
Print Assumptions C123_updates_partial.

(** With NoUpdate nothing is announced as an update, whatever is outdated. *)
Theorem C123_no_update : forall ip, to_update true ip = 0 /\ forall p, (p, true) ∉ update_messages true ip.
Proof.
  intros ip. split; [apply to_update_spec|]. intros p H. apply elem_of_list_fmap in H as (x & [= _] & _).
Qed.
Print Assumptions C123_no_update.

(** MASS is not asked for and stays as it is, but is announced as an update. *)
Definition mass_run : run_input := RunInput ex_plan (map_to_list (ip_depdb ex_plan)).*1 [] [] ex_installed.
Definition mass_conf : run_config := RunConfig ["srv"; "lib"] false false false.

Theorem C123_unrelated_refuted :
  ("MASS", true) ∈ update_messages (rc_no_update mass_conf) (ri_plan mass_run) /\
  to_update (rc_no_update mass_conf) (ri_plan mass_run) = 1 /\
  forall p, ~ replaced mass_conf mass_run p.
Proof.
  assert (update_messages false ex_plan = [("MASS", true)]) as E by (vm_compute; reflexivity).
  assert (map op_package (ip_outdated ex_plan) = ["MASS"]) as Eo by (vm_compute; reflexivity).
  split; [|split].
  - cbn [mass_conf rc_no_update mass_run ri_plan]. rewrite E. by left.
  - vm_compute. reflexivity.
  - intros p [(_ & Hr & x & Hx & Hp)|[H _]]; [|by apply elem_of_nil in H].
    pose proof (only_outdated _ _ Eo x Hx) as Hm. assert (p = "MASS") as -> by congruence.
    assert (required mass_run = ["core"; "lib1"]) as Er by (vm_compute; reflexivity).
    rewrite Er in Hr. apply existsb_elem in Hr. discriminate.
Qed.
Print Assumptions C123_unrelated_refuted.

Example C123_example :
  match resolve_installation_reqs id_oracle ["lib1"; "MASS"] ex_installed (default_config false) ex_nx true true false with
  | PlanOk ip => update_messages false ip = [("MASS", true)] /\ update_messages true ip = [("MASS", false)] /\
      to_update false ip = 1 /\ to_update true ip = 0
  | _ => False
  end.
Proof. vm_compute. done. Qed.

(** * C124: the packages to install

    In full: when some packages of the plan are to be installed and others are left as
    they are, the packages "to install" are the planned packages that are not installed,
    each with its name, its version and its repository.  Missing: tarballs, and outdated
    packages in the library that are not asked for. *)

Theorem C124_lines_partial : forall nx nr o pkgs pre cfg update le ip keys installed,
  nexus_ok nx -> ~ available nx "R" -> oracle_ok o -> standard_config nr cfg ->
  (forall p, p ∈ pkgs -> available nx p) ->
  resolve_installation_reqs o pkgs pre cfg nx update le nr = PlanOk ip ->
  keys ≡ₚ (map_to_list (ip_depdb ip)).*1 -> installed ≡ₚ names_of pre ->
  let lines := install_lines nx ip keys [] installed in
  (forall l, l ∈ lines -> exists p, planned ip p /\ pre !! p = None /\ describes nx p l) /\
  NoDup (map ln_package lines) /\
  (pre !! "" = None -> (forall x, x ∈ ip_outdated ip -> planned ip (op_package x)) ->
   (exists q, planned ip q /\ left_alone ip q) ->
   forall p, planned ip p -> pre !! p = None -> exists l, l ∈ lines /\ describes nx p l).
Proof.
  intros nx nr o pkgs pre cfg update le ip keys installed H1 H2 H3 H4 H5 E Hk Hi lines. split; [|split].
  - intros l Hl. by apply (lines_are nx nr o pkgs pre cfg update le ip H1 H2 H3 H4 H5 E keys installed Hk Hi).
  - by apply (lines_nodup nx nr o pkgs pre cfg update le ip H1 H2 H3 H4 H5 E keys installed Hk).
  - intros He Ho (q & Hq & Hl) p Hp Hn.
    by apply (lines_all nx nr o pkgs pre cfg update le ip H1 H2 H3 H4 H5 E keys installed Hk Hi p q).
Qed.
Print Assumptions C124_lines_partial.

Definition core_installed : gmap string desc := {[ "core" := mk_pkg "core" "2.1.0" [] [] [] [] ]}.

Definition core_plan : install_plan :=
  match resolve_installation_reqs id_oracle ["lib1"] core_installed (default_config false) ex_nx true true false with
  | PlanOk ip => ip
  | _ => InstallPlan [] ∅ [] [] ∅ false false
  end.

(** A tarball that no repository has is listed without a name, and one of a package that
    a repository has with the version in the repository. *)
Theorem C124_tarball_refuted :
  resolve_installation_reqs id_oracle ["lib1"] core_installed (default_config false) ex_nx true true false = PlanOk core_plan /\
  install_lines ex_nx core_plan (map_to_list (ip_depdb core_plan)).*1 ["mine"; "MASS"] (names_of core_installed) =
    [{| ln_package := "lib1"; ln_version := "0.2"; ln_repo := "CRAN"; ln_type := STSource |};
     {| ln_package := ""; ln_version := ""; ln_repo := ""; ln_type := STDefault |};
     {| ln_package := "MASS"; ln_version := "7.3-51"; ln_repo := "CRAN"; ln_type := STSource |}].
Proof. split; vm_compute; reflexivity. Qed.
Print Assumptions C124_tarball_refuted.

(** lib1 is to be installed and core stays, but the list is left out: MASS, which is
    not asked for, makes up for core in the number to install. *)
Theorem C124_hidden_refuted :
  resolve_installation_reqs id_oracle ["lib1"] ex_installed (default_config false) ex_nx true true false = PlanOk ex_plan /\
  planned ex_plan "lib1" /\ ex_installed !! "lib1" = None /\
  planned ex_plan "core" /\ left_alone ex_plan "core" /\
  install_lines ex_nx ex_plan (map_to_list (ip_depdb ex_plan)).*1 [] (names_of ex_installed) = [].
Proof.
  assert (ip_starting ex_plan = ["core"] /\ (map_to_list (ip_depdb ex_plan)).*1 = ["lib1"]) as [E1 E2] by (vm_compute; done).
  assert (map op_package (ip_outdated ex_plan) = ["MASS"]) as Eo by (vm_compute; reflexivity).
  split; [vm_compute; reflexivity|]. split.
  { apply (planned_in ex_plan (map_to_list (ip_depdb ex_plan)).*1 (reflexivity _)). rewrite E1, E2. by right; left. }
  split; [vm_compute; reflexivity|]. split; [left; rewrite E1; by left|]. split; [|vm_compute; reflexivity].
  split; [vm_compute; by eexists|]. intros x Hx Hp. pose proof (only_outdated _ _ Eo x Hx). congruence.
Qed.
Print Assumptions C124_hidden_refuted.

Example C124_example :
  install_lines ex_nx core_plan (map_to_list (ip_depdb core_plan)).*1 [] (names_of core_installed) =
    [{| ln_package := "lib1"; ln_version := "0.2"; ln_repo := "CRAN"; ln_type := STSource |}] /\
  planned core_plan "core" /\ left_alone core_plan "core".
Proof.
  split; [vm_compute; reflexivity|]. split; [left; vm_compute; by left|]. split; [vm_compute; by eexists|].
  assert (ip_outdated core_plan = []) as -> by (vm_compute; reflexivity). by intros x ?%elem_of_nil.
Qed.
