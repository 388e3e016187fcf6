(** Further claims, in all cases. *)
From stdpp Require Import strings list gmap relations sorting.
From Coq Require Import Ascii ZArith NArith Lia.
From Verif.model Require Import GoStr Version Desc Nexus Pacman Graph RepoDb Plan Fs Rollback Report Env Start.
From Verif.spec Require Import StrSpec VersionSpec RepoSpec GraphSpec PlanSpec LibSpec ReportSpec StartSpec ExpandSpec Exact3Spec.
From Verif.proofs Require Import GoStrLemmas RepoProofs FetchProofs GraphProofs LayerProofs PlanProofs PlanProps
  DerivedProofs ReportProofs StartProofs ExpandProofs ExampleChecks.
From Verif.props Require Import P_Repo P_Graph P_Report.

Local Open Scope string_scope.

(** ** C86: environment variables in any configuration *)

Theorem C86_exact env s t : os_expand env s = t <-> expands env s t.
Proof. apply expand_exact. Qed.

(** Two mistakes: the dollar and the brace vanish without a message. *)
Theorem C86_open_brace env s : all_chars (fun c => c <> "}"%char /\ c <> "$"%char) s -> os_expand env ("${" +:+ s) = s.
Proof.
  intros H. apply C86_exact, ex_open.
  - induction s as [|c s IH]; [done|]. destruct H as [[H1 _] H]. split; [done|by apply IH].
  - induction s as [|c s IH]; [constructor|]. destruct H as [[_ H1] H]. constructor; [done|by apply IH].
Qed.

Example C86_exact_example :
  let env n := if String.eqb n "HOME" then "/me" else "" in
  os_expand env "a: ${HOME" = "a: HOME" /\ os_expand env "$HOME/x ${HOME}y $ 5$" = "/me/x /mey $ 5$" /\
  os_expand env "${}z$$HOME" = "zHOME" /\ expands env "cost: $10" "cost: 0" /\ ~ expands env "cost: $10" "cost: $10".
Proof.
  split; [vm_compute; reflexivity|]. split; [vm_compute; reflexivity|]. split; [vm_compute; reflexivity|].
  split; [apply C86_exact; vm_compute; reflexivity|]. intros H. apply C86_exact in H. vm_compute in H. discriminate H.
Qed.

Print Assumptions C86_exact.
Print Assumptions C86_open_brace.

(** ** C10: which version is offered, for every index *)

Theorem C10_exact rv ds p : rv_ok rv ->
  (forall d, add_records rv ds ∅ !! p = Some d <-> last_such (usable_record rv p) ds d) /\
  (add_records rv ds ∅ !! p = None <-> forall d, d ∈ ds -> ~ usable_record rv p d).
Proof.
  intros H. split; [intros d; by apply add_records_spec|]. split.
  - intros E. assert (forall x, Decision (usable_record rv p x)) as Dec by (intros; by apply usable_record_dec).
    destruct (last_such_dec (usable_record rv p) ds) as [(x & Hx)|N]; [|done].
    apply (add_records_spec rv ds p x H) in Hx. congruence.
  - intros Hn. destruct (add_records rv ds ∅ !! p) as [d|] eqn:E; [|done].
    apply (add_records_spec rv ds p d H) in E as (l1 & l2 & -> & Hu & _). exfalso. apply (Hn d); [set_solver|done].
Qed.

Example C10_exact_example :
  let rv := RVersion 3 6 1 in
  let ds := [mk_desc "a" "3.0" []; mk_desc "b" "1" []; mk_desc "a" "2.0" []] in
  last_such (usable_record rv "a") ds (mk_desc "a" "2.0" []) /\ add_records rv ds ∅ !! "c" = None.
Proof.
  split; [|vm_compute; reflexivity].
  apply C10_exact; [by repeat constructor|vm_compute; reflexivity].
Qed.

(** ** C14: what a pinned package is *)

Theorem C14_exact nx pkg repo nx' st d c : set_package_repo nx pkg repo = Some nx' -> repo <> "" ->
  type_when_pinned nx pkg st ->
  (get_package nx' pkg = Some (d, c) <->
   exists db, first_such (fun db => ru_name (db_repo db) = repo /\ exists d', has_record (db_types db) st pkg d') (nx_db nx) db /\
     has_record (db_types db) st pkg d /\ c = PkgConfig (db_repo db) st).
Proof.
  intros Hs Hr Ht. unfold set_package_repo in Hs. destruct (find_repo _ _) as [db0|] eqn:F; [|done].
  apply find_repo_spec in F as [F1 F2]. injection Hs as <-.
  set (nx' := Nexus _ _ _).
  assert (nx_packages nx' !! pkg =
    Some (PkgConfig (db_repo db0) (pc_type (default empty_pkg_config (nx_packages nx !! pkg))))) as L.
  { cbn. by rewrite lookup_insert. }
  assert (forall db, allowed_repo nx' pkg db <-> ru_name (db_repo db) = repo) as A.
  { intros db. unfold allowed_repo. rewrite L. split.
    - intros H. symmetry. rewrite <- F2. by apply (H _ eq_refl); cbn; rewrite F2.
    - intros E c0 [= <-] _. cbn. congruence. }
  assert (forall db st', wanted_type nx' pkg db st' <-> st' = st) as W.
  { intros db st'. unfold wanted_type. rewrite L. cbn [pc_type nx_default nx'].
    destruct Ht as [(c0 & E & N & ->)|[N ->]].
    - rewrite E. cbn. split; [intros [[_ H]|[H _]]; [done|congruence]|]. intros ->. by left.
    - destruct (nx_packages nx !! pkg) as [c0|] eqn:E; cbn.
      + rewrite (N c0 eq_refl). split; [intros [[H _]|[_ H]]; done|]. intros ->. by right.
      + split; [intros [[H _]|[_ H]]; done|]. intros ->. by right. }
  rewrite get_package_spec. change (nx_db nx') with (nx_db nx). split.
  - intros (l1 & db & l2 & E & (O1 & O2 & O3) & P & N). apply W in O1. apply A in O2. exists db. split.
    + exists l1, l2. split; [done|]. split; [split; [done|exists d; by rewrite <- O1]|].
      intros y Hy [Y1 [d' Y2]]. apply (N y d' st Hy). split; [by apply W|]. split; [by apply A|done].
    + rewrite <- O1. split; [done|]. destruct c; cbn in *; congruence.
  - intros (db & (l1 & l2 & E & [P1 _] & N) & P2 & ->). exists l1, db, l2. split; [done|]. cbn [pc_type pc_repo].
    split; [split; [by apply W|split; [by apply A|done]]|]. split; [done|].
    intros y d' st' Hy (Y1 & Y2 & Y3). apply W in Y1 as ->. apply (N y Hy). split; [by apply A|by exists d'].
Qed.

(** The package of the refutation of C14. *)
Example C14_exact_example :
  type_when_pinned ex_nexus "b" STSource /\
  (nx' ← set_package_repo ex_nexus "b" "two"; chosen (get_package nx' "b")) = Some ("1.1", "two", STSource).
Proof.
  split; [|vm_compute; reflexivity]. right. split; [|vm_compute; reflexivity]. intros c H. vm_compute in H. discriminate H.
Qed.

(** ** C27: base and recommended packages *)

Theorem C27_exact : forall nx nr o pkgs pre cfg update le ip q,
  nexus_ok nx -> ~ available nx "R" -> oracle_ok o -> standard_config nr cfg ->
  (forall p, p ∈ pkgs -> available nx p) ->
  resolve_installation_reqs o pkgs pre cfg nx update le nr = PlanOk ip -> comes_with_r nr q ->
  (planned ip q <-> q ∈ pkgs \/ exists p, planned ip p /\ suggests cfg nx p q).
Proof.
  intros nx nr o pkgs pre cfg update le ip q H1 H2 H3 H4 H5 E Hc. split.
  - intros Hq. by eapply C27_base_packages_partial.
  - destruct (C20_plan_is_closure nx nr o pkgs pre cfg update le ip H1 H2 H3 H4 H5 E) as [Hpl _].
    intros [Hq|(p & Hp & Hs)].
    + apply Hpl. exists q. by split.
    + apply Hpl in Hp as (r & Hr & Hrp). apply Hpl. exists r. split; [done|]. eapply rtc_r; [exact Hrp|].
      split; [by right|]. intros ->. destruct Hs as (d & _ & _ & _ & Ha). done.
Qed.

Example C27_exact_example :
  exists ip, resolve_installation_reqs id_oracle ["app"; "core"] ∅ ex_cfg ex_nx true true false = PlanOk ip /\
    comes_with_r false "utils" /\ planned ip "utils" /\ "utils" ∉ ["app"; "core"] /\
    exists p, planned ip p /\ suggests ex_cfg ex_nx p "utils".
Proof.
  destruct C27_base_packages_refuted as (ip & Hu & E & Hn & Hp). exists ip. split; [done|]. split; [by left|]. split; [done|].
  split; [done|].
  apply (C27_exact ex_nx false id_oracle ["app"; "core"] ∅ ex_cfg true true ip "utils") in Hp as [H|H].
  - destruct (Hn H).
  - exact H.
  - exact ex_nexus_ok.
  - apply no_record_unavailable, ex_no_R.
  - exact id_oracle_ok.
  - exact ex_cfg_standard.
  - exact ex_available.
  - exact E.
  - by left.
Qed.

(** ** C122 and C123: the messages *)

Theorem C122_exact : forall nx nr o pkgs pre cfg update le ip keys additional installed,
  nexus_ok nx -> ~ available nx "R" -> oracle_ok o -> standard_config nr cfg ->
  (forall p, p ∈ pkgs -> available nx p) ->
  resolve_installation_reqs o pkgs pre cfg nx update le nr = PlanOk ip ->
  keys ≡ₚ (map_to_list (ip_depdb ip)).*1 ->
  exists l : list string, NoDup l /\ (forall p, p ∈ l <-> planned ip p) /\
    sm_required (status_of ip keys additional installed) = (length l + length additional)%nat.
Proof.
  intros nx nr o pkgs pre cfg update le ip keys additional installed H1 H2 H3 H4 H5 E Hk.
  exists (ip_starting ip ++ keys)%list.
  split; [exact (names_nodup nx nr o pkgs pre cfg update le ip H1 H2 H3 H4 H5 E keys Hk)|]. split.
  - intros p. apply (planned_in ip keys Hk).
  - cbn [status_of sm_required]. unfold get_all_packages. by rewrite app_assoc, app_length.
Qed.

Theorem C123_exact no_update ip :
  (forall p b, (p, b) ∈ update_messages no_update ip <-> b = negb no_update /\ exists x, x ∈ ip_outdated ip /\ op_package x = p) /\
  to_update no_update ip = if no_update then 0%nat else length (ip_outdated ip).
Proof.
  split.
  - intros p b. unfold update_messages. rewrite elem_of_list_In, in_map_iff. split.
    + intros (x & [= <- <-] & H). split; [done|]. exists x. split; [by apply elem_of_list_In|done].
    + intros (-> & x & Hx & <-). exists x. split; [done|by apply elem_of_list_In].
  - unfold to_update. destruct no_update; [by induction (ip_outdated ip)|].
    assert (forall (l : list outdated_package) (n k : nat), fold_left (fun _ _ => k) l n = match l with [] => n | _ => k end) as F.
    { induction l as [|x l IH]; [done|]. intros n k. cbn [fold_left]. rewrite IH. by destruct l. }
    rewrite F. by destruct (ip_outdated ip).
Qed.

(** core is needed and a tarball of it is given: the announcements of C122_twice_refuted
    and of C123_unrelated_refuted. *)
Example C122_exact_example :
  match resolve_installation_reqs id_oracle ["lib1"] ∅ (default_config false) ex_nx true true false with
  | PlanOk ip => sm_required (status_of ip (map_to_list (ip_depdb ip)).*1 ["core"] []) = (2 + 1)%nat
  | _ => False
  end.
Proof. vm_compute. reflexivity. Qed.

Example C123_exact_example : to_update false (ri_plan mass_run) = 1%nat /\ to_update true (ri_plan mass_run) = 0%nat /\
  ("MASS", false) ∈ update_messages true (ri_plan mass_run).
Proof.
  split; [vm_compute; reflexivity|]. split; [vm_compute; reflexivity|].
  apply (proj1 (C123_exact true (ri_plan mass_run))). split; [done|]. destruct C123_unrelated_refuted as (H & _).
  apply (proj1 (C123_exact _ _)) in H as [_ H]. exact H.
Qed.

Print Assumptions C10_exact.
Print Assumptions C14_exact.
Print Assumptions C27_exact.
Print Assumptions C122_exact.
Print Assumptions C123_exact.
