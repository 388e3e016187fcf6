(** C95, C96: pkgr inspect. *)
From stdpp Require Import strings list gmap relations sorting.
From Coq Require Import Ascii ZArith Lia.
From Verif.model Require Import GoStr Version Desc Nexus Pacman Graph RepoDb Plan Inspect.
From Verif.spec Require Import VersionSpec RepoSpec GraphSpec PlanSpec InspectSpec.
From Verif.proofs Require Import RepoProofs FetchProofs GraphProofs LayerProofs PlanProofs PlanProps DerivedProofs InspectProofs.
From Verif.props Require Import P_Graph.

Local Open Scope string_scope.

(** C95.  Without arguments the record has the planned packages that need
    something; with arguments it has exactly the arguments. *)
Theorem C95_dependencies : forall nx nr o pkgs pre cfg update le ip fuel o' args,
  nexus_ok nx -> ~ available nx "R" -> oracle_ok o -> standard_config nr cfg ->
  (forall p, p ∈ pkgs -> available nx p) ->
  resolve_installation_reqs o pkgs pre cfg nx update le nr = PlanOk ip ->
  exists m, inspect fuel o' true false false args (ip_depdb ip) = ShownRecord m /\
    (args = [] -> forall q,
       (is_Some (m !! q) <-> planned ip q /\ exists r, needs nx nr q r) /\
       forall l, m !! q = Some l -> listed (tc (needs nx nr) q) l) /\
    (args <> [] -> forall q,
       (is_Some (m !! q) <-> q ∈ args) /\
       forall l, m !! q = Some l -> (planned ip q -> listed (tc (needs nx nr) q) l) /\ (~ planned ip q -> l = [])).
Proof.
  intros nx nr o pkgs pre cfg update le ip fuel o' args Hnx HR Ho Hc Hav Hp.
  destruct (inspect_plan nx nr o pkgs pre cfg update le ip Hnx HR Ho Hc Hav Hp) as (H1 & H2 & H3).
  assert (forall q, planned ip q -> listed (tc (needs nx nr) q) (sort_strings (default [] (ip_depdb ip !! q)))) as L.
  { intros q Hq. destruct (recorded _ _ _ H1 H2 q Hq). by apply listed_sort. }
  unfold inspect, print_deps. cbv zeta. eexists. split; [reflexivity|]. split.
  - intros -> q. split.
    + rewrite lookup_fmap, fmap_is_Some. split.
      * intros [deps E]. assert (planned ip q) as Hq by (right; eauto). split; [done|].
        destruct (plan_deps nx nr o pkgs pre cfg update le Hnx HR Ho Hc Hav ip Hp) as [K _].
        destruct (plan_closure nx nr o pkgs pre cfg update le Hnx HR Ho Hc Hav ip Hp) as [C N].
        destruct (H1 q deps E) as (_ & _ & M). destruct deps as [|r deps].
        -- exfalso. assert (q ∈ ip_starting ip) as Hs.
           { apply K. split; [by apply C|]. intros r Hr. assert (r ∈ []) as Hx by (by apply M, tc_once). by apply elem_of_nil in Hx. }
           unfold planned_names in N. apply NoDup_app in N as (_ & N & _). apply (N q Hs).
           apply elem_of_list_fmap. exists (q, []). split; [done|]. by apply elem_of_map_to_list.
        -- apply (tc_head _ q r), M. by left.
      * intros [Hq [r Hr]]. destruct (ip_depdb ip !! q) as [deps|] eqn:E; [eauto|]. by destruct (H2 q Hq E r).
    + intros l E. rewrite lookup_fmap in E. destruct (ip_depdb ip !! q) as [deps|] eqn:Ed; [|done]. injection E as <-.
      assert (planned ip q) as Hq by (right; eauto). specialize (L q Hq). by rewrite Ed in L.
  - intros Ha q. destruct args as [|a args]; [done|]. set (all := a :: args). split.
    + rewrite keep_deps_lookup. destruct (decide (q ∈ all)) as [D|D]; split; eauto; [|by intros].
      by intros [? ?].
    + intros l E. rewrite keep_deps_lookup in E. destruct (decide (q ∈ all)) as [D|D]; [|done].
      injection E as <-. rewrite sorted_default. split; [by apply L|].
      intros Hq. destruct (ip_depdb ip !! q) as [deps|] eqn:Ed; [|done]. destruct Hq. right. eauto.
Qed.
Print Assumptions C95_dependencies.

Theorem C95_reverse : forall nx nr o pkgs pre cfg update le ip fuel o' args,
  nexus_ok nx -> ~ available nx "R" -> oracle_ok o -> oracle_ok o' -> standard_config nr cfg ->
  (forall p, p ∈ pkgs -> available nx p) ->
  resolve_installation_reqs o pkgs pre cfg nx update le nr = PlanOk ip ->
  exists m, inspect fuel o' true true false args (ip_depdb ip) = ShownRecord m /\
    (args = [] -> forall r, is_Some (m !! r) <-> exists p, planned ip p /\ needs nx nr p r) /\
    (args <> [] -> forall r, is_Some (m !! r) <-> r ∈ args) /\
    (forall r l, m !! r = Some l -> listed (fun p => planned ip p /\ tc (needs nx nr) p r) l).
Proof.
  intros nx nr o pkgs pre cfg update le ip fuel o' args Hnx HR Ho Ho' Hc Hav Hp.
  destruct (inspect_plan nx nr o pkgs pre cfg update le ip Hnx HR Ho Hc Hav Hp) as (H1 & H2 & H3).
  assert (forall q, is_Some (ip_depdb ip !! q) -> planned ip q) as H4 by (intros q Hq; by right).
  unfold inspect, print_deps. cbv zeta.
  set (inv := invert_dependencies (ip_depdb ip) (ask (sub o' 0) (elements (dom (D := gset string) (ip_depdb ip))))).
  assert (forall r, listed (fun p => planned ip p /\ tc (needs nx nr) p r) (sort_strings (default [] (inv !! r)))) as L.
  { intros r. apply sort_listed. by destruct (inverted _ _ _ H1 H2 H4 o' r Ho'). }
  eexists. split; [reflexivity|]. split; [|split].
  - intros -> r. destruct (inverted _ _ _ H1 H2 H4 o' r Ho') as [_ N]. fold inv in N.
    rewrite lookup_fmap, fmap_is_Some, <- not_eq_None_Some, N. split.
    + intros H. destruct (inv !! r) as [l|] eqn:E; [|by destruct H; apply N].
      destruct (L r) as (_ & _ & M). rewrite E in M. cbn [default id] in M.
      destruct l as [|p l]; [destruct H; intros p Hpl Ht; assert (p ∈ []) as Hx by (by apply M); by apply elem_of_nil in Hx|].
      destruct (proj1 (M p)) as [Hpl Ht]; [rewrite sort_strings_perm; by left|].
      clear -Hpl Ht H3. induction Ht as [a b Hab|a b c Hab Ht IH]; [by exists a|]. apply IH. eapply H3; [exact Hpl|by apply tc_once].
    + intros (p & Hpl & Hn) H. apply (H p Hpl). by apply tc_once.
  - intros Ha r. destruct args as [|a args]; [done|]. set (all := a :: args).
    rewrite keep_deps_lookup. destruct (decide (r ∈ all)) as [D|D]; split; eauto; [|by intros]. by intros [? ?].
  - intros r l E. destruct args as [|a args].
    + rewrite lookup_fmap in E. destruct (inv !! r) as [x|] eqn:Ex; [|done]. injection E as <-. specialize (L r). by rewrite Ex in L.
    + set (all := a :: args) in E. rewrite keep_deps_lookup in E. destruct (decide (r ∈ all)); [|done].
      injection E as <-. by rewrite sorted_default.
Qed.
Print Assumptions C95_reverse.

Definition ex_plan : option install_plan :=
  match resolve_installation_reqs id_oracle ["app"; "core"] ∅ ex_cfg ex_nx true true false with
  | PlanOk ip => Some ip
  | _ => None
  end.

Definition ex_shown (reverse tree : bool) (args : list string) : option (list (string * list string)) :=
  ip ← ex_plan;
  match inspect 9 id_oracle true reverse tree args (ip_depdb ip) with
  | ShownRecord m => Some (map_to_list m)
  | _ => None
  end.

Example C95_example :
  ex_shown false false ["app"; "core"; "nosuch"] = Some [("nosuch", []); ("app", ["core"; "lib1"; "lib2"]); ("core", [])] /\
  ex_shown true false ["core"] = Some [("core", ["app"; "extra"; "lib1"; "lib2"])].
Proof. split; vm_compute; reflexivity. Qed.

(** C96.  In full: with --tree, the packages below a package are its
    dependencies, and with --reverse too the packages that depend on it.  Missing:
    the second part, see [C96_reverse_tree_refuted].  Any depth above the number of
    planned packages is enough, so that the recursion ends. *)
Theorem C96_tree_partial : forall nx nr o pkgs pre cfg update le ip fuel o' args,
  nexus_ok nx -> ~ available nx "R" -> oracle_ok o -> oracle_ok o' -> standard_config nr cfg ->
  (forall p, p ∈ pkgs -> available nx p) ->
  resolve_installation_reqs o pkgs pre cfg nx update le nr = PlanOk ip ->
  (forall a, a ∈ args -> planned ip a) ->
  length (planned_names ip) < fuel ->
  exists ts, inspect fuel o' true false true args (ip_depdb ip) = ShownTree ts /\
    NoDup (map root_of ts) /\ Forall (tree_of (tc (needs nx nr))) ts /\
    (args = [] -> forall q, q ∈ map root_of ts <-> planned ip q /\ exists r, needs nx nr q r) /\
    (args <> [] -> forall q, q ∈ map root_of ts <-> q ∈ args).
Proof.
  intros nx nr o pkgs pre cfg update le ip fuel o' args Hnx HR Ho Ho' Hc Hav Hp Ha Hf.
  destruct (inspect_plan nx nr o pkgs pre cfg update le ip Hnx HR Ho Hc Hav Hp) as (H1 & H2 & H3).
  destruct (C95_dependencies nx nr o pkgs pre cfg update le ip fuel o' args Hnx HR Ho Hc Hav Hp) as (m & E & M1 & M2).
  unfold inspect, print_deps in *. cbv zeta in *. injection E as ->.
  assert (forall q, q ∈ ask (sub o' 1) (elements (dom (D := gset string) m)) <-> is_Some (m !! q)) as K.
  { intros q. by rewrite (ask_perm _ _ (sub_ok o' 1 Ho')), elem_of_elements, elem_of_dom. }
  assert (forall q, is_Some (m !! q) -> planned ip q) as P.
  { intros q Hq. destruct (decide (args = [])) as [E|E].
    - by apply (M1 E q) in Hq as [? _].
    - apply (M2 E q) in Hq. by apply Ha. }
  destruct (forest _ _ _ H1 H2 H3 fuel (ask (sub o' 1) (elements (dom (D := gset string) m)))) as (ts & -> & Hm & HT).
  { intros q Hq. by apply P, K. }
  { intros q Hq. pose proof (deps_bound nx nr o pkgs pre cfg update le ip Hnx HR Ho Hc Hav Hp q (P q (proj1 (K q) Hq))). lia. }
  exists ts. split; [done|]. rewrite Hm. split; [apply oracle_nodup; [by apply sub_ok|apply NoDup_elements]|]. split; [done|].
  split; intros E q; rewrite K; [by destruct (M1 E q)|by destruct (M2 E q)].
Qed.
Print Assumptions C96_tree_partial.

Example C96_example :
  match ex_plan with
  | Some ip => length (planned_names ip) < 9 /\ inspect 9 id_oracle true false true ["app"] (ip_depdb ip) =
      ShownTree [DepTree "app" [DepTree "core" []; DepTree "lib1" [DepTree "core" []]; DepTree "lib2" [DepTree "core" []]]]
  | None => False
  end.
Proof. vm_compute. split; [lia|reflexivity]. Qed.

(** The tree for --reverse has nothing below core, which everything depends on. *)
Theorem C96_reverse_tree_refuted : exists nx nr o pkgs pre cfg update le ip fuel args q,
  nexus_ok nx /\ ~ available nx "R" /\ oracle_ok o /\ standard_config nr cfg /\
  (forall p, p ∈ pkgs -> available nx p) /\
  resolve_installation_reqs o pkgs pre cfg nx update le nr = PlanOk ip /\
  length (planned_names ip) < fuel /\
  planned ip q /\ needs nx nr q "core" /\
  inspect fuel o true true true args (ip_depdb ip) = ShownTree [DepTree "core" []].
Proof.
  destruct (resolve_installation_reqs id_oracle ["app"; "core"] ∅ ex_cfg ex_nx true true false) as [ip| | |] eqn:E;
    try (vm_compute in E; discriminate E).
  exists ex_nx, false, id_oracle, ["app"; "core"], ∅, ex_cfg, true, true, ip, 9, ["core"], "lib1".
  assert (oracle_ok id_oracle) as Ho by (intros p l; done).
  destruct C20_example as (A & B & C & D & _).
  destruct (C24_recorded_deps _ _ _ _ _ _ _ _ _ A B Ho C D E) as [_ K].
  assert (ip_depdb ip !! "lib1" = Some ["core"] /\ length (planned_names ip) < 9 /\
    inspect 9 id_oracle true true true ["core"] (ip_depdb ip) = ShownTree [DepTree "core" []]) as (E1 & E2 & E3).
  { revert E. clear. intros E.
    assert (ex_plan = Some ip) as E' by (unfold ex_plan; by rewrite E). clear E.
    assert (match ex_plan with Some ip => ip_depdb ip !! "lib1" = Some ["core"] /\ length (planned_names ip) < 9 /\
      inspect 9 id_oracle true true true ["core"] (ip_depdb ip) = ShownTree [DepTree "core" []] | None => False end) as H.
    { vm_compute. split; [reflexivity|]. split; [lia|reflexivity]. }
    by rewrite E' in H. }
  split; [done|]. split; [done|]. split; [done|]. split; [done|]. split; [done|]. split; [done|]. split; [done|].
  split; [right; eauto|]. split; [|done].
  destruct (K _ _ E1) as (_ & _ & M). destruct (tc_head _ "lib1" "core" (proj1 (M "core") ltac:(by left))) as [y Hy].
  assert (y ∈ ["core"]) as Hc by (by apply M, tc_once). apply elem_of_list_singleton in Hc as ->. done.
Qed.
Print Assumptions C96_reverse_tree_refuted.
