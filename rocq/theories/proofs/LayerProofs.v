From stdpp Require Import strings list gmap relations sorting.
From Coq Require Import Ascii ZArith Lia.
From Verif.model Require Import GoStr Version Desc Nexus Pacman Graph.
From Verif.spec Require Import RepoSpec GraphSpec.
From Verif.proofs Require Import RepoProofs GraphProofs.

Local Open Scope string_scope.

Notation depmap := (gmap string (gset string)) (only parsing).

Definition step_deps (nd : depmap) : depmap :=
  (fun deps => deps ∖ ready_set nd) <$> filter (fun kv => kv.1 ∉ ready_set nd) nd.

Lemma ready_set_spec nd p : p ∈ ready_set nd <-> nd !! p = Some ∅.
Proof.
  unfold ready_set. rewrite elem_of_dom. split.
  - intros [d H]. apply map_filter_lookup_Some in H as [H1 H2]. simpl in H2. by subst.
  - intros H. exists ∅. by apply map_filter_lookup_Some.
Qed.

Lemma step_deps_lookup nd p deps' :
  step_deps nd !! p = Some deps' <->
  exists deps, nd !! p = Some deps /\ deps <> ∅ /\ deps' = deps ∖ ready_set nd.
Proof.
  unfold step_deps. rewrite lookup_fmap_Some. split.
  - intros (deps & <- & H). apply map_filter_lookup_Some in H as [H1 H2]. simpl in H2.
    exists deps. split; [done|]. split; [|done]. intros ->. apply H2. by apply ready_set_spec.
  - intros (deps & H1 & H2 & ->). exists deps. split; [done|]. apply map_filter_lookup_Some.
    split; [done|]. simpl. rewrite ready_set_spec. rewrite H1. by intros [= ->].
Qed.

Lemma step_deps_dom nd : dom (D := gset string) (step_deps nd) = dom (D := gset string) nd ∖ ready_set nd.
Proof.
  apply set_eq. intros x. rewrite elem_of_difference, !elem_of_dom, ready_set_spec. split.
  - intros [d H]. apply step_deps_lookup in H as (deps & H1 & H2 & _). split; [by eexists|].
    rewrite H1. by intros [= ->].
  - intros [[deps H1] H2]. exists (deps ∖ ready_set nd). apply step_deps_lookup. exists deps.
    split; [done|]. split; [|done]. intros ->. done.
Qed.

Lemma ready_set_subset nd : ready_set nd ⊆ dom (D := gset string) nd.
Proof. intros x H. apply ready_set_spec in H. apply elem_of_dom. eauto. Qed.

Lemma step_deps_size nd : ready_set nd <> ∅ -> size (step_deps nd) < size nd.
Proof.
  intros H. rewrite <- !(size_dom (D := gset string)), step_deps_dom.
  apply subset_size. apply set_choose_L in H as [x Hx]. split; [set_solver|].
  intros Hs. pose proof (ready_set_subset nd x Hx) as Hd. specialize (Hs x Hd). set_solver.
Qed.

(** The layers found from [nd] on. *)
Inductive layered : depmap -> list (list string) -> Prop :=
| layered_nil : layered ∅ []
| layered_cons nd l ls : nd <> ∅ -> ready_set nd <> ∅ -> l ≡ₚ elements (ready_set nd) ->
    layered (step_deps nd) ls -> layered nd (l :: ls).

Inductive stuck : depmap -> Prop :=
| stuck_here nd : nd <> ∅ -> ready_set nd = ∅ -> stuck nd
| stuck_later nd : nd <> ∅ -> ready_set nd <> ∅ -> stuck (step_deps nd) -> stuck nd.

Lemma resolve_loop_spec fuel o i nd acc : oracle_ok o -> size nd <= fuel ->
  (exists ls, resolve_loop fuel o i nd acc = LayersOk (rev acc ++ ls) /\ layered nd ls) \/
  (resolve_loop fuel o i nd acc = LayersCircular /\ stuck nd).
Proof.
  intros Ho. revert i nd acc. induction fuel as [|fuel IH]; intros i nd acc Hs; cbn [resolve_loop].
  - assert (nd = ∅) as -> by (apply map_size_empty_inv; lia).
    rewrite bool_decide_eq_true_2 by done. left. exists []. rewrite app_nil_r. split; [done|constructor].
  - destruct (decide (nd = ∅)) as [->|Hne].
    { rewrite bool_decide_eq_true_2 by done. left. exists []. rewrite app_nil_r. split; [done|constructor]. }
    rewrite (bool_decide_eq_false_2 (nd = ∅)) by done. cbv zeta.
    destruct (decide (ready_set nd = ∅)) as [Er|Er].
    { rewrite (bool_decide_eq_true_2 (ready_set nd = ∅)) by done. right. split; [done|by constructor]. }
    rewrite (bool_decide_eq_false_2 (ready_set nd = ∅)) by done.
    change ((fun deps => deps ∖ ready_set nd) <$> filter (fun kv : string * gset string => kv.1 ∉ ready_set nd) nd)
      with (step_deps nd).
    pose proof (step_deps_size nd Er).
    destruct (IH (S i) (step_deps nd) (ask (sub o i) (elements (ready_set nd)) :: acc)) as [(ls & E & HL)|[E HS]].
    { lia. }
    + left. exists (ask (sub o i) (elements (ready_set nd)) :: ls). rewrite E. cbn [rev]. split.
      * by rewrite <- app_assoc.
      * constructor; try done. by apply ask_perm, sub_ok.
    + right. split; [done|]. by apply stuck_later.
Qed.

Lemma layered_stuck nd ls : layered nd ls -> stuck nd -> False.
Proof. induction 1; intros H'; inversion H'; subst; auto. Qed.

Lemma layered_det nd ls ls' : layered nd ls -> layered nd ls' -> Forall2 (≡ₚ) ls ls'.
Proof.
  intros H. revert ls'. induction H as [|nd l ls H1 H2 H3 H4 IH]; intros ls' H'; inversion H'; subst; try done.
  constructor.
  - by etrans; [|symmetry].
  - by apply IH.
Qed.

Lemma in_layer_0 l ls p : in_layer (l :: ls) 0 p <-> p ∈ l.
Proof. split; [intros (? & [= <-] & ?); done|]. intros. by exists l. Qed.

Lemma in_layer_S l ls k p : in_layer (l :: ls) (S k) p <-> in_layer ls k p.
Proof. done. Qed.

Lemma layered_concat nd ls : layered nd ls -> concat ls ≡ₚ elements (dom (D := gset string) nd).
Proof.
  induction 1 as [|nd l ls H1 H2 H3 H4 IH]; cbn [concat].
  - by rewrite dom_empty_L, elements_empty.
  - rewrite H3, IH, step_deps_dom. rewrite <- elements_disj_union by set_solver.
    f_equiv. apply set_equiv. intros x. rewrite elem_of_union, elem_of_difference.
    pose proof (ready_set_subset nd x). destruct (decide (x ∈ ready_set nd)); tauto.
Qed.

Lemma layered_deps nd ls : layered nd ls ->
  forall k p deps, in_layer ls k p -> nd !! p = Some deps ->
    (forall r, r ∈ deps -> exists j, j < k /\ in_layer ls j r) /\
    (k <> 0 -> exists r, r ∈ deps /\ in_layer ls (k - 1) r) /\
    (k = 0 -> deps = ∅).
Proof.
  induction 1 as [|nd l ls H1 H2 H3 H4 IH]; intros k p deps Hk Hp.
  - by rewrite lookup_empty in Hp.
  - destruct k as [|k].
    + apply in_layer_0 in Hk. rewrite H3, elem_of_elements, ready_set_spec, Hp in Hk.
      injection Hk as ->. split; [|split]; [|done|done]. intros r Hr. by apply elem_of_empty in Hr.
    + change (in_layer ls k p) in Hk.
      assert (p ∈ dom (D := gset string) (step_deps nd)) as Hd.
      { apply elem_of_elements. rewrite <- (layered_concat _ _ H4).
        destruct Hk as (l' & Hl' & Hpl). apply elem_of_list_In, in_concat. exists l'. split.
        - by apply elem_of_list_In, (elem_of_list_lookup_2 _ k).
        - by apply elem_of_list_In. }
      apply elem_of_dom in Hd as [deps' Hd]. pose proof Hd as Hd'.
      apply step_deps_lookup in Hd' as (deps0 & E0 & Hne & ->).
      rewrite Hp in E0. injection E0 as <-.
      destruct (IH k p _ Hk Hd) as (A & B & C). split; [|split; [|done]].
      * intros r Hr. destruct (decide (r ∈ ready_set nd)) as [Hrr|Hrr].
        -- exists 0. split; [lia|]. apply in_layer_0. by rewrite H3, elem_of_elements.
        -- destruct (A r) as (j & Hj & Hjr); [set_solver|]. exists (S j). split; [lia|]. done.
      * intros _. cbn [Nat.sub]. rewrite Nat.sub_0_r. destruct k as [|k].
        -- specialize (C eq_refl). apply set_choose_L in Hne as [r Hr]. exists r. split; [done|].
           apply in_layer_0. rewrite H3, elem_of_elements.
           destruct (decide (r ∈ ready_set nd)); [done|]. set_solver.
        -- destruct B as (r & Hr & Hrl); [done|]. exists r. split; [set_solver|].
           cbn [Nat.sub] in Hrl. rewrite Nat.sub_0_r in Hrl. done.
Qed.

(** ** Cycles *)
Definition dep_edge (nd : depmap) (p r : string) : Prop := exists deps, nd !! p = Some deps /\ r ∈ deps.
Definition dep_closed (nd : depmap) : Prop := forall p r, dep_edge nd p r -> is_Some (nd !! r).

Lemma layered_member nd ls p : layered nd ls -> is_Some (nd !! p) -> exists k, in_layer ls k p.
Proof.
  intros H Hp. assert (p ∈ concat ls) as Hin.
  { rewrite (layered_concat _ _ H), elem_of_elements. by apply elem_of_dom. }
  apply elem_of_list_In, in_concat in Hin as (l & Hl & Hpl).
  apply elem_of_list_In, elem_of_list_lookup in Hl as [k Hk]. exists k, l.
  split; [done|]. by apply elem_of_list_In.
Qed.

Lemma NoDup_app_lookup {A} (ls : list (list A)) j k l l' x :
  NoDup (concat ls) -> ls !! j = Some l -> ls !! k = Some l' -> x ∈ l -> x ∈ l' -> j = k.
Proof.
  revert j k. induction ls as [|l0 ls IH]; intros j k Hnd Hj Hk Hx Hx'; [done|].
  cbn [concat] in Hnd. apply NoDup_app in Hnd as (N1 & N2 & N3).
  assert (forall i l1, ls !! i = Some l1 -> forall y, y ∈ l1 -> y ∈ concat ls) as M.
  { intros i l1 Hi y Hy. apply elem_of_list_In, in_concat. exists l1.
    split; apply elem_of_list_In; [by eapply elem_of_list_lookup_2|done]. }
  destruct j as [|j], k as [|k]; simpl in Hj, Hk.
  - done.
  - injection Hj as ->. exfalso. eapply N2; [exact Hx|]. by eapply M.
  - injection Hk as ->. exfalso. eapply N2; [exact Hx'|]. by eapply M.
  - f_equal. by eapply IH.
Qed.

Lemma layered_nodup nd ls : layered nd ls -> NoDup (concat ls).
Proof. intros H. rewrite (layered_concat _ _ H). apply NoDup_elements. Qed.

Lemma in_layer_unique nd ls j k p : layered nd ls -> in_layer ls j p -> in_layer ls k p -> j = k.
Proof.
  intros H (l & Hl & Hp) (l' & Hl' & Hp'). eapply NoDup_app_lookup; eauto using layered_nodup.
Qed.

Lemma layered_acyclic nd ls : layered nd ls -> ~ has_cycle (dep_edge nd).
Proof.
  intros H [x Hx].
  assert (forall a b, tc (dep_edge nd) a b -> forall k, in_layer ls k a ->
     exists j, j < k /\ in_layer ls j b) as M.
  { induction 1 as [a b (deps & Hd & Hb)|a b c (deps & Hd & Hb) _ IH]; intros k Hk.
    - destruct (layered_deps _ _ H k a deps Hk Hd) as (A & _). by apply A.
    - destruct (layered_deps _ _ H k a deps Hk Hd) as (A & _). destruct (A b Hb) as (j & Hj & Hjb).
      destruct (IH j Hjb) as (i & Hi & Hic). exists i. split; [lia|done]. }
  assert (is_Some (nd !! x)) as Hs.
  { inversion Hx as [? ? (deps & Hd & _)|? ? ? (deps & Hd & _)]; subst; eauto. }
  destruct (layered_member _ _ _ H Hs) as [k Hk].
  destruct (M x x Hx k Hk) as (j & Hj & Hjx). pose proof (in_layer_unique _ _ _ _ _ H Hk Hjx). lia.
Qed.

Lemma dep_closed_step nd : dep_closed nd -> dep_closed (step_deps nd).
Proof.
  intros H p r (deps' & Hd & Hr). apply step_deps_lookup in Hd as (deps & Hd & Hne & ->).
  apply elem_of_difference in Hr as [Hr1 Hr2].
  destruct (H p r) as [dr Hdr]; [by exists deps|].
  exists (dr ∖ ready_set nd). apply step_deps_lookup. exists dr. split; [done|]. split; [|done].
  intros ->. apply Hr2. by apply ready_set_spec.
Qed.

Lemma dep_edge_step nd p r : dep_edge (step_deps nd) p r -> dep_edge nd p r.
Proof.
  intros (deps' & Hd & Hr). apply step_deps_lookup in Hd as (deps & Hd & Hne & ->).
  exists deps. split; [done|]. by apply elem_of_difference in Hr as [? _].
Qed.

Lemma tc_mono {A} (R S : A -> A -> Prop) x y : (forall a b, R a b -> S a b) -> tc R x y -> tc S x y.
Proof.
  intros H. induction 1; [by apply tc_once, H|]. eapply tc_l; [by apply H|done].
Qed.

(** A non-empty finite map in which every node has a dependency in the map has a cycle. *)
Lemma no_sink_cycle nd : nd <> ∅ -> dep_closed nd -> ready_set nd = ∅ -> has_cycle (dep_edge nd).
Proof.
  intros Hne Hcl Hr.
  assert (forall p, is_Some (nd !! p) -> exists r, dep_edge nd p r) as Hout.
  { intros p [deps Hp]. destruct (decide (deps = ∅)) as [->|Hd].
    - assert (p ∈ ready_set nd) as H by (by apply ready_set_spec). rewrite Hr in H. set_solver.
    - apply set_choose_L in Hd as [r Hd]. exists r, deps. done. }
  (* follow edges; after [size nd] steps some node repeats *)
  assert (forall n p, is_Some (nd !! p) -> exists path : list string, length path = n /\
     Forall (fun q => is_Some (nd !! q) /\ tc (dep_edge nd) p q) path /\
     (forall i j x y, i < j -> path !! i = Some x -> path !! j = Some y -> tc (dep_edge nd) x y)) as Hpath.
  { induction n as [|n IH]; intros p Hp.
    - exists []. split; [done|]. split; [constructor|]. intros i j x y _ Hx. by rewrite lookup_nil in Hx.
    - destruct (Hout p Hp) as [r Hpr]. pose proof (Hcl p r Hpr) as Hr'.
      destruct (IH r Hr') as (path & L & F & T). exists (r :: path). split; [simpl; lia|]. split.
      + constructor.
        * split; [done|]. by apply tc_once.
        * eapply Forall_impl; [exact F|]. intros q [H1 H2]. split; [done|]. by eapply tc_l.
      + intros [|i] [|j] x y Hij Hx Hy; simpl in *; try lia.
        * injection Hx as <-. rewrite Forall_forall in F. apply (F y).
          by eapply elem_of_list_lookup_2.
        * eapply (T i j); [lia|done|done]. }
  destruct (map_choose nd Hne) as (p & deps & Hp).
  destruct (Hpath (S (size nd)) p) as (path & L & F & T); [by exists deps|].
  assert (~ NoDup path) as Hnd.
  { intros Hnd. assert (length path <= size nd) as Hle; [|lia].
    rewrite <- (size_dom (D := gset string)), <- (size_list_to_set (C := gset string) path) by done.
    apply subseteq_size. intros x Hx. apply elem_of_list_to_set in Hx.
    rewrite Forall_forall in F. apply elem_of_dom. by apply F. }
  assert (exists i j x, i < j /\ path !! i = Some x /\ path !! j = Some x) as (i & j & x & Hij & Hi & Hj).
  { clear -Hnd. induction path as [|a l IH].
    - destruct Hnd. constructor.
    - destruct (decide (a ∈ l)) as [Hin|Hin].
      + apply elem_of_list_lookup in Hin as [j Hj]. exists 0, (S j), a. split; [lia|]. done.
      + destruct IH as (i & j & x & H1 & H2 & H3).
        * intros H. apply Hnd. by constructor.
        * exists (S i), (S j), x. split; [lia|]. done. }
  exists x. by apply (T i j).
Qed.

Lemma stuck_cycle nd : stuck nd -> dep_closed nd -> has_cycle (dep_edge nd).
Proof.
  induction 1 as [nd H1 H2|nd H1 H2 H3 IH]; intros Hcl.
  - by apply no_sink_cycle.
  - destruct (IH (dep_closed_step _ Hcl)) as [x Hx]. exists x.
    eapply tc_mono; [|exact Hx]. intros a b. apply dep_edge_step.
Qed.

(** ** [resolve_layers] *)
Lemma initial_deps_edge nr g p r : dep_edge (initial_deps nr g) p r <-> graph_dep nr g p r.
Proof.
  unfold dep_edge, graph_dep, initial_deps. split.
  - intros (deps & H & Hr). apply lookup_fmap_Some in H as (l & <- & Hl). exists l. split; [done|].
    apply elem_of_list_to_set in Hr. apply elem_of_list_In, filter_In in Hr as [H1 H2].
    split; [by apply elem_of_list_In|]. apply is_excluded_false. by destruct (is_excluded r nr).
  - intros (l & Hl & Hr & He). eexists. split.
    + rewrite lookup_fmap, Hl. reflexivity.
    + apply elem_of_list_to_set, elem_of_list_In, filter_In. split; [by apply elem_of_list_In|].
      apply is_excluded_false in He. by rewrite He.
Qed.

Lemma initial_deps_some nr g p : is_Some (initial_deps nr g !! p) <-> is_Some (g !! p).
Proof. unfold initial_deps. rewrite lookup_fmap, fmap_is_Some. done. Qed.

Lemma resolve_layers_cases o g nr : oracle_ok o ->
  (exists ls, resolve_layers o g nr = LayersOk ls /\ layered (initial_deps nr g) ls) \/
  (resolve_layers o g nr = LayersCircular /\ stuck (initial_deps nr g)).
Proof.
  intros Ho. unfold resolve_layers.
  destruct (resolve_loop_spec (size g) o 0 (initial_deps nr g) [] Ho) as [(ls & E & H)|[E H]].
  - unfold initial_deps. by rewrite map_size_fmap.
  - left. exists ls. done.
  - right. done.
Qed.

Lemma has_cycle_ext {A} (R S : A -> A -> Prop) : (forall a b, R a b <-> S a b) -> has_cycle R -> has_cycle S.
Proof. intros H [x Hx]. exists x. eapply tc_mono; [|exact Hx]. intros a b. apply H. Qed.

Lemma resolve_layers_ok o g nr ls : oracle_ok o -> resolve_layers o g nr = LayersOk ls ->
  layered (initial_deps nr g) ls.
Proof.
  intros Ho E. destruct (resolve_layers_cases o g nr Ho) as [(ls' & E' & H)|[E' _]]; congruence.
Qed.

Lemma resolve_layers_spec o g nr ls : oracle_ok o -> resolve_layers o g nr = LayersOk ls ->
  concat ls ≡ₚ elements (dom (D := gset string) g) /\
  Forall (fun l => l <> []) ls /\
  (forall p r k, in_layer ls k p -> graph_dep nr g p r -> exists j, j < k /\ in_layer ls j r) /\
  (forall p k, in_layer ls k p -> k <> 0 -> exists r, graph_dep nr g p r /\ in_layer ls (k - 1) r).
Proof.
  intros Ho E. apply resolve_layers_ok in E as H; [|done]. split; [|split; [|split]].
  - rewrite (layered_concat _ _ H). f_equiv. unfold initial_deps. by rewrite dom_fmap_L.
  - clear -H. induction H as [|nd l ls H1 H2 H3 H4 IH]; constructor; [|done].
    intros ->. apply H2. apply Permutation_nil in H3. by apply leibniz_equiv, elements_empty_inv.
  - intros p r k Hk (deps & Hd & Hr). 
    assert (is_Some (initial_deps nr g !! p)) as [ds Hds] by (apply initial_deps_some; eauto).
    destruct (layered_deps _ _ H k p ds Hk Hds) as (A & _). apply A.
    assert (dep_edge (initial_deps nr g) p r) as (ds' & Hds' & Hr').
    { apply initial_deps_edge. by exists deps. }
    congruence.
  - intros p k Hk Hne.
    assert (is_Some (initial_deps nr g !! p)) as [ds Hds].
    { assert (p ∈ concat ls) as Hin.
      { destruct Hk as (l & Hl & Hp). apply elem_of_list_In, in_concat. exists l.
        split; apply elem_of_list_In; [by eapply elem_of_list_lookup_2|done]. }
      rewrite (layered_concat _ _ H), elem_of_elements in Hin. by apply elem_of_dom. }
    destruct (layered_deps _ _ H k p ds Hk Hds) as (_ & B & _).
    destruct (B Hne) as (r & Hr & Hl). exists r. split; [|done]. apply initial_deps_edge. by exists ds.
Qed.

Lemma resolve_layers_cycle o g nr : oracle_ok o -> graph_closed nr g ->
  (resolve_layers o g nr = LayersCircular <-> has_cycle (graph_dep nr g)) /\
  resolve_layers o g nr <> LayersOutOfFuel.
Proof.
  intros Ho Hcl.
  assert (dep_closed (initial_deps nr g)) as Hdc.
  { intros p r H. apply initial_deps_some. apply (Hcl p). by apply initial_deps_edge. }
  destruct (resolve_layers_cases o g nr Ho) as [(ls & E & H)|[E H]]; rewrite E; split; try done.
  - split; [done|]. intros Hc. exfalso. apply (layered_acyclic _ _ H).
    eapply has_cycle_ext; [|exact Hc]. intros. symmetry. apply initial_deps_edge.
  - split; [|done]. intros _. eapply has_cycle_ext; [|by apply stuck_cycle].
    intros. apply initial_deps_edge.
Qed.

Lemma resolve_layers_ok_acyclic o g nr ls : oracle_ok o -> resolve_layers o g nr = LayersOk ls ->
  ~ has_cycle (graph_dep nr g).
Proof.
  intros Ho E. apply resolve_layers_ok in E; [|done]. intros Hc. apply (layered_acyclic _ _ E).
  eapply has_cycle_ext; [|exact Hc]. intros. symmetry. apply initial_deps_edge.
Qed.

Lemma initial_deps_ext nr g g' :
  (forall p, is_Some (g !! p) <-> is_Some (g' !! p)) ->
  (forall p r, graph_dep nr g p r <-> graph_dep nr g' p r) ->
  initial_deps nr g = initial_deps nr g'.
Proof.
  intros Hd He. apply map_eq. intros p.
  destruct (initial_deps nr g !! p) as [ds|] eqn:E1, (initial_deps nr g' !! p) as [ds'|] eqn:E2.
  - f_equal. apply set_eq. intros r. split; intros Hr.
    + assert (dep_edge (initial_deps nr g) p r) as H by (by exists ds).
      apply initial_deps_edge, He, initial_deps_edge in H as (x & Hx & Hr'). congruence.
    + assert (dep_edge (initial_deps nr g') p r) as H by (by exists ds').
      apply initial_deps_edge, He, initial_deps_edge in H as (x & Hx & Hr'). congruence.
  - exfalso. assert (is_Some (initial_deps nr g' !! p)) as [? ?]; [|congruence].
    apply initial_deps_some, Hd, (initial_deps_some nr). eauto.
  - exfalso. assert (is_Some (initial_deps nr g !! p)) as [? ?]; [|congruence].
    apply initial_deps_some, Hd, (initial_deps_some nr). eauto.
  - done.
Qed.

(** The same layers, as sets, whatever the iteration order. *)
Lemma resolve_layers_det o o' g g' nr : oracle_ok o -> oracle_ok o' ->
  (forall p, is_Some (g !! p) <-> is_Some (g' !! p)) ->
  (forall p r, graph_dep nr g p r <-> graph_dep nr g' p r) ->
  (resolve_layers o g nr = LayersCircular /\ resolve_layers o' g' nr = LayersCircular) \/
  (exists ls ls', resolve_layers o g nr = LayersOk ls /\ resolve_layers o' g' nr = LayersOk ls' /\
     Forall2 (≡ₚ) ls ls').
Proof.
  intros Ho Ho' Hd He. pose proof (initial_deps_ext nr g g' Hd He) as EI.
  destruct (resolve_layers_cases o g nr Ho) as [(ls & E & H)|[E H]],
           (resolve_layers_cases o' g' nr Ho') as [(ls' & E' & H')|[E' H']]; rewrite EI in H.
  - right. exists ls, ls'. split; [done|]. split; [done|]. by eapply layered_det.
  - by destruct (layered_stuck _ _ H H').
  - by destruct (layered_stuck _ _ H' H).
  - by left.
Qed.
