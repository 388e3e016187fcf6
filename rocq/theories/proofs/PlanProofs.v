From stdpp Require Import strings list gmap relations sorting.
From Coq Require Import Ascii ZArith Lia.
From Verif.model Require Import GoStr Version Desc Nexus Pacman Graph.
From Verif.spec Require Import RepoSpec GraphSpec.
From Verif.proofs Require Import RepoProofs GraphProofs LayerProofs.

Local Open Scope string_scope.

(** ** Lists *)
Lemma later_deps_filter p ls :
  (forall j l, ls !! j = Some l -> S j < length ls -> p ∉ l) ->
  later_deps p ls = List.filter (fun q => negb (String.eqb q p)) (concat ls).
Proof.
  assert (forall l, p ∉ l -> List.filter (fun q => negb (String.eqb q p)) l = l) as N.
  { induction l as [|x l IH]; intros H; [done|]. cbn [List.filter].
    destruct (String.eqb_spec x p) as [->|]; [destruct H; by left|]. cbn [negb]. f_equal.
    apply IH. intros ?. apply H. by right. }
  induction ls as [|l ls IH]; intros H; [done|]. destruct ls as [|l' ls].
  - cbn [later_deps concat]. by rewrite app_nil_r.
  - change (later_deps p (l :: l' :: ls)) with (l ++ later_deps p (l' :: ls))%list.
    change (concat (l :: l' :: ls)) with (l ++ concat (l' :: ls))%list.
    rewrite List.filter_app, IH.
    + f_equal. symmetry. apply N. apply (H 0); [done|simpl; lia].
    + intros j x Hx Hj. apply (H (S j)); [done|]. simpl in *. lia.
Qed.

Lemma filter_ne_elem (p q : string) l :
  q ∈ List.filter (fun x => negb (String.eqb x p)) l <-> q ∈ l /\ q <> p.
Proof.
  rewrite elem_of_list_In, filter_In, <- elem_of_list_In. rewrite negb_true_iff, String.eqb_neq. done.
Qed.

Lemma filter_bool_nodup {A} (f : A -> bool) (l : list A) : NoDup l -> NoDup (List.filter f l).
Proof.
  induction 1 as [|x l Hx Hl IH]; cbn [List.filter]; [constructor|].
  destruct (f x); [|done]. constructor; [|done]. intros H. apply Hx.
  apply elem_of_list_In, filter_In in H as [H _]. by apply elem_of_list_In.
Qed.

Lemma rtc_split {A} (R : A -> A -> Prop) x y : rtc R x y -> x = y \/ tc R x y.
Proof. induction 1 as [|x y z Hxy Hyz IH]; [by left|]. right. destruct IH as [->|IH]; [by apply tc_once|]. by eapply tc_l. Qed.

Section plan.
  Context (nx : nexus) (nr : bool).
  Context (Hnx : nexus_ok nx) (HR : ~ available nx "R").

  Lemma force_standard cfg : standard_config nr cfg -> force_no_recommended nr cfg = cfg.
  Proof.
    intros H. destruct cfg as [deps def]. unfold force_no_recommended. cbn [id_deps id_default]. f_equal.
    apply map_eq. intros p. rewrite lookup_fmap. destruct (deps !! p) as [pd|] eqn:E; [|done]. cbn. f_equal.
    specialize (H p). unfold settings_for in H. cbn [id_deps] in H. rewrite E in H. cbn in H.
    destruct H as (_ & _ & _ & H). destruct pd; simpl in *. by subst.
  Qed.

  Lemma default_config_standard : standard_config nr (default_config nr).
  Proof. intros p. unfold settings_for, default_config. cbn [id_deps]. rewrite lookup_empty. done. Qed.

  Lemma requires_needs cfg p r : standard_config nr cfg -> requires cfg nx p r <-> needs nx nr p r.
  Proof.
    intros H. unfold needs, requires, lists. change (usual_config nr) with (default_config nr).
    destruct (H p) as (-> & -> & -> & ->). destruct (default_config_standard p) as (-> & -> & -> & ->). done.
  Qed.

  Lemma available_not_r r : available nx r -> r <> "R".
  Proof. intros H ->. done. Qed.

  Lemma pulls_needs cfg p r : standard_config nr cfg -> needs nx nr p r -> pulls cfg nx p r.
  Proof.
    intros H Hn. apply requires_needs with cfg _ _ in Hn; [|done]. split; [by left|].
    destruct Hn as (_ & _ & _ & Ha & _). by apply available_not_r.
  Qed.

  Lemma default_pulls p r : pulls (default_config nr) nx p r <-> needs nx nr p r.
  Proof.
    split.
    - intros [[H|H] _]; [done|]. destruct H as (d & _ & H & _).
      unfold settings_for, default_config in H. cbn [id_deps] in H. by rewrite lookup_empty in H.
    - apply pulls_needs, default_config_standard.
  Qed.

  Lemma default_closure p q : closure (default_config nr) nx [p] q <-> rtc (needs nx nr) p q.
  Proof.
    unfold closure. split.
    - intros (x & Hx & H). apply elem_of_list_singleton in Hx as ->.
      eapply rtc_subrel; [|exact H]. intros a b. apply default_pulls.
    - intros H. exists p. split; [by apply elem_of_list_singleton|].
      eapply rtc_subrel; [|exact H]. intros a b. apply default_pulls.
  Qed.

  (** The graph of a request, seen by [ResolveLayers]. *)
  Definition needed_in cfg pkgs (p r : string) : Prop := closure cfg nx pkgs p /\ needs nx nr p r.

  Lemma closure_needs cfg pkgs p r : standard_config nr cfg -> needed_in cfg pkgs p r -> closure cfg nx pkgs r.
  Proof.
    intros Hc [(x & Hx & Hr) Hn]. exists x. split; [done|]. eapply rtc_r; [exact Hr|]. by apply pulls_needs.
  Qed.

  Lemma request_layers cfg o pkgs : oracle_ok o -> standard_config nr cfg ->
    (forall p, p ∈ pkgs -> available nx p) ->
    exists g, request_graph (graph_fuel nx) cfg nx o 0 pkgs ∅ = Some g /\
      (forall q, is_Some (g !! q) <-> closure cfg nx pkgs q) /\
      (forall p r, graph_dep nr g p r <-> needed_in cfg pkgs p r) /\ graph_closed nr g.
  Proof.
    intros Ho Hc Hav. destruct (request_graph_spec cfg nx Hnx o pkgs Ho Hav) as (g & E & Hd & Hr).
    exists g. split; [done|]. split; [done|].
    assert (forall p r, graph_dep nr g p r <-> needed_in cfg pkgs p r) as HE.
    { intros p r. unfold graph_dep, needed_in. split.
      - intros (deps & Hp & Hin & _). split; [apply Hd; eauto|].
        apply requires_needs with cfg; [done|]. by eapply Hr.
      - intros [Hcl Hn]. apply Hd in Hcl as [deps Hp]. exists deps. split; [done|]. split.
        + eapply Hr; [exact Hp|]. by apply requires_needs.
        + destruct Hn as (d & _ & _ & _ & Hx). by destruct (default_config_standard p) as (_ & _ & _ & <-). }
    split; [done|]. intros p r H. apply HE in H. apply Hd. by eapply closure_needs.
  Qed.

  (** ** The recorded dependencies of one package *)
  Lemma record_one o1 o2 p : oracle_ok o1 -> oracle_ok o2 -> available nx p ->
    (exists r, needs nx nr p r) -> ~ has_cycle (fun a b => rtc (needs nx nr) p a /\ needs nx nr a b) ->
    exists g layers deps,
      append_to_graph (graph_fuel nx) (default_config nr) nx o1 ∅ (get_package_go nx p).1.1 = Some g /\
      resolve_layers o2 g nr = LayersOk layers /\ all_deps p layers = Some deps /\
      NoDup deps /\ (forall r, r ∈ deps <-> tc (needs nx nr) p r).
  Proof.
    intros Ho1 Ho2 Hav [r0 Hr0] Hac.
    set (o := (fun l => match l with [] => o1 [] | _ :: l' => o1 l' end) : oracle).
    assert (oracle_ok o) as Ho by (intros [|x l] k; apply Ho1).
    destruct (request_layers (default_config nr) o [p] Ho default_config_standard) as (g & E & Hd & HE & Hcl).
    { intros q Hq. apply elem_of_list_singleton in Hq as ->. done. }
    cbn [request_graph] in E. change (sub o 0) with o1 in E.
    destruct (append_to_graph _ _ _ o1 ∅ _) as [g'|] eqn:Ea; [|done]. injection E as ->.
    setoid_rewrite default_closure in Hd.
    assert (forall a b, graph_dep nr g a b <-> rtc (needs nx nr) p a /\ needs nx nr a b) as HE'.
    { intros a b. rewrite HE. unfold needed_in. by rewrite default_closure. }
    destruct (resolve_layers_cases o2 g nr Ho2) as [(ls & El & HL)|[El HS]].
    2:{ exfalso. apply Hac. eapply has_cycle_ext; [exact HE'|].
        by apply (resolve_layers_cycle o2 g nr Ho2 Hcl). }
    exists g, ls. 
    destruct (resolve_layers_spec o2 g nr ls Ho2 El) as (Hcc & Hne & Hdeps & _).
    assert (forall q, q ∈ concat ls <-> rtc (needs nx nr) p q) as Hmem.
    { intros q. rewrite Hcc, elem_of_elements, elem_of_dom. apply Hd. }
    pose proof (layered_nodup _ _ HL) as Hnd.
    destruct (layered_member _ _ p HL) as [k Hk].
    { apply initial_deps_some, Hd. done. }
    assert (forall a b, rtc (needs nx nr) p a -> tc (needs nx nr) a b -> forall i, in_layer ls i a ->
       exists j, j < i /\ in_layer ls j b) as Hdown.
    { intros a b Ha Hab. induction Hab as [a b Hab|a b c Hab _ IH]; intros i Hi.
      - apply (Hdeps a b i Hi). apply HE'. done.
      - destruct (Hdeps a b i Hi) as (j & Hj & Hjb); [by apply HE'|].
        destruct (IH (rtc_r _ _ _ Ha Hab) j Hjb) as (i' & Hi' & Hc). exists i'. split; [lia|done]. }
    assert (forall i q, in_layer ls i q -> q = p \/ i < k) as Hlow.
    { intros i q Hi. assert (rtc (needs nx nr) p q) as Hq.
      { apply Hmem. destruct Hi as (l & Hl & Hq). apply elem_of_list_In, in_concat. exists l.
        split; apply elem_of_list_In; [by eapply elem_of_list_lookup_2|done]. }
      apply rtc_split in Hq as [->|Hq]; [by left|]. right.
      destruct (Hdown p q ltac:(done) Hq k Hk) as (j & Hj & Hjq).
      pose proof (in_layer_unique _ _ _ _ _ HL Hi Hjq). lia. }
    assert (length ls = S k) as Hlen.
    { destruct Hk as (l & Hl & Hp). apply lookup_lt_Some in Hl as Hlt.
      destruct (decide (length ls = S k)) as [|N]; [done|]. exfalso.
      destruct (lookup_lt_is_Some_2 ls (S k)) as [l' Hl']; [lia|].
      assert (l' <> []) as Hl'ne.
      { rewrite Forall_forall in Hne. apply Hne. by eapply elem_of_list_lookup_2. }
      destruct l' as [|q l']; [done|].
      assert (in_layer ls (S k) q) as Hq by (exists (q :: l'); split; [done|by left]).
      destruct (Hlow _ _ Hq) as [->|]; [|lia].
      pose proof (in_layer_unique _ _ k (S k) p HL ltac:(by exists l) Hq). lia. }
    destruct (Hdeps p r0 k Hk) as (j0 & Hj0 & _); [by apply HE'|].
    destruct ls as [|first rest]; [simpl in Hlen; lia|].
    assert (all_deps p (first :: rest) =
      Some (List.filter (fun q => negb (String.eqb q p)) (concat (first :: rest)))) as Eall.
    { cbn [all_deps concat]. rewrite List.filter_app. f_equal. f_equal.
      - pose proof (later_deps_filter p [first; []]) as H. cbn [later_deps concat List.filter] in H.
        rewrite !app_nil_r in H. apply H. intros [|[|j]] l Hl Hj; simpl in *; try lia.
        injection Hl as <-. intros Hp.
        assert (in_layer (first :: rest) 0 p) as H0 by (by exists first).
        pose proof (in_layer_unique _ _ _ _ _ HL Hk H0). lia.
      - apply later_deps_filter. intros j l Hl Hj Hp.
        assert (in_layer (first :: rest) (S j) p) as H0 by (by exists l).
        pose proof (in_layer_unique _ _ _ _ _ HL Hk H0). simpl in Hlen. lia. }
    eexists. split; [done|]. split; [done|]. split; [exact Eall|]. split.
    - by apply filter_bool_nodup.
    - intros r. rewrite filter_ne_elem, Hmem. split.
      + intros [H1 H2]. apply rtc_split in H1 as [->|]; done.
      + intros H. split; [by apply tc_rtc|]. intros ->. apply Hac. exists p. clear -H.
        (* a cycle through [p] stays in the closure of [p] *)
        assert (forall a b, tc (needs nx nr) a b -> rtc (needs nx nr) p a ->
          tc (fun a b => rtc (needs nx nr) p a /\ needs nx nr a b) a b) as M; [|by apply M].
        induction 1 as [a b Hab|a b c Hab _ IH]; intros Ha; [by apply tc_once|].
        eapply tc_l; [by split|]. apply IH. by eapply rtc_r.
  Qed.

  Lemma record_deps_ok o i l db : oracle_ok o ->
    (forall p, p ∈ l -> available nx p /\ (exists r, needs nx nr p r) /\
       ~ has_cycle (fun a b => rtc (needs nx nr) p a /\ needs nx nr a b)) ->
    exists db', record_deps (graph_fuel nx) nx o nr i l db = DepsOk db' /\
      (forall q, q ∉ l -> db' !! q = db !! q) /\
      (forall q, q ∈ l -> exists deps, db' !! q = Some deps /\ NoDup deps /\
         forall r, r ∈ deps <-> tc (needs nx nr) q r).
  Proof.
    intros Ho. revert i db. induction l as [|p l IH]; intros i db H; cbn [record_deps].
    - exists db. split; [done|]. split; [done|]. intros q Hq. by apply elem_of_nil in Hq.
    - destruct (H p) as (Hav & Hn & Hc); [by left|].
      destruct (record_one (sub (sub o i) 0) (sub (sub o i) 1) p) as (g & ls & deps & -> & -> & -> & Hnd & Hm);
        [by repeat apply sub_ok|by repeat apply sub_ok|done|done|done|].
      destruct (IH (S i) (<[p := deps]> db)) as (db' & E & H1 & H2).
      { intros q Hq. apply H. by right. }
      exists db'. split; [done|]. split.
      + intros q Hq. rewrite H1 by (intros ?; apply Hq; by right).
        apply lookup_insert_ne. intros ->. apply Hq. by left.
      + intros q Hq. destruct (decide (q ∈ l)) as [|Hql]; [by apply H2|].
        apply elem_of_cons in Hq as [->|]; [|done]. exists deps. split; [|done].
        rewrite H1 by done. by rewrite lookup_insert.
  Qed.

  (** ** The whole plan *)
  Definition plan_layers cfg pkgs (ls : list (list string)) : Prop :=
    NoDup (concat ls) /\ Forall (fun l => l <> []) ls /\
    (forall q, q ∈ concat ls <-> closure cfg nx pkgs q) /\
    (forall q, in_layer ls 0 q <-> closure cfg nx pkgs q /\ forall r, ~ needs nx nr q r).

  Definition plan_depdb (ls : list (list string)) (db : gmap string (list string)) : Prop :=
    (forall q, is_Some (db !! q) <-> q ∈ concat (tail ls)) /\
    (forall q deps, db !! q = Some deps -> NoDup deps /\ forall r, r ∈ deps <-> tc (needs nx nr) q r).

  Lemma plan_cases o pkgs pre cfg update le : oracle_ok o -> standard_config nr cfg ->
    (forall p, p ∈ pkgs -> available nx p) ->
    (has_cycle (needed_in cfg pkgs) /\
     resolve_installation_reqs o pkgs pre cfg nx update le nr = PlanError) \/
    (~ has_cycle (needed_in cfg pkgs) /\ exists ls db,
       plan_layers cfg pkgs ls /\ plan_depdb ls db /\
       let names := ask (sub o 3) (elements (dom (D := gset string) pre)) in
       resolve_installation_reqs o pkgs pre cfg nx update le nr =
       match get_outdated pre (ap_packages (get_packages nx names)) with
       | None => PlanPanic
       | Some outdated =>
           match ls with
           | [] => PlanPanic
           | starting :: _ =>
               PlanOk (InstallPlan starting db
                 (pack nx starting (ask (sub o 4) (elements (dom (D := gset string) db))))
                 outdated pre (negb le) update)
           end
       end).
  Proof.
    intros Ho Hc Hav. unfold resolve_installation_reqs. cbv zeta. rewrite force_standard by done.
    destruct (request_layers cfg (sub o 0) pkgs (sub_ok o 0 Ho) Hc Hav) as (g & -> & Hd & HE & Hcl).
    destruct (resolve_layers_cases (sub o 1) g nr (sub_ok o 1 Ho)) as [(ls & El & HL)|[El HS]].
    2:{ left. rewrite El. split; [|done]. eapply has_cycle_ext; [exact HE|].
        by apply (resolve_layers_cycle (sub o 1) g nr (sub_ok o 1 Ho) Hcl). }
    right. rewrite El.
    assert (~ has_cycle (needed_in cfg pkgs)) as Hac.
    { intros H. apply (resolve_layers_ok_acyclic _ _ _ _ (sub_ok o 1 Ho) El).
      eapply has_cycle_ext; [|exact H]. intros. symmetry. apply HE. }
    split; [done|].
    destruct (resolve_layers_spec _ g nr ls (sub_ok o 1 Ho) El) as (Hcc & Hne & Hdeps & Hprev).
    pose proof (layered_nodup _ _ HL) as Hnd.
    assert (forall q, q ∈ concat ls <-> closure cfg nx pkgs q) as Hmem.
    { intros q. rewrite Hcc, elem_of_elements, elem_of_dom. apply Hd. }
    assert (forall i q, in_layer ls i q -> q ∈ concat ls) as Hin.
    { intros i q (l & Hl & Hq). apply elem_of_list_In, in_concat. exists l.
      split; apply elem_of_list_In; [by eapply elem_of_list_lookup_2|done]. }
    assert (plan_layers cfg pkgs ls) as HPL.
    { split; [done|]. split; [done|]. split; [done|]. intros q. split.
      - intros H0. split; [by apply Hmem, (Hin 0)|]. intros r Hr.
        destruct (Hdeps q r 0 H0) as (j & Hj & _); [|lia]. apply HE. split; [|done]. by apply Hmem, (Hin 0).
      - intros [H1 H2]. apply Hmem in H1. apply elem_of_list_In, in_concat in H1 as (l & Hl & Hq).
        apply elem_of_list_In, elem_of_list_lookup in Hl as [k Hk]. apply elem_of_list_In in Hq.
        assert (in_layer ls k q) as Hkq by (by exists l).
        destruct (decide (k = 0)) as [->|Hk0]; [done|].
        destruct (Hprev q k Hkq Hk0) as (r & Hr & _). apply HE in Hr as [_ Hr]. by destruct (H2 r). }
    assert (forall q, q ∈ concat (tail ls) -> exists k, k <> 0 /\ in_layer ls k q) as Htail.
    { intros q Hq. destruct ls as [|l0 ls]; [by apply elem_of_nil in Hq|]. cbn [tail] in Hq.
      apply elem_of_list_In, in_concat in Hq as (l & Hl & Hq).
      apply elem_of_list_In, elem_of_list_lookup in Hl as [k Hk]. apply elem_of_list_In in Hq.
      exists (S k). split; [done|]. by exists l. }
    assert (forall q, closure cfg nx pkgs q -> available nx q) as Hclav.
    { intros q (p & Hp & Hr). apply rtc_inv_r in Hr as [->|(x & _ & [[H|H] _])]; [by apply Hav| |].
      - by destruct H as (? & _ & _ & ? & _).
      - by destruct H as (? & _ & _ & _ & ?). }
    destruct (record_deps_ok (sub o 2) 0 (concat (tail ls)) ∅ (sub_ok o 2 Ho)) as (db & Edb & Hdb1 & Hdb2).
    { intros p Hp. destruct (Htail p Hp) as (k & Hk & Hkp).
      assert (closure cfg nx pkgs p) as Hclp by (by apply Hmem, (Hin k)).
      split; [by apply Hclav|]. split.
      - destruct (Hprev p k Hkp Hk) as (r & Hr & _). apply HE in Hr as [_ Hr]. by exists r.
      - intros [x Hx]. apply Hac. exists x. eapply tc_mono; [|exact Hx]. intros a b [Ha Hb].
        split; [|done]. clear -Hclp Ha Hc HR. induction Ha as [|a b c Hab _ IH]; [done|].
        apply IH. by eapply closure_needs. }
    exists ls, db. split; [done|]. split.
    - split.
      + intros q. destruct (decide (q ∈ concat (tail ls))) as [Hq|Hq].
        * destruct (Hdb2 q Hq) as (deps & Hq' & _). split; [done|]. intros _. eauto.
        * rewrite Hdb1, lookup_empty by done. split; [intros [? ?]; done|done].
      + intros q deps Hq. destruct (decide (q ∈ concat (tail ls))) as [Hq'|Hq'].
        * destruct (Hdb2 q Hq') as (deps' & E' & H'). rewrite Hq in E'. by injection E' as ->.
        * rewrite Hdb1, lookup_empty in Hq by done. done.
    - rewrite Edb. destruct (get_outdated _ _); [|done]. by destruct ls.
  Qed.
End plan.
