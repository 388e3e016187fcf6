From stdpp Require Import strings list gmap relations sorting.
From Coq Require Import Ascii ZArith Lia.
From Verif.model Require Import GoStr Version Desc Nexus Pacman Graph.
From Verif.spec Require Import RepoSpec GraphSpec.
From Verif.proofs Require Import GoStrLemmas VersionProofs RepoProofs FetchProofs.

Local Open Scope string_scope.

(** ** Oracles *)
Lemma sub_ok o i : oracle_ok o -> oracle_ok (sub o i).
Proof. intros H p l. apply H. Qed.

Lemma ask_perm o l : oracle_ok o -> ask o l ≡ₚ l.
Proof. intros H. apply H. Qed.

(** ** Exclusion *)
Lemma existsb_elem (p : string) l : existsb (String.eqb p) l = true <-> p ∈ l.
Proof.
  rewrite existsb_exists. setoid_rewrite String.eqb_eq. rewrite elem_of_list_In. firstorder congruence.
Qed.

Lemma base_spec p : p ∈ base_packages <-> p ∈ r_base.
Proof.
  split; intros H; [unfold base_packages in H|unfold r_base in H];
    repeat (apply elem_of_cons in H as [->|H]; [apply existsb_elem; reflexivity|]);
    by apply elem_of_nil in H.
Qed.

Lemma recommended_spec p : p ∈ recommended_packages <-> p ∈ r_recommended.
Proof.
  split; intros H; [unfold recommended_packages in H|unfold r_recommended in H];
    repeat (apply elem_of_cons in H as [->|H]; [apply existsb_elem; reflexivity|]);
    by apply elem_of_nil in H.
Qed.

Lemma settings_config cfg p : settings_for cfg p = config_for cfg p.
Proof. unfold settings_for, config_for. by destruct (id_deps cfg !! p). Qed.

Lemma is_excluded_spec p nr : is_excluded p nr = true <-> comes_with_r nr p.
Proof.
  unfold is_excluded, default_packages, comes_with_r. rewrite <- base_spec, <- recommended_spec.
  destruct (existsb (String.eqb p) base_packages) eqn:B.
  - apply existsb_elem in B. split; auto.
  - destruct (existsb (String.eqb p) recommended_packages) eqn:R.
    + apply existsb_elem in R. destruct nr; simpl; split; auto; try done.
      intros [H|[H _]]; [|done]. apply existsb_elem in H. congruence.
    + split; [done|]. intros [H|[_ H]]; apply existsb_elem in H; congruence.
Qed.

Lemma is_excluded_false p nr : is_excluded p nr = false <-> ~ comes_with_r nr p.
Proof. rewrite <- is_excluded_spec. by destruct (is_excluded p nr). Qed.

Section graph.
  Context (cfg : install_deps) (nx : nexus).
  Context (Hnx : nexus_ok nx).

  Lemma offered_name p d : offered nx p d -> d_package d = p.
  Proof.
    intros [c H]. apply get_package_spec in H as (l1 & db & l2 & E & (_ & _ & Hl) & _).
    eapply Hnx; [|exact Hl]. rewrite E. apply elem_of_app. right. by left.
  Qed.

  Lemma offered_fun p d d' : offered nx p d -> offered nx p d' -> d = d'.
  Proof. intros [c H] [c' H']. congruence. Qed.

  Lemma available_dec p : available nx p \/ get_package nx p = None.
  Proof. destruct (get_package nx p) as [[d c]|] eqn:E; [left; exists d, c; done|by right]. Qed.

  Lemma usable_spec nr r : usable nx nr r = true <-> available nx r /\ ~ comes_with_r nr r.
  Proof.
    unfold usable. destruct (get_package nx r) as [[d c]|] eqn:E.
    - rewrite negb_true_iff, is_excluded_false. split; [|tauto]. intros H. split; [|done]. by exists d, c.
    - split; [done|]. intros [[d [c H]] _]. congruence.
  Qed.

  Lemma field_reqs_spec o pd en deps r : oracle_ok o ->
    r ∈ field_reqs o nx pd en deps <->
    en = true /\ is_Some (deps !! r) /\ available nx r /\ ~ comes_with_r (pd_no_recommended pd) r.
  Proof.
    intros Ho. unfold field_reqs. destruct en; [|split; [intros H; by apply elem_of_nil in H|intros [? _]; done]].
    rewrite elem_of_list_In, filter_In, <- elem_of_list_In.
    rewrite (ask_perm o) by done. rewrite elem_of_elements, elem_of_dom, usable_spec. tauto.
  Qed.

  Lemma node_reqs_spec o p d r : oracle_ok o -> offered nx p d ->
    r ∈ node_reqs o nx (config_for cfg p) d <-> requires cfg nx p r.
  Proof.
    intros Ho Hd. unfold node_reqs. rewrite !elem_of_app.
    rewrite !field_reqs_spec by (by apply sub_ok). unfold requires, lists. split.
    - intros H. exists d. split; [done|]. tauto.
    - intros (d' & Hd' & H). rewrite (offered_fun p d d' Hd Hd'). tauto.
  Qed.

  (** ** Depth-first construction *)
  Definition good (m : graph) : Prop :=
    forall p deps, m !! p = Some deps -> forall r, r ∈ deps <-> requires cfg nx p r.

  (** All that is pulled by [q] is in [m]. *)
  Definition closed_at (m : graph) (q : string) : Prop :=
    forall r, pulls cfg nx q r -> is_Some (m !! r).

  (** Extending [m] to [m'] by packages reachable from [P]. *)
  Definition extends (P : string -> Prop) (m m' : graph) : Prop :=
    (forall q, is_Some (m !! q) -> is_Some (m' !! q)) /\
    (forall q, is_Some (m' !! q) -> is_Some (m !! q) \/ (exists p, P p /\ rtc (pulls cfg nx) p q)) /\
    (forall q, is_Some (m' !! q) -> is_Some (m !! q) \/ closed_at m' q).

  Definition todo (m : graph) : gset string := available_names nx ∖ dom (D := gset string) m.

  Lemma available_in_names p : available nx p -> p ∈ available_names nx.
  Proof.
    intros [d [c H]]. apply get_package_spec in H as (l1 & db & l2 & E & (_ & _ & Hl) & _).
    unfold available_names. rewrite elem_of_union_list.
    exists (⋃ map (λ tm : source_type * gmap string desc, dom (D := gset string) tm.2) (db_types db)).
    split.
    - apply elem_of_list_fmap. exists db. split; [done|]. rewrite E. apply elem_of_app. right. by left.
    - apply elem_of_union_list. apply descs_record in Hl. revert Hl. induction (db_types db) as [|[t m] l IH]; cbn [descs_of].
      + by rewrite lookup_empty.
      + intros Hl. case_decide.
        * exists (dom (D := gset string) m). split; [by left|]. apply elem_of_dom. by exists d.
        * destruct (IH Hl) as (X & HX & HX2). exists X. split; [by right|done].
  Qed.

  Lemma extends_refl P m : extends P m m.
  Proof. split; [done|]. split; auto. Qed.

  Lemma extends_trans P m m' m'' : extends P m m' -> extends P m' m'' -> extends P m m''.
  Proof.
    intros (A1 & B1 & C1) (A2 & B2 & C2). split; [auto|]. split.
    - intros q Hq. destruct (B2 q Hq) as [H|H]; [|by right]. destruct (B1 q H); auto.
    - intros q Hq. destruct (C2 q Hq) as [H|H]; [|by right]. destruct (C1 q H) as [|H']; [by left|].
      right. intros r Hr. by apply A2, H'.
  Qed.

  Lemma extends_mono (P Q : string -> Prop) m m' :
    (forall p, P p -> exists p', Q p' /\ rtc (pulls cfg nx) p' p) -> extends P m m' -> extends Q m m'.
  Proof.
    intros H (A & B & C). split; [done|]. split; [|done]. intros q Hq.
    destruct (B q Hq) as [|(p & Hp & Hr)]; [by left|]. right. destruct (H p Hp) as (p' & Hp' & Hr').
    exists p'. split; [done|]. by etrans.
  Qed.

  Lemma size_todo_mono P m m' : extends P m m' -> size (todo m') <= size (todo m).
  Proof.
    intros (A & _). apply subseteq_size. unfold todo. intros x. rewrite !elem_of_difference, !elem_of_dom.
    intros [H1 H2]. split; [done|]. intros H. apply H2, A, H.
  Qed.

  (** What a call for the description [d] of [p] does. *)
  Definition call_ok (rec : oracle -> graph -> desc -> option graph) (fuel : nat) : Prop :=
    forall o m p d, oracle_ok o -> good m -> offered nx p d ->
      size (todo (<[p := []]> m)) < fuel ->
      exists m', rec o m d = Some m' /\ good m' /\ is_Some (m' !! p) /\ closed_at m' p /\
        extends (fun x => x = p) m m'.

  Lemma visit_ok rec fuel o i l m : call_ok rec fuel -> oracle_ok o -> good m ->
    size (todo m) <= fuel ->
    exists m', visit rec o nx i l m = Some m' /\ good m' /\
      extends (fun x => x ∈ l /\ x <> "R" /\ available nx x) m m' /\
      (forall r, r ∈ l -> r <> "R" -> available nx r -> is_Some (m' !! r)).
  Proof.
    intros Hrec Ho. revert i m. induction l as [|r l IH]; intros i m Hm Hf; cbn [visit].
    - exists m. split; [done|]. split; [done|]. split; [apply extends_refl|].
      intros r Hr. by apply elem_of_nil in Hr.
    - assert (forall m0, good m0 -> extends (fun x => x ∈ r :: l /\ x <> "R" /\ available nx x) m m0 ->
        (r <> "R" -> available nx r -> is_Some (m0 !! r)) ->
        exists m', visit rec o nx (S i) l m0 = Some m' /\ good m' /\
          extends (fun x => x ∈ r :: l /\ x <> "R" /\ available nx x) m m' /\
          (forall r', r' ∈ r :: l -> r' <> "R" -> available nx r' -> is_Some (m' !! r'))) as Cont.
      { intros m0 Hm0 He Hr. destruct (IH (S i) m0 Hm0) as (m' & E & Hg & Hx & Hall).
        { pose proof (size_todo_mono _ _ _ He). lia. }
        exists m'. split; [done|]. split; [done|]. split.
        - eapply extends_trans; [exact He|]. eapply extends_mono; [|exact Hx].
          intros p (H1 & H2 & H3). exists p. split; [|done]. split; [by right|done].
        - intros r' H1 H2 H3. apply elem_of_cons in H1 as [->|H1].
          + apply Hx. by apply Hr.
          + by apply Hall. }
      destruct (String.eqb_spec r "R") as [ER|ER]; cbn [negb andb].
      { apply Cont; [done|apply extends_refl|done]. }
      destruct (decide (is_Some (m !! r))) as [Hin|Hin].
      { rewrite (bool_decide_eq_true_2 _ Hin). cbn [negb]. apply Cont; [done|apply extends_refl|done]. }
      rewrite (bool_decide_eq_false_2 _ Hin). cbn [negb].
      destruct (get_package nx r) as [[d c]|] eqn:E.
      + assert (offered nx r d) as Hof by (by exists c).
        assert (available nx r) as Hav by (by exists d).
        destruct (Hrec (sub o i) m r d (sub_ok o i Ho) Hm Hof) as (m' & -> & Hg & Hp & Hc & Hx).
        { eapply Nat.lt_le_trans; [|exact Hf]. apply subset_size. unfold todo.
          apply strict_spec_alt. split.
          - intros x. rewrite !elem_of_difference, !elem_of_dom. intros [H1 H2]. split; [done|].
            intros H. apply H2. destruct (decide (x = r)) as [->|Hn].
            + rewrite lookup_insert. eauto.
            + by rewrite lookup_insert_ne.
          - intros Heq. assert (r ∈ available_names nx ∖ dom (D := gset string) (<[r:=[]]> m)) as Hr.
            { rewrite Heq. apply elem_of_difference. split; [by apply available_in_names|].
              by rewrite elem_of_dom. }
            apply elem_of_difference in Hr as [_ Hr]. apply Hr. apply elem_of_dom.
            rewrite lookup_insert. eauto. }
        apply Cont; [done| |done]. eapply extends_mono; [|exact Hx].
        intros ? ->. exists r. split; [|done]. split; [by left|done].
      + apply Cont; [done|apply extends_refl|]. intros _ [d [c H]]. congruence.
  Qed.

  Lemma append_ok fuel : call_ok (append_to_graph fuel cfg nx) fuel.
  Proof.
    induction fuel as [|fuel IH]; intros o m p d Ho Hm Hof Hf; [lia|].
    cbn [append_to_graph]. rewrite (offered_name p d Hof).
    set (pd := config_for cfg p). set (reqs := node_reqs o nx pd d).
    set (sugs := if pd_suggests pd then _ else _).
    assert (forall r, r ∈ reqs <-> requires cfg nx p r) as Hreqs by (intros; by apply node_reqs_spec).
    assert (forall r, available nx r -> r ∈ sugs <-> suggests cfg nx p r) as Hsugs.
    { intros r Hr. unfold sugs, suggests. setoid_rewrite settings_config. fold pd. destruct (pd_suggests pd).
      - rewrite (ask_perm (sub o 3)) by (by apply sub_ok). rewrite elem_of_elements, elem_of_dom. split.
        + intros H. exists d. done.
        + intros (d' & Hd' & _ & H & _). by rewrite (offered_fun p d d' Hof Hd').
      - split; [intros H; by apply elem_of_nil in H|]. intros (? & _ & ? & _). done. }
    assert (good (<[p := reqs]> m)) as Hg1.
    { intros q deps. destruct (decide (q = p)) as [->|N].
      - rewrite lookup_insert. intros [= <-]. apply Hreqs.
      - rewrite lookup_insert_ne by done. apply Hm. }
    assert (size (todo (<[p := reqs]> m)) <= fuel) as Hs1.
    { assert (todo (<[p := reqs]> m) = todo (<[p := []]> m)) as ->; [|lia].
      unfold todo. f_equal. by rewrite !dom_insert_L. }
    destruct (visit_ok _ fuel (sub o 4) 0 sugs _ IH (sub_ok o 4 Ho) Hg1 Hs1) as (m2 & -> & Hg2 & Hx2 & Hall2).
    destruct (visit_ok _ fuel (sub o 5) 0 reqs m2 IH (sub_ok o 5 Ho) Hg2) as (m3 & -> & Hg3 & Hx3 & Hall3).
    { pose proof (size_todo_mono _ _ _ Hx2). lia. }
    exists m3. split; [done|]. split; [done|].
    assert (forall q, q <> p -> is_Some (<[p := reqs]> m !! q) -> is_Some (m !! q)) as Hins.
    { intros q N. by rewrite lookup_insert_ne. }
    assert (closed_at m3 p) as Hcl.
    { intros r [[Hr|Hr] HR].
      - apply Hall3; [by apply Hreqs|done|]. by destruct Hr as (? & _ & _ & ? & _).
      - assert (available nx r) as Hav by (by destruct Hr as (? & _ & _ & _ & ?)).
        apply Hx3. apply Hall2; [by apply Hsugs|done|done]. }
    assert (is_Some (m3 !! p)) as Hp.
    { apply Hx3, Hx2. rewrite lookup_insert. eauto. }
    split; [done|]. split; [done|].
    assert (extends (fun x => x = p) (<[p := reqs]> m) m3) as (A & B & C).
    { eapply extends_trans; [eapply extends_mono; [|exact Hx2]|eapply extends_mono; [|exact Hx3]].
      - intros x (H1 & H2 & H3). exists p. split; [done|]. apply rtc_once. split; [|done].
        right. by apply Hsugs.
      - intros x (H1 & H2 & H3). exists p. split; [done|]. apply rtc_once. split; [|done].
        left. by apply Hreqs. }
    split; [|split].
    - intros q Hq. apply A. destruct (decide (q = p)) as [->|N]; [rewrite lookup_insert; eauto|].
      by rewrite lookup_insert_ne.
    - intros q Hq. destruct (decide (q = p)) as [->|N].
      + right. exists p. done.
      + destruct (B q Hq) as [H|H]; [|by right]. left. by apply Hins.
    - intros q Hq. destruct (decide (q = p)) as [->|N]; [by right|].
      destruct (C q Hq) as [H|H]; [|by right]. left. by apply Hins.
  Qed.

  Lemma graph_fuel_enough m : size (todo m) < graph_fuel nx.
  Proof.
    unfold graph_fuel, todo.
    pose proof (subseteq_size (available_names nx ∖ dom (D := gset string) m) (available_names nx)
      ltac:(set_solver)). lia.
  Qed.

  Lemma get_package_go_offered p d : offered nx p d -> (get_package_go nx p).1.1 = d.
  Proof. intros [c H]. unfold get_package_go. by rewrite H. Qed.

  Lemma request_graph_ok o i pkgs m : oracle_ok o -> (forall p, p ∈ pkgs -> available nx p) ->
    good m ->
    exists g, request_graph (graph_fuel nx) cfg nx o i pkgs m = Some g /\ good g /\
      extends (fun x => x ∈ pkgs) m g /\ (forall p, p ∈ pkgs -> is_Some (g !! p)).
  Proof.
    intros Ho. revert i m. induction pkgs as [|p l IH]; intros i m Hav Hm; cbn [request_graph].
    - exists m. split; [done|]. split; [done|]. split; [apply extends_refl|].
      intros p Hp. by apply elem_of_nil in Hp.
    - destruct (Hav p) as [d Hd]; [by left|]. rewrite (get_package_go_offered p d Hd).
      destruct (append_ok (graph_fuel nx) (sub o i) m p d (sub_ok o i Ho) Hm Hd) as (m' & -> & Hg & Hp & Hc & Hx).
      { apply graph_fuel_enough. }
      destruct (IH (S i) m') as (g & E & Hgg & Hxx & Hall); [|done|].
      { intros q Hq. apply Hav. by right. }
      exists g. split; [done|]. split; [done|]. split.
      + eapply extends_trans; [eapply extends_mono; [|exact Hx]|eapply extends_mono; [|exact Hxx]].
        * intros ? ->. exists p. split; [by left|done].
        * intros x H. exists x. split; [by right|done].
      + intros q Hq. apply elem_of_cons in Hq as [->|Hq]; [|by apply Hall].
        by apply Hxx.
  Qed.

  (** The graph of a request is its closure, and records what is required. *)
  Lemma request_graph_spec o pkgs : oracle_ok o -> (forall p, p ∈ pkgs -> available nx p) ->
    exists g, request_graph (graph_fuel nx) cfg nx o 0 pkgs ∅ = Some g /\
      (forall q, is_Some (g !! q) <-> closure cfg nx pkgs q) /\
      (forall q deps, g !! q = Some deps -> forall r, r ∈ deps <-> requires cfg nx q r).
  Proof.
    intros Ho Hav. destruct (request_graph_ok o 0 pkgs ∅ Ho Hav) as (g & E & Hg & (A & B & C) & Hall).
    { intros p deps. by rewrite lookup_empty. }
    exists g. split; [done|]. split; [|exact Hg]. intros q. split.
    - intros Hq. destruct (B q Hq) as [[? H]|(p & Hp & Hr)]; [by rewrite lookup_empty in H|]. by exists p.
    - intros (p & Hp & Hr). revert q Hr. apply rtc_ind_r; [by apply Hall|].
      intros x y _ Hxy IH. destruct (C x IH) as [[? H]|H]; [by rewrite lookup_empty in H|]. by apply H.
  Qed.
End graph.
