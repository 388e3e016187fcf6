From stdpp Require Import strings list gmap relations sorting.
From Coq Require Import Ascii ZArith Lia.
From Verif.model Require Import GoStr Version Desc Nexus Pacman Graph RepoDb Plan.
From Verif.spec Require Import VersionSpec RepoSpec GraphSpec PlanSpec.
From Verif.proofs Require Import RepoProofs FetchProofs GraphProofs LayerProofs PlanProofs PlanProps.

Local Open Scope string_scope.

(** ** Sorting *)
Lemma str_leb_spec a b : str_leb a b = true <-> byte_le a b.
Proof.
  unfold str_leb. revert b. induction a as [|c a IH]; intros [|d b]; cbn; try done.
  specialize (IH b). unfold Ascii.compare.
  destruct (N.compare_spec (N_of_ascii c) (N_of_ascii d)) as [E|E|E].
  - assert (c = d) as <- by (by rewrite <- (ascii_N_embedding c), E, ascii_N_embedding).
    rewrite IH. split; [by right|]. intros [?|[_ ?]]; [lia|done].
  - split; [|done]. intros _. left. unfold nat_of_ascii. lia.
  - split; [done|]. unfold nat_of_ascii. intros [H|[-> _]]; lia.
Qed.

Lemma byte_le_total a b : byte_le a b \/ byte_le b a.
Proof.
  revert b. induction a as [|c a IH]; intros [|d b]; cbn; auto.
  destruct (lt_eq_lt_dec (nat_of_ascii c) (nat_of_ascii d)) as [[H|H]|H]; auto.
  assert (c = d) as <- by (by rewrite <- (ascii_nat_embedding c), H, ascii_nat_embedding).
  destruct (IH b); auto.
Qed.

Lemma byte_le_trans a b c : byte_le a b -> byte_le b c -> byte_le a c.
Proof.
  revert b c. induction a as [|x a IH]; intros [|y b] [|z c]; cbn; try done.
  intros [H1|[-> H1]] [H2|[-> H2]]; [left; lia|by left|by left|]. right. split; [done|]. by eapply IH.
Qed.

Lemma insert_sorted_perm x l : insert_sorted x l ≡ₚ x :: l.
Proof.
  induction l as [|y l IH]; cbn [insert_sorted]; [done|]. destruct (str_leb x y); [done|].
  rewrite IH. constructor.
Qed.

Lemma sort_strings_perm l : sort_strings l ≡ₚ l.
Proof. induction l as [|x l IH]; cbn [sort_strings]; [done|]. by rewrite insert_sorted_perm, IH. Qed.

Lemma insert_sorted_sorted x l : StronglySorted byte_le l -> StronglySorted byte_le (insert_sorted x l).
Proof.
  induction 1 as [|y l Hl IH Hy]; cbn [insert_sorted]; [repeat constructor|].
  destruct (str_leb x y) eqn:E.
  - apply str_leb_spec in E. constructor; [by constructor|]. constructor; [done|].
    eapply Forall_impl; [exact Hy|]. intros z Hz. by eapply byte_le_trans.
  - constructor; [done|]. rewrite insert_sorted_perm. constructor; [|done].
    destruct (byte_le_total y x) as [|H]; [done|]. apply str_leb_spec in H. congruence.
Qed.

Lemma sort_strings_sorted l : StronglySorted byte_le (sort_strings l).
Proof. induction l as [|x l IH]; cbn [sort_strings]; [constructor|by apply insert_sorted_sorted]. Qed.

(** ** Inversion *)
Lemma invert_one_lookup pkg deps idb r : NoDup deps ->
  default [] (invert_one pkg deps idb !! r) =
  (default [] (idb !! r) ++ (if decide (r ∈ deps) then [pkg] else []))%list.
Proof.
  intros Hnd. revert idb. induction Hnd as [|p deps Hp Hnd IH]; intros idb; cbn [invert_one].
  - rewrite decide_False; [by rewrite app_nil_r|]. by intros ?%elem_of_nil.
  - rewrite IH. destruct (decide (r = p)) as [->|N].
    + rewrite lookup_insert. cbn. rewrite decide_False, decide_True by (done || by left).
      by rewrite app_nil_r.
    + rewrite lookup_insert_ne by congruence. f_equal.
      destruct (decide (r ∈ deps)), (decide (r ∈ p :: deps)) as [H|H]; try done.
      * destruct H. by right.
      * apply elem_of_cons in H as [?|?]; done.
Qed.

Lemma invert_one_dom pkg deps idb r :
  is_Some (invert_one pkg deps idb !! r) <-> is_Some (idb !! r) \/ r ∈ deps.
Proof.
  revert idb. induction deps as [|p deps IH]; intros idb; cbn [invert_one].
  - split; [by left|]. intros [|H]; [done|]. by apply elem_of_nil in H.
  - rewrite IH, elem_of_cons. destruct (decide (r = p)) as [->|N].
    + rewrite lookup_insert. split; [by right; left|]. intros _. left. eauto.
    + rewrite lookup_insert_ne by congruence. naive_solver.
Qed.

Lemma invert_loop_lookup depdb keys idb r : (forall p l, depdb !! p = Some l -> NoDup l) ->
  default [] (invert_loop depdb keys idb !! r) =
  (default [] (idb !! r) ++
   List.filter (fun p => bool_decide (r ∈ default [] (depdb !! p))) keys)%list.
Proof.
  intros Hnd. revert idb. induction keys as [|k keys IH]; intros idb; cbn [invert_loop List.filter].
  - by rewrite app_nil_r.
  - rewrite IH, invert_one_lookup, <- app_assoc.
    2:{ destruct (depdb !! k) eqn:E; [by eapply Hnd|constructor]. }
    f_equal. destruct (decide (r ∈ default [] (depdb !! k))) as [D|D].
    + by rewrite bool_decide_eq_true_2.
    + by rewrite bool_decide_eq_false_2.
Qed.

Lemma invert_loop_dom depdb keys idb r :
  is_Some (invert_loop depdb keys idb !! r) <->
  is_Some (idb !! r) \/ exists p, p ∈ keys /\ r ∈ default [] (depdb !! p).
Proof.
  revert idb. induction keys as [|k keys IH]; intros idb; cbn [invert_loop].
  - split; [by left|]. intros [|(p & H & _)]; [done|]. by apply elem_of_nil in H.
  - rewrite IH, invert_one_dom. split.
    + intros [[|]|(p & H1 & H2)]; [by left|right; exists k; split; [by left|done]|].
      right. exists p. split; [by right|done].
    + intros [|(p & [->|H1]%elem_of_cons & H2)]; [by left; left|left; by right|]. right. by exists p.
Qed.

Lemma invert_spec depdb keys : keys ≡ₚ (map_to_list depdb).*1 ->
  (forall p l, depdb !! p = Some l -> NoDup l) ->
  (forall r l, invert_dependencies depdb keys !! r = Some l ->
     l <> [] /\ StronglySorted byte_le l /\ NoDup l /\
     forall p, p ∈ l <-> exists deps, depdb !! p = Some deps /\ r ∈ deps) /\
  (forall r, invert_dependencies depdb keys !! r = None <->
     forall p deps, depdb !! p = Some deps -> r ∉ deps).
Proof.
  intros Hk Hnd. rewrite fst_map_to_list_dom in Hk.
  assert (NoDup keys) as HkN by (rewrite Hk; apply NoDup_elements).
  assert (forall p, p ∈ keys <-> is_Some (depdb !! p)) as Hkm.
  { intros p. by rewrite Hk, elem_of_elements, elem_of_dom. }
  unfold invert_dependencies. split.
  - intros r l E. rewrite lookup_fmap in E.
    destruct (invert_loop depdb keys ∅ !! r) as [l0|] eqn:E0; [|done]. injection E as <-.
    pose proof (invert_loop_lookup depdb keys ∅ r Hnd) as H. rewrite E0, lookup_empty in H. cbn in H.
    assert (forall p, p ∈ sort_strings l0 <-> exists deps, depdb !! p = Some deps /\ r ∈ deps) as Hm.
    { intros p. rewrite sort_strings_perm, H, elem_of_list_In, filter_In, <- elem_of_list_In, bool_decide_eq_true, Hkm.
      split; [intros [[deps Hd] Hr]; rewrite Hd in Hr; by exists deps|].
      intros (deps & Hd & Hr). rewrite Hd. split; [eauto|done]. }
    split; [|split; [apply sort_strings_sorted|split; [|done]]].
    + intros Hn. pose proof (invert_loop_dom depdb keys ∅ r) as [D _]. rewrite E0, lookup_empty in D.
      destruct D as [[? ?]|(p & Hp & Hr)]; [eauto|done|].
      apply Hkm in Hp as [deps Hd]. rewrite Hd in Hr. assert (p ∈ sort_strings l0) as Hx by (apply Hm; eauto).
      rewrite Hn in Hx. by apply elem_of_nil in Hx.
    + rewrite sort_strings_perm, H. by apply filter_bool_nodup.
  - intros r. rewrite lookup_fmap. rewrite fmap_None, eq_None_not_Some, invert_loop_dom. split.
    + intros N p deps Hd Hr. apply N. right. exists p. rewrite Hd. split; [apply Hkm; eauto|done].
    + intros H [[? ?]|(p & Hp & Hr)]; [done|]. apply Hkm in Hp as [deps Hd]. rewrite Hd in Hr. by apply (H p deps).
Qed.

(** ** The announced number *)
Lemma count_filter {A} (P : A -> Prop) (f : A -> bool) l :
  (forall x, x ∈ l -> f x = true <-> P x) -> count P l (length (List.filter f l)).
Proof.
  induction l as [|x l IH]; intros H; cbn [List.filter]; [constructor|].
  assert (count P l (length (List.filter f l))) as IH' by (apply IH; intros; apply H; by right).
  destruct (f x) eqn:E; cbn [length].
  - constructor; [|done]. apply H; [by left|done].
  - constructor; [|done]. intros HP. apply H in HP; [congruence|by left].
Qed.

Lemma count_fun {A} (P : A -> Prop) l n m : count P l n -> count P l m -> n = m.
Proof. intros H. revert m. induction H; intros m Hm; inversion Hm; subst; try done; f_equal; auto. Qed.

Lemma filter_negb_length {A} (f : A -> bool) l :
  length (List.filter f l) + length (List.filter (fun x => negb (f x)) l) = length l.
Proof. induction l as [|x l IH]; cbn; [done|]. destruct (f x); cbn; lia. Qed.

Lemma num_to_install_spec ip keys additional :
  keys ≡ₚ (map_to_list (ip_depdb ip)).*1 ->
  NoDup (ip_starting ip ++ keys ++ additional)%list ->
  NoDup (map op_package (ip_outdated ip)) ->
  (forall x, x ∈ ip_outdated ip -> op_package x ∈ (ip_starting ip ++ keys ++ additional)%list) ->
  forall n u, count (fun p => ip_installed ip !! p = None \/ p ∈ additional)
                (ip_starting ip ++ keys ++ additional)%list n ->
    count (fun p => ip_update ip = true /\ exists x, x ∈ ip_outdated ip /\ op_package x = p)
      (ip_starting ip ++ keys ++ additional)%list u ->
    num_to_install ip keys additional = Z.of_nat (n + u).
Proof.
  intros Hk Hnd Hno Hsub n u Hn Hu. unfold num_to_install, get_all_packages. cbv zeta.
  set (req := (ip_starting ip ++ keys ++ additional)%list) in *.
  set (f := fun p => bool_decide (is_Some (ip_installed ip !! p)) && negb (existsb (String.eqb p) additional)).
  set (g := fun p => ip_update ip && existsb (String.eqb p) (map op_package (ip_outdated ip))).
  assert (n = length (List.filter (fun p => negb (f p)) req)) as ->.
  { eapply count_fun; [exact Hn|]. apply count_filter. intros x _. unfold f.
    rewrite negb_andb, negb_involutive, orb_true_iff, existsb_elem, negb_true_iff, bool_decide_eq_false.
    by rewrite <- eq_None_not_Some. }
  assert (u = length (List.filter g req)) as ->.
  { eapply count_fun; [exact Hu|]. apply count_filter. intros x _. unfold g.
    rewrite andb_true_iff, existsb_elem, elem_of_list_fmap. naive_solver. }
  assert (List.filter (fun q => existsb (String.eqb q) req && negb (existsb (String.eqb q) additional))
      (elements (dom (D := gset string) (ip_installed ip))) ≡ₚ List.filter f req) as P1.
  { apply NoDup_Permutation; [apply filter_bool_nodup, NoDup_elements|by apply filter_bool_nodup|].
    intros x. rewrite !elem_of_list_In, !filter_In, <- !elem_of_list_In, elem_of_elements, elem_of_dom. unfold f.
    rewrite !andb_true_iff, existsb_elem, bool_decide_eq_true. tauto. }
  rewrite (Permutation_length P1).
  assert (length (List.filter g req) = if ip_update ip then length (ip_outdated ip) else 0) as P2.
  { unfold g. destruct (ip_update ip).
    - cbn [andb]. rewrite <- (map_length op_package (ip_outdated ip)). apply Permutation_length.
      apply NoDup_Permutation; [by apply filter_bool_nodup|done|]. intros x.
      rewrite elem_of_list_In, filter_In, <- elem_of_list_In, existsb_elem. split; [by intros [_ ?]|].
      intros Hx. split; [|done]. apply elem_of_list_fmap in Hx as (y & -> & Hy). by apply Hsub.
    - clear. induction req; [done|]. done. }
  rewrite P2. pose proof (filter_negb_length f req). lia.
Qed.

(** ** The library scan *)
Lemma prior_installed_spec dirs m :
  NoDup dirs.*1 ->
  (forall name d, (name, Some d) ∈ dirs -> d_package d <> "" -> d_package d = name) ->
  forall p d, prior_installed dirs m !! p = Some d <->
    (p <> "" /\ d_package d = p /\ (p, Some d) ∈ dirs) \/
    ((forall d', (p, Some d') ∈ dirs -> d_package d' = "") /\ m !! p = Some d).
Proof.
  revert m. induction dirs as [|[name o] dirs IH]; intros m Hnd Hn p d; cbn [prior_installed].
  - split; [intros H; right; split; [|done]; by intros d' ?%elem_of_nil|].
    intros [(_ & _ & H)|[_ ?]]; [by apply elem_of_nil in H|done].
  - cbn in Hnd. apply NoDup_cons in Hnd as [Hname Hnd].
    rewrite IH; [|done|intros; apply (Hn name0); [by right|done]].
    assert (forall x, (name, x) ∉ dirs) as Hnot.
    { intros x Hx. apply Hname. apply elem_of_list_fmap. by exists (name, x). }
    unfold scan_installed. destruct o as [d0|].
    2:{ split.
        - intros [(H1 & H2 & H3)|[H1 H2]]; [left; split; [done|split; [done|by right]]|].
          right. split; [|done]. intros d' [?|?]%elem_of_cons; [done|by apply H1].
        - intros [(H1 & H2 & [?|H3]%elem_of_cons)|[H1 H2]]; [done|by left|].
          right. split; [|done]. intros d' Hd'. apply H1. by right. }
    destruct (String.eqb_spec (d_package d0) "") as [E0|E0].
    + split.
      * intros [(H1 & H2 & H3)|[H1 H2]]; [left; split; [done|split; [done|by right]]|].
        right. split; [|done]. intros d' [[= -> ->]|?]%elem_of_cons; [done|by apply H1].
      * intros [(H1 & H2 & [[= -> ->]|H3]%elem_of_cons)|[H1 H2]]; [congruence|by left|].
        right. split; [|done]. intros d' Hd'. apply H1. by right.
    + assert (d_package d0 = name) as E by (apply Hn; [by left|done]). rewrite E.
      destruct (decide (p = name)) as [->|N].
      * rewrite lookup_insert. split.
        -- intros [(H1 & H2 & H3)|[H1 [= ->]]]; [by destruct (Hnot _ H3)|].
           left. split; [congruence|]. split; [done|by left].
        -- intros [(H1 & H2 & [[= ->]|H3]%elem_of_cons)|[H1 H2]]; [|by destruct (Hnot _ H3)|].
           ++ right. split; [|done]. intros d' Hd'. by destruct (Hnot _ Hd').
           ++ destruct E0. apply H1. by left.
      * rewrite lookup_insert_ne by congruence. split.
        -- intros [(H1 & H2 & H3)|[H1 H2]]; [left; split; [done|split; [done|by right]]|].
           right. split; [|done]. intros d' [[= -> ->]|?]%elem_of_cons; [done|by apply H1].
        -- intros [(H1 & H2 & [[= -> ->]|H3]%elem_of_cons)|[H1 H2]]; [congruence|by left|].
           right. split; [|done]. intros d' Hd'. apply H1. by right.
Qed.

Lemma prior_installed_perm dirs dirs' m : dirs ≡ₚ dirs' -> NoDup dirs.*1 ->
  (forall name d, (name, Some d) ∈ dirs -> d_package d <> "" -> d_package d = name) ->
  prior_installed dirs m = prior_installed dirs' m.
Proof.
  intros P Hnd Hn. apply map_eq. intros p. apply option_eq. intros d.
  rewrite prior_installed_spec by done. rewrite prior_installed_spec.
  - by setoid_rewrite P.
  - by rewrite <- P.
  - intros name d'. rewrite <- P. apply Hn.
Qed.

Lemma get_installers_spec ip keys a b : get_installers ip keys = (a, b) ->
  (a ++ b)%list ≡ₚ keys /\
  (forall p, p ∈ a <-> p ∈ keys /\ exists d, ip !! p = Some d /\ d_pkgr_version d <> "") /\
  (forall p, p ∈ b <-> p ∈ keys /\ ~ exists d, ip !! p = Some d /\ d_pkgr_version d <> "").
Proof.
  unfold get_installers. intros [= <- <-].
  set (f := fun k => match ip !! k with Some d => negb (String.eqb (d_pkgr_version d) "") | None => false end).
  assert (forall p, f p = true <-> exists d, ip !! p = Some d /\ d_pkgr_version d <> "") as F.
  { intros p. unfold f. destruct (ip !! p) as [d|]; [|naive_solver].
    rewrite negb_true_iff, String.eqb_neq. naive_solver. }
  change (fun k => negb match ip !! k with Some d => negb (String.eqb (d_pkgr_version d) "") | None => false end)
    with (fun k => negb (f k)).
  split; [|split].
  - clearbody f. clear. induction keys as [|k keys IH]; cbn [List.filter]; [done|].
    destruct (f k); cbn [negb].
    + cbn. by rewrite IH.
    + rewrite <- Permutation_middle. by rewrite IH.
  - intros p. by rewrite elem_of_list_In, filter_In, <- elem_of_list_In, F.
  - intros p. rewrite elem_of_list_In, filter_In, <- elem_of_list_In, negb_true_iff, <- F.
    by rewrite not_true_iff_false.
Qed.

(** ** Package databases built from indexes file every record under its name *)
Lemma descs_of_set st m l st' : descs_of (set_descs st m l) st' = m \/ descs_of (set_descs st m l) st' = descs_of l st'.
Proof.
  induction l as [|[t x] l IH]; cbn [set_descs descs_of].
  - destruct (decide (st = st')); auto.
  - destruct (decide (t = st)); cbn [descs_of]; destruct (decide (t = st')); auto.
Qed.

Lemma read_index_names parse rv body m p d :
  read_index parse rv body = Some m -> m !! p = Some d -> d_package d = p.
Proof.
  unfold read_index. destruct body as [b|]; [|done].
  destruct (parse_all _ _) as [ds|]; [|done]. intros [= <-].
  assert (forall m, (forall q x, m !! q = Some x -> d_package x = q) ->
    forall q x, add_records rv ds m !! q = Some x -> d_package x = q) as G.
  { clear. induction ds as [|y ds IH]; intros m Hm q x; cbn [add_records]; [by apply Hm|].
    apply IH. intros q' x'. destruct (keep_record rv y); [|by apply Hm].
    rewrite lookup_insert_Some. intros [[<- <-]|[_ ?]]; [done|by apply Hm]. }
  apply G. intros q x. by rewrite lookup_empty.
Qed.
