From stdpp Require Import strings list gmap sorting.
From Coq Require Import Ascii ZArith Lia.
From Verif.model Require Import GoStr Version Desc Nexus RepoDb.
From Verif.spec Require Import StrSpec VersionSpec RepoSpec.
From Verif.proofs Require Import GoStrLemmas VersionProofs.

Local Open Scope string_scope.

(** ** Printing numbers *)
Lemma numeral_text_app a b : numeral_text (a ++ b)%list = numeral_text a +:+ numeral_text b.
Proof. induction a as [|x a IH]; [done|]. cbn [app numeral_text]. by rewrite IH. Qed.

Lemma numeral_value_snoc ds d : numeral_value (ds ++ [d])%list = (numeral_value ds * 10 + Z.of_nat d)%Z.
Proof. unfold numeral_value. by rewrite fold_left_app. Qed.

Lemma digit_char_nat (n : N) : (n < 10)%N -> digit_char n = ascii_of_nat (48 + N.to_nat n).
Proof.
  intros H. unfold digit_char, ascii_of_nat. f_equal. lia.
Qed.

Lemma itoa_aux_numeral fuel n acc : (n < 2 ^ N.of_nat fuel)%N -> fuel <> 0 ->
  exists ds, numeral_ok ds /\ numeral_value ds = Z.of_N n /\
    itoa_aux fuel n acc = numeral_text ds +:+ acc.
Proof.
  revert n acc. induction fuel as [|fuel IH]; intros n acc Hn Hf; [done|].
  cbn [itoa_aux]. destruct (N.ltb_spec n 10) as [L|L].
  - exists [N.to_nat n]. split; [|split].
    + split; [done|]. constructor; [lia|constructor].
    + cbn. lia.
    + rewrite N.mod_small by done. by rewrite digit_char_nat.
  - destruct fuel as [|fuel]; [cbn in Hn; lia|].
    destruct (IH (n / 10)%N (String (digit_char (n mod 10)) acc)) as (ds & H1 & H2 & H3); [|done|].
    { apply N.div_lt_upper_bound; [lia|].
      rewrite (Nat2N.inj_succ (S fuel)), N.pow_succ_r' in Hn. lia. }
    exists (ds ++ [N.to_nat (n mod 10)])%list.
    assert (n mod 10 < 10)%N by (apply N.mod_lt; lia).
    split; [|split].
    + destruct H1 as [H1 H1']. split; [by destruct ds|]. apply Forall_app. split; [done|].
      constructor; [lia|constructor].
    + rewrite numeral_value_snoc, H2. rewrite (N.div_mod n 10) at 3 by lia. lia.
    + rewrite H3, numeral_text_app, digit_char_nat by done.
      by rewrite app_assoc_str.
Qed.

Lemma itoa_numeral n : exists ds, numeral_ok ds /\ numeral_value ds = Z.of_N n /\ itoa n = numeral_text ds.
Proof.
  destruct (itoa_aux_numeral (S (N.to_nat (N.log2 n))) n "") as (ds & H1 & H2 & H3); [|done|].
  - rewrite Nat2N.inj_succ, N2Nat.id. destruct (N.eq_dec n 0) as [->|]; [done|].
    apply N.log2_spec; lia.
  - exists ds. split; [done|]. split; [done|]. unfold itoa. by rewrite H3, app_nil_str.
Qed.

(** ** The R version filter *)
Lemma rv_full_vtext rv : rv_ok rv -> exists v, vtext_ok v /\ vtext_text v = rv_full rv /\
  vtext_values v = rv_values rv.
Proof.
  intros H. unfold rv_ok, rv_values in H.
  apply Forall_cons in H as [A H]. apply Forall_cons in H as [B H]. apply Forall_cons in H as [C _].
  destruct (itoa_numeral (rv_major rv)) as (d0 & O0 & V0 & T0).
  destruct (itoa_numeral (rv_minor rv)) as (d1 & O1 & V1 & T1).
  destruct (itoa_numeral (rv_patch rv)) as (d2 & O2 & V2 & T2).
  exists (VText d0 [(SepDot, d1); (SepDot, d2)]). split; [|split].
  - unfold vtext_ok, vtext_numerals. cbn [vt_head vt_tail fmap list_fmap snd].
    repeat (apply Forall_cons; split; [split; [done|lia]|]). constructor.
  - unfold vtext_text, rv_full. cbn [vt_head vt_tail tail_text]. rewrite T0, T1, T2, app_nil_str. done.
  - unfold vtext_values, rv_values, vtext_numerals. cbn [vt_head vt_tail fmap list_fmap snd].
    by rewrite V0, V1, V2.
Qed.

Lemma rv_full_parses rv : rv_ok rv -> parse_version (rv_full rv) =
  Some (Version (Z.of_N (rv_major rv)) (Z.of_N (rv_minor rv)) (Z.of_N (rv_patch rv)) 0 0 (rv_full rv)).
Proof.
  intros H. destruct (rv_full_vtext rv H) as (v & Ok & <- & V).
  assert (length (vtext_numerals v) = 3) as L.
  { apply (f_equal length) in V. unfold vtext_values in V. by rewrite fmap_length in V. }
  rewrite parse_version_vtext by (rewrite ?L; auto with lia). by rewrite V.
Qed.

Lemma lex3_5 a b c v0 v1 v2 v3 v4 :
  lex_compare [a; b; c] [v0; v1; v2; v3; v4] = lex_compare [a; b; c; 0; 0]%Z [v0; v1; v2; v3; v4].
Proof.
  assert (forall x, Z.compare 0 x = CompOpp (Z.compare x 0)) as O
    by (intros; apply Z.compare_antisym).
  cbn [lex_compare lex_compare_zero]. rewrite !O.
  repeat match goal with |- context [Z.compare ?x ?y] => destruct (Z.compare x y); simpl end; done.
Qed.

Lemma is_r_compatible_spec d rv : rv_ok rv -> is_r_compatible d rv = true <-> r_satisfied rv d.
Proof.
  intros H. unfold is_r_compatible, r_satisfied. destruct (d_depends d !! "R") as [c|]; [|done].
  unfold check_r_version. rewrite (rv_full_parses rv H), compare_versions_lex.
  unfold components. cbn [v_major v_minor v_patch v_dev v_other].
  unfold rv_values. rewrite <- lex3_5.
  destruct (dep_constraint c); cbn [op_of_constraint]; try (split; [discriminate|done]);
    destruct (lex_compare _ _); simpl; split; done.
Qed.

Lemma lex_pad_right l a b c d : length (l : list Z) <= 4 ->
  a = default 0%Z (l !! 0) -> b = default 0%Z (l !! 1) -> c = default 0%Z (l !! 2) -> d = default 0%Z (l !! 3) ->
  forall x y z, lex_compare [x; y; z] [a; b; c; d; 0%Z] = lex_compare [x; y; z] l.
Proof.
  intros L -> -> -> -> x y z. rewrite lex3_5.
  exact (lex_compare_pad4 [x; y; z] l ltac:(simpl; lia) L).
Qed.

Lemma op_of_constraint_of op : op_of_constraint (constraint_of op) = Some op.
Proof. by destruct op. Qed.

(** From the text of the entry to the decision. *)
Lemma r_constraint_text d rv op v c :
  rv_ok rv -> vtext_ok v -> 2 <= length (vtext_numerals v) <= 4 ->
  word_without "()<>=" (vtext_text v) ->
  parse_dep ("R (" +:+ relop_text op +:+ " " +:+ vtext_text v +:+ ")") = Some c ->
  d_depends d !! "R" = Some c ->
  is_r_compatible d rv = true <-> relop_holds op (lex_compare (rv_values rv) (vtext_values v)).
Proof.
  intros Hrv Hv Hl Hw Hp Hd. rewrite is_r_compatible_spec by done. unfold r_satisfied. rewrite Hd.
  pose proof (parse_version_vtext v Hv Hl) as Hpv. cbv zeta in Hpv.
  pose proof (parse_dep_entry_spec "R" (vtext_text v) op "" " " "" " " "" "" _
    ltac:(split; done) Hw Hpv ltac:(repeat constructor)) as E.
  change ("" +:+ "R" +:+ " " +:+ "(" +:+ "" +:+ relop_text op +:+ " " +:+ vtext_text v +:+ "" +:+ ")" +:+ "")
    with ("R (" +:+ relop_text op +:+ " " +:+ vtext_text v +:+ ")") in E.
  rewrite Hp in E. injection E as ->. cbn [dep_constraint dep_version].
  match goal with |- context [op_of_constraint ?c] => change c with (constraint_of op) end.
  rewrite op_of_constraint_of. cbn [v_major v_minor v_patch v_dev v_other].
  unfold rv_values. erewrite lex_pad_right; try reflexivity.
  unfold vtext_values. rewrite fmap_length. lia.
Qed.

(** ** Reading an index *)
Lemma keep_record_spec rv d : rv_ok rv -> keep_record rv d = true <-> usable_record rv (d_package d) d.
Proof.
  intros H. unfold keep_record, usable_record. rewrite andb_true_iff, is_r_compatible_spec by done.
  rewrite String.eqb_eq. tauto.
Qed.

Lemma add_records_lookup rv l m p :
  rv_ok rv ->
  (forall d, last_such (usable_record rv p) l d -> add_records rv l m !! p = Some d) /\
  ((forall d, d ∈ l -> ~ usable_record rv p d) -> add_records rv l m !! p = m !! p).
Proof.
  intros Hrv. revert m. induction l as [|x l IH]; intros m; cbn [add_records].
  - split; [|done]. intros d (l1 & l2 & H & _). by destruct l1.
  - split.
    + intros d (l1 & l2 & E & Hd & Hn). destruct l1 as [|y l1]; simpl in E; simplify_eq.
      * rewrite (proj2 (IH _)) by (intros; apply Hn; done).
        destruct (keep_record rv d) eqn:K.
        -- destruct Hd as [<- _]. by rewrite lookup_insert.
        -- apply not_true_iff_false in K. destruct K. apply keep_record_spec; [done|].
           destruct Hd as [E Hd]. split; [done|exact Hd].
      * apply (proj1 (IH _)). by exists l1, l2.
    + intros H. rewrite (proj2 (IH _)); [|intros d Hd; apply H; by right].
      destruct (keep_record rv x) eqn:K; [|done].
      apply keep_record_spec in K; [|done]. rewrite lookup_insert_ne; [done|].
      intros <-. apply (H x); [by left|done].
Qed.

Lemma last_such_dec {A} (P : A -> Prop) `{forall x, Decision (P x)} l :
  (exists x, last_such P l x) \/ (forall x, x ∈ l -> ~ P x).
Proof.
  induction l as [|y l IH]; [right; intros x Hx; by apply elem_of_nil in Hx|].
  destruct IH as [(x & l1 & l2 & -> & H1 & H2)|N].
  - left. exists x, (y :: l1), l2. done.
  - destruct (decide (P y)) as [Y|Y].
    + left. exists y, [], l. done.
    + right. intros x Hx. apply elem_of_cons in Hx as [->|]; auto.
Qed.

Lemma last_such_unique {A} (P : A -> Prop) l x y : last_such P l x -> last_such P l y -> x = y.
Proof.
  intros (l1 & l2 & -> & Hx & Nx) (k1 & k2 & E & Hy & Ny).
  revert k1 E. induction l1 as [|a l1 IH]; intros [|b k1] E; simpl in E; injection E as E1 E2; subst.
  - done.
  - exfalso. apply (Nx y); [|done]. apply elem_of_app. right. by left.
  - exfalso. apply (Ny x); [|done]. apply elem_of_app. right. by left.
  - by eapply IH.
Qed.

Lemma usable_record_dec rv p d : rv_ok rv -> Decision (usable_record rv p d).
Proof.
  intros H. destruct (decide (d_package d = p)) as [<-|N].
  - destruct (keep_record rv d) eqn:K.
    + left. by apply keep_record_spec.
    + right. intros U. apply keep_record_spec in U; [|done]. congruence.
  - right. by intros [? _].
Qed.

Lemma add_records_spec rv l p d : rv_ok rv ->
  add_records rv l ∅ !! p = Some d <-> last_such (usable_record rv p) l d.
Proof.
  intros Hrv. destruct (add_records_lookup rv l ∅ p Hrv) as [A B]. split; [|apply A].
  intros H. assert (forall x, Decision (usable_record rv p x)) as Dec
    by (intros; by apply usable_record_dec).
  destruct (last_such_dec (usable_record rv p) l) as [(x & Hx)|N].
  - rewrite (A x Hx) in H. by injection H as ->.
  - rewrite (B N), lookup_empty in H. done.
Qed.

Lemma parse_all_spec parse ts ds : parse_all parse ts = Some ds <-> Forall2 (fun t d => parse t = Some d) ts ds.
Proof.
  revert ds. induction ts as [|t ts IH]; intros ds; cbn [parse_all].
  - split; [intros [= <-]; constructor|intros H; by inversion H].
  - destruct (parse t) as [d|] eqn:E.
    + destruct (parse_all parse ts) as [ds'|].
      * split.
        -- intros [= <-]. constructor; [done|]. by apply IH.
        -- intros H. inversion H; subst. apply IH in H4. congruence.
      * split; [done|]. intros H. inversion H; subst. apply IH in H4. congruence.
    + split; [done|]. intros H. inversion H; subst. congruence.
Qed.

Lemma read_index_spec parse rv body m : rv_ok rv ->
  read_index parse rv body = Some m ->
  exists b ds, body = Some b /\ Forall2 (fun t d => parse t = Some d) (record_texts b) ds /\
    forall p d, m !! p = Some d <-> last_such (usable_record rv p) ds d.
Proof.
  intros Hrv. unfold read_index. destruct body as [b|]; [|done].
  destruct (parse_all parse (record_texts b)) as [ds|] eqn:E; [|done]. intros [= <-].
  exists b, ds. split; [done|]. split; [by apply parse_all_spec|]. intros. by apply add_records_spec.
Qed.

(** The records of a well-formed index text. *)
Definition no_cr (s : string) : bool := all_bytes (fun c => negb (Ascii.eqb c (ascii_of_nat 13))) s.

Lemma normalise_no_cr s : no_cr s = true -> normalise_newlines s = s.
Proof.
  induction s as [|c s IH]; [done|]. unfold no_cr. cbn [all_bytes]. intros H.
  apply andb_true_iff in H as [H1 H2]. cbn [normalise_newlines].
  unfold char_eqb. destruct (Ascii.eqb c (ascii_of_nat 13)); [done|]. f_equal. by apply IH.
Qed.

(** The highest version wins when the index is sorted. *)
Lemma last_such_split {A} (P : A -> Prop) l x : last_such P l x -> x ∈ l /\ P x.
Proof.
  intros (l1 & l2 & -> & H & _). split; [|done]. apply elem_of_app. right. by left.
Qed.

Lemma last_such_max {A} (P : A -> Prop) (le : A -> A -> Prop) l x :
  (forall a, le a a) -> StronglySorted le l -> last_such P l x -> forall y, y ∈ l -> P y -> le y x.
Proof.
  intros Hr Hs (l1 & l2 & -> & Hx & Hn) y Hy Py.
  apply elem_of_app in Hy as [Hy|Hy].
  - clear Hn. induction l1 as [|a l1 IH]; [by apply elem_of_nil in Hy|].
    simpl in Hs. apply StronglySorted_inv in Hs as [Hs Ha].
    apply elem_of_cons in Hy as [->|Hy]; [|by apply IH].
    rewrite Forall_forall in Ha. apply Ha, elem_of_app. right. by left.
  - apply elem_of_cons in Hy as [->|Hy]; [done|]. by destruct (Hn y).
Qed.

(** ** Choosing a repository *)
Definition chosen_type (nx : nexus) (pkg : string) (db : repo_db) : source_type :=
  match nx_packages nx !! pkg with
  | Some c => if decide (pc_type c = STDefault) then nx_default nx else pc_type c
  | None => if decide (db_default db = STDefault) then nx_default nx else db_default db
  end.

Lemma wanted_type_chosen nx pkg db st : wanted_type nx pkg db st <-> st = chosen_type nx pkg db.
Proof.
  unfold wanted_type, chosen_type. destruct (nx_packages nx !! pkg) as [c|];
    case_decide; intuition congruence.
Qed.

Lemma is_correct_repo_spec nx pkg db :
  is_correct_repo pkg (db_repo db) (nx_packages nx) = true <-> allowed_repo nx pkg db.
Proof.
  unfold is_correct_repo, allowed_repo. destruct (nx_packages nx !! pkg) as [c|].
  - destruct (String.eqb_spec (ru_name (pc_repo c)) "") as [E|E].
    + split; [|done]. intros _ ? [= <-]. done.
    + rewrite String.eqb_eq. split; [by intros H ? [= <-]|]. intros H. by apply H.
  - split; [|done]. intros _ ? [=].
Qed.

Lemma get_package_unfold nx pkg :
  get_package nx pkg =
  get_package_loop (nx_packages nx) pkg
    (match nx_packages nx !! pkg with
     | Some c => if decide (pc_type c = STDefault) then nx_default nx else pc_type c
     | None => nx_default nx end)
    (bool_decide (is_Some (nx_packages nx !! pkg))) (nx_db nx).
Proof. unfold get_package. by destruct (nx_packages nx !! pkg). Qed.

Lemma repo_source_type_spec nx pkg db :
  repo_source_type
    (match nx_packages nx !! pkg with
     | Some c => if decide (pc_type c = STDefault) then nx_default nx else pc_type c
     | None => nx_default nx end)
    (bool_decide (is_Some (nx_packages nx !! pkg))) db = chosen_type nx pkg db.
Proof.
  unfold repo_source_type, chosen_type. destruct (nx_packages nx !! pkg) as [c|] eqn:E.
  - rewrite andb_false_r. done.
  - rewrite (bool_decide_eq_false_2 (is_Some None)) by (by intros [? ?]). cbn [negb].
    destruct (decide (db_default db = STDefault)) as [D|D].
    + rewrite (bool_decide_eq_true_2 _ D). by rewrite andb_false_r.
    + rewrite (bool_decide_eq_false_2 _ D). cbn [negb]. rewrite !andb_true_r.
      destruct (decide (db_default db = nx_default nx)) as [E2|E2].
      * by rewrite (bool_decide_eq_true_2 _ E2).
      * by rewrite (bool_decide_eq_false_2 _ E2).
Qed.

Lemma index_for_cons t x l st m :
  index_for ((t, x) :: l) st m <-> (t = st /\ x = m) \/ (t <> st /\ index_for l st m).
Proof.
  split.
  - intros (l1 & l2 & E & N). destruct l1 as [|y l1]; cbn [app] in E.
    + injection E as -> -> ->. by left.
    + injection E as <- ->. cbn [fmap list_fmap fst] in N. apply not_elem_of_cons in N as [N1 N2].
      right. split; [congruence|]. by exists l1, l2.
  - intros [[-> ->]|[N (l1 & l2 & -> & M)]].
    + exists [], l. split; [done|]. apply not_elem_of_nil.
    + exists ((t, x) :: l1), l2. split; [done|]. cbn [fmap list_fmap fst].
      apply not_elem_of_cons. split; [congruence|done].
Qed.

Lemma index_for_nil st m : ~ index_for [] st m.
Proof. intros (l1 & l2 & E & _). by destruct l1. Qed.

Lemma index_for_descs l st m : index_for l st m <-> st ∈ l.*1 /\ descs_of l st = m.
Proof.
  induction l as [|[t x] l IH].
  - split; [by intros H%index_for_nil|]. intros [H _]. by apply elem_of_nil in H.
  - rewrite index_for_cons, IH. cbn [fmap list_fmap fst descs_of]. rewrite elem_of_cons.
    destruct (decide (t = st)) as [E|N].
    + split; [intros [[_ ->]|[N _]]; [split; [by left|done]|done]|]. intros [_ ->]. by left.
    + split.
      * intros [[E _]|[_ [H1 H2]]]; [done|]. split; [by right|done].
      * intros [[E|H1] H2]; [by destruct N|]. by right.
Qed.

Lemma descs_of_absent l st : st ∉ l.*1 -> descs_of l st = ∅.
Proof.
  induction l as [|[t x] l IH]; intros N; [done|]. cbn [fmap list_fmap fst descs_of] in *.
  apply not_elem_of_cons in N as [N1 N2]. rewrite decide_False by congruence. by apply IH.
Qed.

Lemma descs_record l st p d : descs_of l st !! p = Some d <-> has_record l st p d.
Proof.
  unfold has_record. split.
  - intros H. exists (descs_of l st). split; [|done]. apply index_for_descs. split; [|done].
    destruct (decide (st ∈ l.*1)) as [|N]; [done|]. by rewrite (descs_of_absent _ _ N), lookup_empty in H.
  - intros (m & H & E). apply index_for_descs in H as [_ ->]. done.
Qed.

Lemma descs_no_record l st p : descs_of l st !! p = None <-> forall d, ~ has_record l st p d.
Proof.
  split.
  - intros H d R. apply descs_record in R. congruence.
  - intros H. destruct (descs_of l st !! p) as [d|] eqn:E; [|done]. apply descs_record in E. by destruct (H d).
Qed.

Definition offer_of (nx : nexus) (pkg : string) (db : repo_db) : option (desc * pkg_config) :=
  match descs_of (db_types db) (chosen_type nx pkg db) !! pkg with
  | Some d => if is_correct_repo pkg (db_repo db) (nx_packages nx)
              then Some (d, PkgConfig (db_repo db) (chosen_type nx pkg db)) else None
  | None => None
  end.

Fixpoint first_some {A B} (f : A -> option B) (l : list A) : option B :=
  match l with [] => None | x :: l' => match f x with Some y => Some y | None => first_some f l' end end.

Lemma get_package_first nx pkg : get_package nx pkg = first_some (offer_of nx pkg) (nx_db nx).
Proof.
  rewrite get_package_unfold. induction (nx_db nx) as [|db dbs IH]; [done|].
  cbn [get_package_loop first_some]. cbv zeta. rewrite repo_source_type_spec. unfold offer_of at 1.
  destruct (descs_of _ _ !! pkg) as [d|]; [|done].
  destruct (is_correct_repo _ _ _); done.
Qed.

Lemma offer_of_spec nx pkg db d c :
  offer_of nx pkg db = Some (d, c) <->
  offers nx pkg db d (pc_type c) /\ pc_repo c = db_repo db.
Proof.
  unfold offer_of, offers. rewrite wanted_type_chosen, <- is_correct_repo_spec, <- descs_record. split.
  - destruct (descs_of _ _ !! pkg) as [x|] eqn:E; [|done].
    destruct (is_correct_repo _ _ _); [|done]. intros [= <- <-]. done.
  - intros [(E1 & E2 & E3) E4]. rewrite E1 in E3. rewrite E3, E2.
    destruct c as [r t]; simpl in *. by subst.
Qed.

Lemma offer_of_none nx pkg db : offer_of nx pkg db = None <-> forall d st, ~ offers nx pkg db d st.
Proof.
  split.
  - intros H d st O. assert (offer_of nx pkg db = Some (d, PkgConfig (db_repo db) st)) by
      (by apply offer_of_spec). congruence.
  - intros H. destruct (offer_of nx pkg db) as [[d c]|] eqn:E; [|done].
    apply offer_of_spec in E as [E _]. by destruct (H d (pc_type c)).
Qed.

Lemma first_some_spec {A B} (f : A -> option B) l y :
  first_some f l = Some y <->
  exists l1 x l2, l = (l1 ++ x :: l2)%list /\ f x = Some y /\ (forall z, z ∈ l1 -> f z = None).
Proof.
  split.
  - induction l as [|x l IH]; [done|]. cbn [first_some]. destruct (f x) as [y'|] eqn:E.
    + intros [= ->]. exists [], x, l. split; [done|]. split; [done|]. intros z Hz. by apply elem_of_nil in Hz.
    + intros H. destruct (IH H) as (l1 & z & l2 & -> & Hz & Hn). exists (x :: l1), z, l2.
      split; [done|]. split; [done|]. intros w Hw. apply elem_of_cons in Hw as [->|Hw]; auto.
  - intros (l1 & x & l2 & -> & Hx & Hn). induction l1 as [|z l1 IH]; cbn [app first_some].
    + by rewrite Hx.
    + rewrite Hn by (by left). apply IH. intros; apply Hn; by right.
Qed.

Lemma first_some_none {A B} (f : A -> option B) l : first_some f l = None <-> forall x, x ∈ l -> f x = None.
Proof.
  split.
  - induction l as [|x l IH]; intros H z Hz; [by apply elem_of_nil in Hz|].
    cbn [first_some] in H. destruct (f x) eqn:E; [done|].
    apply elem_of_cons in Hz as [->|Hz]; auto.
  - intros H. induction l as [|x l IH]; [done|]. cbn [first_some]. rewrite H by (by left).
    apply IH. intros; apply H; by right.
Qed.

Lemma get_package_spec nx pkg d c :
  get_package nx pkg = Some (d, c) <->
  exists l1 db l2, nx_db nx = (l1 ++ db :: l2)%list /\ offers nx pkg db d (pc_type c) /\
    pc_repo c = db_repo db /\ (forall db' d' st, db' ∈ l1 -> ~ offers nx pkg db' d' st).
Proof.
  rewrite get_package_first, first_some_spec. split.
  - intros (l1 & db & l2 & E & Ho & Hn). exists l1, db, l2. apply offer_of_spec in Ho as [H1 H2].
    split; [done|]. split; [done|]. split; [done|]. intros db' d' st H.
    by apply offer_of_none, Hn.
  - intros (l1 & db & l2 & E & H1 & H2 & Hn). exists l1, db, l2. split; [done|].
    split; [by apply offer_of_spec|]. intros z Hz. apply offer_of_none. intros. by apply Hn.
Qed.

Lemma get_package_none nx pkg :
  get_package nx pkg = None <-> forall db d st, db ∈ nx_db nx -> ~ offers nx pkg db d st.
Proof.
  rewrite get_package_first, first_some_none. split.
  - intros H db d st Hdb. by apply offer_of_none, H.
  - intros H db Hdb. apply offer_of_none. intros d st. by apply H.
Qed.

(** ** Customizations *)
Lemma find_repo_spec l name :
  (forall db, find_repo l name = Some db -> db ∈ l /\ ru_name (db_repo db) = name) /\
  (find_repo l name = None <-> forall db, db ∈ l -> ru_name (db_repo db) <> name).
Proof.
  induction l as [|x l [IH1 IH2]]; cbn [find_repo].
  - split; [done|]. split; [|done]. intros _ db Hdb. by apply elem_of_nil in Hdb.
  - destruct (String.eqb_spec (ru_name (db_repo x)) name) as [E|E].
    + split.
      * intros db [= ->]. split; [by left|done].
      * split; [done|]. intros H. destruct (H x); [by left|done].
    + split.
      * intros db H. apply IH1 in H as [H1 H2]. split; [by right|done].
      * rewrite IH2. split.
        -- intros H db Hdb. apply elem_of_cons in Hdb as [->|]; auto.
        -- intros H db Hdb. apply H. by right.
Qed.

Lemma get_package_other nx nx' pkg :
  nx_db nx = nx_db nx' -> nx_default nx = nx_default nx' ->
  nx_packages nx !! pkg = nx_packages nx' !! pkg ->
  get_package nx pkg = get_package nx' pkg.
Proof.
  intros E1 E2 E3. rewrite !get_package_first, E1.
  assert (forall db, offer_of nx pkg db = offer_of nx' pkg db) as H.
  { intros db. unfold offer_of, chosen_type, is_correct_repo. rewrite E2, E3. done. }
  clear E1. induction (nx_db nx') as [|db l IH]; [done|]. cbn [first_some]. by rewrite H, IH.
Qed.

Lemma set_package_repo_spec nx pkg repo nx' :
  set_package_repo nx pkg repo = Some nx' ->
  (forall q, q <> pkg -> get_package nx' q = get_package nx q) /\
  (repo <> "" -> forall d c, get_package nx' pkg = Some (d, c) -> ru_name (pc_repo c) = repo).
Proof.
  unfold set_package_repo. destruct (find_repo (nx_db nx) repo) as [db|] eqn:F; [|done].
  apply find_repo_spec in F as [F1 F2]. intros [= <-]. split.
  - intros q Hq. apply get_package_other; simpl; [done|done|]. by rewrite lookup_insert_ne.
  - intros Hr d c H. apply get_package_spec in H as (l1 & db' & l2 & E & (_ & Ha & _) & -> & _).
    unfold allowed_repo in Ha. cbn [nx_packages] in Ha.
    specialize (Ha _ (lookup_insert _ _ _)). cbn [pc_repo] in Ha. rewrite F2 in Ha.
    symmetry. by apply Ha.
Qed.

Lemma set_package_repo_error nx pkg repo :
  set_package_repo nx pkg repo = None <-> forall db, db ∈ nx_db nx -> ru_name (db_repo db) <> repo.
Proof.
  unfold set_package_repo. rewrite <- (proj2 (find_repo_spec _ _)).
  destruct (find_repo _ _); done.
Qed.

Lemma set_type_not_default t st : set_type t = Some st -> st <> STDefault.
Proof.
  unfold set_type. destruct (equal_fold t "source"); [by intros [= <-]|].
  destruct (equal_fold t "binary"); [by intros [= <-]|done].
Qed.

Lemma set_package_type_spec nx pkg t nx' :
  set_package_type nx pkg t = Some nx' ->
  (forall q, q <> pkg -> get_package nx' q = get_package nx q) /\
  exists st, set_type t = Some st /\
    forall d c, get_package nx' pkg = Some (d, c) -> pc_type c = st.
Proof.
  unfold set_package_type. destruct (set_type t) as [st|] eqn:F; [|done]. intros [= <-]. split.
  - intros q Hq. apply get_package_other; simpl; [done|done|]. by rewrite lookup_insert_ne.
  - exists st. split; [done|]. intros d c H.
    apply get_package_spec in H as (l1 & db' & l2 & E & (Hw & _) & _).
    apply wanted_type_chosen in Hw. unfold chosen_type in Hw. cbn [nx_packages] in Hw.
    rewrite lookup_insert in Hw. cbn [pc_type] in Hw.
    rewrite decide_False in Hw by (by eapply set_type_not_default). done.
Qed.

(** Pinning to the repository already chosen. *)
Lemma pin_keeps nx pkg d c nx' :
  get_package nx pkg = Some (d, c) -> ru_name (pc_repo c) <> "" ->
  (forall db db', db ∈ nx_db nx -> db' ∈ nx_db nx ->
     ru_name (db_repo db) = ru_name (db_repo db') -> db = db') ->
  (forall db, db ∈ nx_db nx -> db_repo db = pc_repo c -> is_Some (nx_packages nx !! pkg) \/
     db_default db = STDefault \/ db_default db = nx_default nx) ->
  set_package_repo nx pkg (ru_name (pc_repo c)) = Some nx' ->
  get_package nx' pkg = Some (d, c).
Proof.
  intros H Hname0 Hinj Hdef Hs.
  apply get_package_spec in H as (l1 & db & l2 & E & Ho & Hr & Hn).
  unfold set_package_repo in Hs. destruct (find_repo _ _) as [db0|] eqn:F; [|done].
  apply find_repo_spec in F as [F1 F2]. injection Hs as <-.
  assert (db ∈ nx_db nx) as Hin by (rewrite E; apply elem_of_app; right; by left).
  assert (db0 = db) as -> by (apply Hinj; [done|done|congruence]).
  assert (forall x, x ∈ nx_db nx -> x <> db -> ru_name (pc_repo c) <> "" ->
     forall d' st, ~ offers (Nexus (nx_db nx) (<[pkg := PkgConfig (db_repo db)
        (pc_type (default empty_pkg_config (nx_packages nx !! pkg)))]> (nx_packages nx))
        (nx_default nx)) pkg x d' st) as Hpin.
  { intros x Hx Hne Hname d' st (_ & Ha & _). unfold allowed_repo in Ha. cbn [nx_packages] in Ha.
    specialize (Ha _ (lookup_insert _ _ _)). cbn [pc_repo] in Ha. rewrite F2 in Ha.
    apply Hne. symmetry. apply Hinj; [done|done|]. rewrite F2. by apply Ha. }
  assert (chosen_type (Nexus (nx_db nx) (<[pkg := PkgConfig (db_repo db)
        (pc_type (default empty_pkg_config (nx_packages nx !! pkg)))]> (nx_packages nx))
        (nx_default nx)) pkg db = chosen_type nx pkg db) as Hc.
  { unfold chosen_type. cbn [nx_packages nx_default]. rewrite lookup_insert. cbn [pc_type].
    specialize (Hdef db Hin (eq_sym Hr)).
    destruct (nx_packages nx !! pkg) as [c0|]; cbn [default from_option id].
    - done.
    - cbn [pc_type empty_pkg_config]. rewrite decide_True by done.
      destruct Hdef as [[? ?]|[->| ->]]; [done|by rewrite decide_True|].
      case_decide; done. }
  apply get_package_spec. exists l1, db, l2. cbn [nx_db].
  split; [done|]. split; [|split; [done|]].
  - destruct Ho as (Hw & Ha & Hl). split; [|split].
    + apply wanted_type_chosen. rewrite Hc. by apply wanted_type_chosen.
    + intros c0. cbn [nx_packages]. rewrite lookup_insert. intros [= <-] _. done.
    + done.
  - intros x d' st Hx Ho'. assert (x <> db) as Hne.
    { intros ->. by apply (Hn db d (pc_type c) Hx). }
    apply (Hpin x) in Ho'; [done| |done|done]. rewrite E. apply elem_of_app. by left.
Qed.
