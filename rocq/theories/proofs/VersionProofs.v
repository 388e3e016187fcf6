(** Proofs about versions and dependency entries. *)
From stdpp Require Import strings list.
From Coq Require Import Ascii ZArith Lia.
From Verif.model Require Import GoStr Version.
From Verif.spec Require Import VersionSpec.
From Verif.proofs Require Import GoStrLemmas.

Local Open Scope string_scope.

(** ** Order laws of [compare_versions] *)

Definition components (v : version) : list Z :=
  [v_major v; v_minor v; v_patch v; v_dev v; v_other v].

Lemma compare_versions_lex a b :
  compare_versions a b = sign_of (lex_compare (components a) (components b)).
Proof.
  unfold compare_versions, components. simpl.
  rewrite !Z.gtb_ltb. unfold Z.ltb.
  rewrite (Z.compare_antisym (v_major a)), (Z.compare_antisym (v_minor a)),
    (Z.compare_antisym (v_patch a)), (Z.compare_antisym (v_dev a)),
    (Z.compare_antisym (v_other a)).
  repeat match goal with |- context [Z.compare ?x ?y] => destruct (Z.compare x y); simpl end;
    reflexivity.
Qed.

Lemma compare_versions_range a b :
  compare_versions a b = (-1)%Z \/ compare_versions a b = 0%Z \/ compare_versions a b = 1%Z.
Proof. rewrite compare_versions_lex. destruct (lex_compare _ _); simpl; auto. Qed.

Lemma compare_versions_refl a : compare_versions a a = 0%Z.
Proof. unfold compare_versions. rewrite !Z.gtb_ltb, !Z.ltb_irrefl. done. Qed.

Ltac cmp_cases :=
  unfold compare_versions in *; rewrite ?Z.gtb_ltb in *;
  repeat match goal with
  | |- context [Z.ltb ?x ?y] => destruct (Z.ltb_spec x y)
  | H : context [Z.ltb ?x ?y] |- _ => destruct (Z.ltb_spec x y)
  end; try lia.

Lemma compare_versions_antisym a b : compare_versions b a = (- compare_versions a b)%Z.
Proof. cmp_cases. Qed.

Lemma compare_versions_eq a b :
  compare_versions a b = 0%Z <->
  v_major a = v_major b /\ v_minor a = v_minor b /\ v_patch a = v_patch b /\
  v_dev a = v_dev b /\ v_other a = v_other b.
Proof. cmp_cases. Qed.

(** The strict order as a disjunction, for transitivity. *)
Lemma compare_versions_lt a b :
  compare_versions a b = (-1)%Z <->
  (v_major a < v_major b \/ v_major a = v_major b /\
   (v_minor a < v_minor b \/ v_minor a = v_minor b /\
    (v_patch a < v_patch b \/ v_patch a = v_patch b /\
     (v_dev a < v_dev b \/ v_dev a = v_dev b /\ v_other a < v_other b))))%Z.
Proof. cmp_cases. Qed.

Lemma compare_versions_trans a b c :
  (compare_versions a b <= 0 -> compare_versions b c <= 0 -> compare_versions a c <= 0)%Z.
Proof.
  intros H1 H2.
  assert (compare_versions a b = -1 \/ compare_versions a b = 0)%Z as [L1|L1]
    by (destruct (compare_versions_range a b) as [|[|]]; lia);
  assert (compare_versions b c = -1 \/ compare_versions b c = 0)%Z as [L2|L2]
    by (destruct (compare_versions_range b c) as [|[|]]; lia);
  clear H1 H2.
  - enough (compare_versions a c = (-1))%Z by lia. rewrite compare_versions_lt in *. lia.
  - enough (compare_versions a c = (-1))%Z by lia.
    rewrite compare_versions_lt in *. rewrite compare_versions_eq in *. lia.
  - enough (compare_versions a c = (-1))%Z by lia.
    rewrite compare_versions_lt in *. rewrite compare_versions_eq in *. lia.
  - enough (compare_versions a c = 0)%Z by lia. rewrite compare_versions_eq in *. lia.
Qed.

(** ** Numerals *)

Lemma digit_value_digit d : d < 10 -> digit_value (ascii_of_nat (48 + d)) = Some (Z.of_nat d).
Proof. intros H. do 10 (destruct d as [|d]; [reflexivity|]). lia. Qed.

Definition numeral_value_from (n : Z) (ds : numeral) : Z :=
  fold_left (fun acc d => acc * 10 + Z.of_nat d)%Z ds n.

Lemma numeral_value_from_ge n ds : (0 <= n -> n <= numeral_value_from n ds)%Z.
Proof.
  revert n. induction ds as [|d ds IH]; intros n Hn; simpl; [lia|].
  unfold numeral_value_from in *. simpl. specialize (IH (n * 10 + Z.of_nat d)%Z). lia.
Qed.

Lemma parse_uint_loop_numeral n ds :
  (0 <= n)%Z -> Forall (fun d => d < 10) ds -> (numeral_value_from n ds < 2 ^ 63)%Z ->
  parse_uint_loop n (numeral_text ds) = (numeral_value_from n ds, NoError).
Proof.
  revert n. induction ds as [|d ds IH]; intros n Hn Hds Hv; [done|].
  apply Forall_cons in Hds as [Hd Hds].
  cbn [numeral_text parse_uint_loop]. rewrite (digit_value_digit d Hd).
  change (numeral_value_from n (d :: ds)) with (numeral_value_from (n * 10 + Z.of_nat d) ds) in *.
  pose proof (numeral_value_from_ge (n * 10 + Z.of_nat d) ds ltac:(lia)).
  unfold max_uint64. destruct (Z.ltb_spec 18446744073709551615 (n * 10 + Z.of_nat d)); [lia|].
  apply IH; [lia|done|done].
Qed.

Lemma digit_not_sign d : d < 10 ->
  char_eqb (ascii_of_nat (48 + d)) "+"%char = false /\
  char_eqb (ascii_of_nat (48 + d)) "-"%char = false /\
  char_eqb (ascii_of_nat (48 + d)) "."%char = false.
Proof. intros H. do 10 (destruct d as [|d]; [repeat split|]). lia. Qed.

Lemma atoi_numeral ds :
  numeral_ok ds -> (numeral_value ds < 2 ^ 63)%Z ->
  atoi (numeral_text ds) = (numeral_value ds, NoError).
Proof.
  intros [Hne Hds] Hv. destruct ds as [|d ds]; [done|].
  pose proof Hds as Hds'. apply Forall_cons in Hds' as [Hd _].
  unfold atoi. cbn [numeral_text].
  destruct (digit_not_sign d Hd) as (H1 & H2 & _). rewrite H1, H2.
  unfold atoi_signed, parse_uint.
  change (String (ascii_of_nat (48 + d)) (numeral_text ds)) with (numeral_text (d :: ds)).
  rewrite parse_uint_loop_numeral; [|lia|done|exact Hv].
  change (numeral_value_from 0 (d :: ds)) with (numeral_value (d :: ds)).
  unfold int64_cutoff. destruct (Z.leb_spec 9223372036854775808 (numeral_value (d :: ds))); [lia|].
  done.
Qed.

(** ** Integers *)
Lemma digit_value_inv c d : digit_value c = Some d -> exists k, k < 10 /\ c = ascii_of_nat (48 + k) /\ d = Z.of_nat k.
Proof.
  unfold digit_value. destruct (Nat.leb_spec 48 (nat_of_ascii c)); [|done].
  destruct (Nat.leb_spec (nat_of_ascii c) 57); [|done]. cbn [andb]. intros [= <-].
  exists (nat_of_ascii c - 48). split; [lia|]. split; [|lia].
  replace (48 + (nat_of_ascii c - 48)) with (nat_of_ascii c) by lia. by rewrite ascii_nat_embedding.
Qed.

Lemma parse_uint_loop_inv n s k :
  parse_uint_loop n s = (k, NoError) ->
  exists ds, Forall (fun d => d < 10) ds /\ s = numeral_text ds /\ k = numeral_value_from n ds.
Proof.
  revert n. induction s as [|c s IH]; intros n H; cbn [parse_uint_loop] in H.
  - injection H as <-. by exists [].
  - destruct (digit_value c) as [d|] eqn:E; [|done].
    apply digit_value_inv in E as (x & Hx & -> & ->).
    destruct (Z.ltb_spec max_uint64 (n * 10 + Z.of_nat x)); [done|].
    apply IH in H as (ds & H1 & -> & ->). exists (x :: ds). split; [by constructor|]. done.
Qed.

Lemma parse_uint_loop_numeral64 n ds :
  (0 <= n)%Z -> Forall (fun d => d < 10) ds -> (numeral_value_from n ds <= max_uint64)%Z ->
  parse_uint_loop n (numeral_text ds) = (numeral_value_from n ds, NoError).
Proof.
  revert n. induction ds as [|d ds IH]; intros n Hn Hds Hv; [done|].
  apply Forall_cons in Hds as [Hd Hds].
  cbn [numeral_text parse_uint_loop]. rewrite (digit_value_digit d Hd).
  change (numeral_value_from n (d :: ds)) with (numeral_value_from (n * 10 + Z.of_nat d) ds) in *.
  pose proof (numeral_value_from_ge (n * 10 + Z.of_nat d) ds ltac:(lia)).
  destruct (Z.ltb_spec max_uint64 (n * 10 + Z.of_nat d)); [lia|].
  apply IH; [lia|done|done].
Qed.

Lemma parse_uint_spec s k :
  parse_uint s = (k, NoError) <-> exists ds, numeral_ok ds /\ s = numeral_text ds /\
    k = numeral_value ds /\ (k <= max_uint64)%Z.
Proof.
  split.
  - intros H. assert (s <> "") as N by (by intros ->).
    assert (parse_uint_loop 0 s = (k, NoError)) as H' by (by destruct s).
    assert (k <= max_uint64)%Z as L.
    { clear N H. assert (0 <= max_uint64)%Z as Z0 by (unfold max_uint64; lia). revert H' Z0. generalize 0%Z as n.
      induction s as [|c s IH]; intros n H Hn; cbn [parse_uint_loop] in H; [by injection H as <-|].
      destruct (digit_value c) as [d|]; [|done].
      destruct (Z.ltb_spec max_uint64 (n * 10 + d)); [done|]. by apply IH in H. }
    apply parse_uint_loop_inv in H' as (ds & H1 & -> & ->). exists ds. split; [|done].
    split; [|done]. by intros ->.
  - intros (ds & [H1 H2] & -> & -> & L). unfold parse_uint.
    destruct ds as [|d ds]; [done|]. cbn [numeral_text].
    change (String (ascii_of_nat (48 + d)) (numeral_text ds)) with (numeral_text (d :: ds)).
    by apply parse_uint_loop_numeral64.
Qed.

Lemma numeral_value_nonneg ds : (0 <= numeral_value ds)%Z.
Proof. apply (numeral_value_from_ge 0). lia. Qed.

Lemma atoi_signed_spec neg s z :
  atoi_signed neg s = (z, NoError) <-> exists ds, numeral_ok ds /\ s = numeral_text ds /\
    (if neg then z = - numeral_value ds /\ - 2 ^ 63 <= z else z = numeral_value ds /\ z < 2 ^ 63)%Z.
Proof.
  unfold atoi_signed. split.
  - destruct (parse_uint s) as [un e] eqn:E. intros H. assert (e = NoError) as ->.
    { destruct e; [done|done|]. destruct neg.
      - destruct (Z.ltb int64_cutoff un); done.
      - destruct (Z.leb int64_cutoff un); done. }
    apply parse_uint_spec in E as (ds & H1 & -> & -> & L). exists ds. split; [done|]. split; [done|].
    unfold int64_cutoff in H. destruct neg.
    + destruct (Z.ltb_spec 9223372036854775808 (numeral_value ds)); [done|]. injection H as <-. lia.
    + destruct (Z.leb_spec 9223372036854775808 (numeral_value ds)); [done|]. injection H as <-. lia.
  - intros (ds & H1 & -> & H). pose proof (numeral_value_nonneg ds).
    assert (parse_uint (numeral_text ds) = (numeral_value ds, NoError)) as ->.
    { apply parse_uint_spec. exists ds. split; [done|]. split; [done|]. split; [done|].
      unfold max_uint64. destruct neg; lia. }
    unfold int64_cutoff. destruct neg; destruct H as [-> H].
    + destruct (Z.ltb_spec 9223372036854775808 (numeral_value ds)); [lia|done].
    + destruct (Z.leb_spec 9223372036854775808 (numeral_value ds)); [lia|done].
Qed.

Lemma atoi_spec s z : atoi s = (z, NoError) <-> int_text s z.
Proof.
  unfold int_text. split.
  - destruct s as [|c s]; [done|]. unfold atoi.
    destruct (char_eqb c "+") eqn:Ep.
    { apply Ascii.eqb_eq in Ep as ->. intros H. apply atoi_signed_spec in H as (ds & H1 & -> & H2 & H3).
      exists ds. split; [done|]. left. split; [by right|]. done. }
    destruct (char_eqb c "-") eqn:Em.
    { apply Ascii.eqb_eq in Em as ->. intros H. apply atoi_signed_spec in H as (ds & H1 & -> & H2 & H3).
      exists ds. split; [done|]. right. done. }
    intros H. apply atoi_signed_spec in H as (ds & H1 & E & H2 & H3).
    exists ds. split; [done|]. left. split; [by left|]. done.
  - intros (ds & H1 & [[[->| ->] [-> H]]|(-> & -> & H)]).
    + destruct ds as [|d ds]; [by destruct H1|]. pose proof H1 as [_ Hd]. apply Forall_cons in Hd as [Hd _].
      destruct (digit_not_sign d Hd) as (E1 & E2 & _). unfold atoi. cbn [numeral_text]. rewrite E1, E2.
      apply atoi_signed_spec. exists (d :: ds). done.
    + apply atoi_signed_spec. by exists ds.
    + apply (atoi_signed_spec true). by exists ds.
Qed.

Lemma numeral_no_sep ds : Forall (fun d => d < 10) ds ->
  all_bytes (fun c => negb (is_version_sep c)) (numeral_text ds) = true.
Proof.
  induction 1 as [|d ds Hd Hds IH]; [done|]. cbn [numeral_text all_bytes]. rewrite IH.
  destruct (digit_not_sign d Hd) as (_ & H2 & H3). unfold is_version_sep. by rewrite H2, H3.
Qed.

Lemma separator_is_sep s : is_version_sep (separator_char s) = true.
Proof. by destruct s. Qed.

(** The split of a version text: at most three leading numerals, the rest is kept whole. *)
Lemma split_tail n ds l :
  Forall (fun d => d < 10) ds ->
  Forall (fun ds => Forall (fun d => d < 10) ds) l.*2 ->
  length l <= n ->
  split_on_n is_version_sep (S n) (numeral_text ds +:+ tail_text l) =
  numeral_text <$> (ds :: l.*2).
Proof.
  revert n ds. induction l as [|[s e] l IH]; intros n ds Hds Hl Hn; simpl in *.
  - rewrite app_nil_str. by apply split_on_n_none, numeral_no_sep.
  - destruct n as [|n]; [lia|]. apply Forall_cons in Hl as [He Hl].
    rewrite split_on_n_app; [|by apply numeral_no_sep|apply separator_is_sep].
    f_equal. rewrite IH; [done|done|done|lia].
Qed.

Lemma vtext_ok_digits v : vtext_ok v ->
  Forall (fun d => d < 10) (vt_head v) /\
  Forall (fun ds => Forall (fun d => d < 10) ds) (vt_tail v).*2.
Proof.
  intros H. unfold vtext_ok, vtext_numerals in H. apply Forall_cons in H as [[[_ H] _] H2].
  split; [done|]. eapply Forall_impl; [done|]. intros x [[_ ?] _]; done.
Qed.

(** What [parse_version] computes on a version text with at most four components. *)
Lemma parse_version_vtext v :
  vtext_ok v -> 2 <= length (vtext_numerals v) <= 4 ->
  parse_version (vtext_text v) =
  let z k := default 0%Z (vtext_values v !! k) in
  Some (Version (z 0) (z 1) (z 2) (z 3) 0 (vtext_text v)).
Proof.
  intros Hok [Hl1 Hl2]. destruct (vtext_ok_digits v Hok) as [Hh Ht].
  unfold vtext_numerals in Hl1, Hl2; simpl in Hl1, Hl2; rewrite fmap_length in Hl1, Hl2.
  assert (split_on_n is_version_sep 4 (vtext_text v) = numeral_text <$> vtext_numerals v) as E.
  { unfold vtext_text. rewrite (split_tail 3); [done|done|done|lia]. }
  unfold parse_version. rewrite E. generalize (vtext_text v). clear E.
  unfold vtext_ok in Hok. unfold vtext_values, vtext_numerals in *.
  destruct v as [h t]; simpl in *.
  assert (forall ds, numeral_ok ds /\ (numeral_value ds < 2 ^ 63)%Z ->
    fst (atoi (numeral_text ds)) = numeral_value ds) as A.
  { intros ds [H1 H2]. by rewrite atoi_numeral. }
  apply Forall_cons in Hok as [Ok0 Hok].
  destruct t as [|[s1 n1] t]; simpl in *; [lia|].
  apply Forall_cons in Hok as [Ok1 Hok]. rewrite (A _ Ok0), (A _ Ok1).
  destruct t as [|[s2 n2] t]; simpl in *; [done|].
  apply Forall_cons in Hok as [Ok2 Hok]. rewrite (A _ Ok2).
  destruct t as [|[s3 n3] t]; simpl in *; [done|].
  apply Forall_cons in Hok as [Ok3 Hok]. rewrite (A _ Ok3).
  destruct t as [|[s4 n4] t]; simpl in *; [done|lia].
Qed.

Lemma lex_compare_pad4 l k :
  length l <= 4 -> length k <= 4 ->
  let z (l : list Z) n := default 0%Z (l !! n) in
  lex_compare [z l 0; z l 1; z l 2; z l 3; 0%Z] [z k 0; z k 1; z k 2; z k 3; 0%Z] = lex_compare l k.
Proof.
  intros Hl Hk.
  assert (forall x, Z.compare 0 x = CompOpp (Z.compare x 0)) as O
    by (intros; apply Z.compare_antisym).
  destruct l as [|? [|? [|? [|? [|? l]]]]], k as [|? [|? [|? [|? [|? k]]]]]; simpl in *;
    try lia; rewrite ?O;
    repeat match goal with |- context [Z.compare ?x ?y] => destruct (Z.compare x y); simpl end;
    reflexivity.
Qed.

Lemma compare_strings_numeric a b :
  vtext_ok a -> vtext_ok b ->
  2 <= length (vtext_numerals a) <= 4 -> 2 <= length (vtext_numerals b) <= 4 ->
  compare_version_strings (vtext_text a) (vtext_text b) =
  Some (sign_of (lex_compare (vtext_values a) (vtext_values b))).
Proof.
  intros Ha Hb La Lb. unfold compare_version_strings.
  rewrite (parse_version_vtext a Ha La), (parse_version_vtext b Hb Lb).
  cbv beta iota zeta. rewrite compare_versions_lex. unfold components. cbn [v_major v_minor v_patch v_dev v_other].
  rewrite lex_compare_pad4; [done| |];
    unfold vtext_values; rewrite fmap_length; lia.
Qed.

(** Versions with five or more components: the fourth part does not parse. *)
Lemma parse_uint_loop_sep n ds c s :
  digit_value c = None -> Forall (fun d => d < 10) ds -> (0 <= n)%Z ->
  (numeral_value_from n ds < 2 ^ 63)%Z ->
  parse_uint_loop n (numeral_text ds +:+ String c s) = (0%Z, SyntaxError).
Proof.
  intros Hc. revert n. induction ds as [|d ds IH]; intros n Hds Hn Hv.
  - simpl. by rewrite Hc.
  - apply Forall_cons in Hds as [Hd Hds].
    change (numeral_text (d :: ds) +:+ String c s) with
      (String (ascii_of_nat (48 + d)) (numeral_text ds +:+ String c s)).
    cbn [parse_uint_loop]. rewrite (digit_value_digit d Hd).
    change (numeral_value_from n (d :: ds)) with (numeral_value_from (n * 10 + Z.of_nat d) ds) in *.
    pose proof (numeral_value_from_ge (n * 10 + Z.of_nat d) ds ltac:(lia)).
    unfold max_uint64. destruct (Z.ltb_spec 18446744073709551615 (n * 10 + Z.of_nat d)); [lia|].
    apply IH; [done|lia|done].
Qed.

Lemma atoi_with_sep ds c s :
  digit_value c = None -> numeral_ok ds -> (numeral_value ds < 2 ^ 63)%Z ->
  fst (atoi (numeral_text ds +:+ String c s)) = 0%Z.
Proof.
  intros Hc [Hne Hds] Hv. destruct ds as [|d ds]; [done|].
  pose proof Hds as Hds'. apply Forall_cons in Hds' as [Hd _].
  unfold atoi.
  change (numeral_text (d :: ds) +:+ String c s) with
    (String (ascii_of_nat (48 + d)) (numeral_text ds +:+ String c s)).
  destruct (digit_not_sign d Hd) as (H1 & H2 & _). rewrite H1, H2.
  unfold atoi_signed, parse_uint.
  change (String (ascii_of_nat (48 + d)) (numeral_text ds +:+ String c s)) with
    (numeral_text (d :: ds) +:+ String c s).
  rewrite parse_uint_loop_sep; [done|done|done|lia|exact Hv].
Qed.

Lemma parse_version_long v n0 n1 n2 n3 n4 rest s1 s2 s3 s4 :
  v = VText n0 ((s1, n1) :: (s2, n2) :: (s3, n3) :: (s4, n4) :: rest) ->
  vtext_ok v ->
  parse_version (vtext_text v) =
  Some (Version (numeral_value n0) (numeral_value n1) (numeral_value n2) 0 0 (vtext_text v)).
Proof.
  intros -> Hok. destruct (vtext_ok_digits _ Hok) as [Hh Ht]. simpl in Hh, Ht.
  repeat match goal with H : Forall _ (_ :: _) |- _ => apply Forall_cons in H as [? H] end.
  match goal with |- parse_version ?x = _ =>
    assert (split_on_n is_version_sep 4 x =
      [numeral_text n0; numeral_text n1; numeral_text n2;
       numeral_text n3 +:+ tail_text ((s4, n4) :: rest)]) as E end.
  { unfold vtext_text. cbn [tail_text vt_head vt_tail].
    rewrite split_on_n_app; [|by apply numeral_no_sep|apply separator_is_sep].
    rewrite split_on_n_app; [|by apply numeral_no_sep|apply separator_is_sep].
    rewrite split_on_n_app; [|by apply numeral_no_sep|apply separator_is_sep].
    by rewrite split_on_n_one. }
  unfold parse_version. rewrite E. simpl.
  unfold vtext_ok, vtext_numerals in Hok; simpl in Hok.
  repeat match goal with H : Forall _ (_ :: _) |- _ => apply Forall_cons in H as [[? ?] H] end.
  rewrite atoi_with_sep; [|by destruct s4|done|done].
  rewrite !atoi_numeral by done. done.
Qed.

Lemma lex_compare_prefix3 a0 a1 a2 b0 b1 b2 la lb c :
  lex_compare [a0; a1; a2] [b0; b1; b2] = c -> c <> Eq ->
  lex_compare (a0 :: a1 :: a2 :: la) (b0 :: b1 :: b2 :: lb) = c.
Proof.
  simpl. destruct (Z.compare a0 b0), (Z.compare a1 b1), (Z.compare a2 b2); congruence.
Qed.

(** The first three components are always read correctly. *)
Lemma parse_version_first3 v :
  vtext_ok v -> 2 <= length (vtext_numerals v) ->
  exists ver, parse_version (vtext_text v) = Some ver /\
  v_major ver = default 0%Z (vtext_values v !! 0) /\
  v_minor ver = default 0%Z (vtext_values v !! 1) /\
  v_patch ver = default 0%Z (vtext_values v !! 2) /\
  v_other ver = 0%Z /\
  (length (vtext_numerals v) <= 4 -> v_dev ver = default 0%Z (vtext_values v !! 3)) /\
  (5 <= length (vtext_numerals v) -> v_dev ver = 0%Z).
Proof.
  intros Hok Hl. destruct (decide (length (vtext_numerals v) <= 4)) as [L|L].
  - eexists. split; [by apply parse_version_vtext|]. cbv zeta. cbn [v_major v_minor v_patch v_dev v_other]. repeat split; try done; intros; lia.
  - destruct v as [n0 t].
    destruct t as [|[s1 n1] [|[s2 n2] [|[s3 n3] [|[s4 n4] t]]]]; simpl in *; try lia.
    eexists. split; [by eapply parse_version_long|]. simpl. repeat split; auto; lia.
Qed.

Lemma compare_first3 a b va vb :
  v_major a = default 0%Z (va !! 0) -> v_minor a = default 0%Z (va !! 1) ->
  v_patch a = default 0%Z (va !! 2) ->
  v_major b = default 0%Z (vb !! 0) -> v_minor b = default 0%Z (vb !! 1) ->
  v_patch b = default 0%Z (vb !! 2) ->
  lex_compare (take 3 va) (take 3 vb) <> Eq ->
  compare_versions a b = sign_of (lex_compare va vb).
Proof.
  rewrite compare_versions_lex. unfold components.
  intros -> -> -> -> -> -> H. f_equal.
  assert (forall x, Z.compare 0 x = CompOpp (Z.compare x 0)) as O
    by (intros; apply Z.compare_antisym).
  destruct va as [|? [|? [|? va]]], vb as [|? [|? [|? vb]]]; simpl in *; rewrite ?O in *;
  repeat match goal with
    | |- context [Z.compare ?x ?y] => destruct (Z.compare x y); simpl in * end; congruence.
Qed.

Lemma compare_strings_first3 a b :
  vtext_ok a -> vtext_ok b ->
  2 <= length (vtext_numerals a) -> 2 <= length (vtext_numerals b) ->
  lex_compare (take 3 (vtext_values a)) (take 3 (vtext_values b)) <> Eq ->
  compare_version_strings (vtext_text a) (vtext_text b) =
  Some (sign_of (lex_compare (vtext_values a) (vtext_values b))).
Proof.
  intros Ha Hb La Lb Hne. unfold compare_version_strings.
  destruct (parse_version_first3 a Ha La) as (va & -> & A0 & A1 & A2 & _).
  destruct (parse_version_first3 b Hb Lb) as (vb & -> & B0 & B1 & B2 & _).
  f_equal. by apply compare_first3.
Qed.

(** ** Totality *)

Lemma split_on_n_length_ge2 f n s :
  length (split_on_n f (S (S n)) s) = 1 <-> all_bytes (fun c => negb (f c)) s = true.
Proof.
  split.
  - destruct (first_byte_dec f s) as [H|(w & c & r & -> & H1 & H2)]; [done|].
    rewrite split_on_n_app by done. simpl.
    destruct (split_on_n f (S n) r) eqn:E; simpl; [|lia].
    exfalso. destruct (first_byte_dec f r) as [H|(w' & c' & r' & -> & H1' & H2')].
    + by rewrite split_on_n_none in E.
    + destruct n; [by rewrite split_on_n_one in E|]. by rewrite split_on_n_app in E.
  - intros H. by rewrite split_on_n_none.
Qed.

Lemma parse_version_panics v :
  parse_version v = None <-> all_bytes (fun c => negb (is_version_sep c)) v = true.
Proof.
  rewrite <- (split_on_n_length_ge2 _ 2). unfold parse_version.
  destruct (split_on_n is_version_sep 4 v) as [|p [|q l]] eqn:E; simpl.
  - exfalso. destruct (first_byte_dec is_version_sep v) as [H|(w & c & r & -> & H1 & H2)].
    + by rewrite split_on_n_none in E.
    + by rewrite split_on_n_app in E.
  - done.
  - split; [done|lia].
Qed.

(** ** Dependency entries *)

Definition is_op_char (c : ascii) : bool :=
  char_eqb c "<"%char || char_eqb c ">"%char || char_eqb c "="%char.

Lemma parse_version_string v ver : parse_version v = Some ver -> v_string ver = v.
Proof.
  unfold parse_version. destruct (split_on_n _ _ _) as [|? [|? ?]]; [done|done|]. by intros [= <-].
Qed.

Lemma contains_skip c p a b :
  all_bytes (fun d => negb (char_eqb c d)) a = true ->
  contains (String c p) (a +:+ b) = contains (String c p) b.
Proof.
  induction a as [|d a IH]; simpl; [done|]. intros [H1 H2]%andb_true_iff.
  apply negb_true_iff in H1. rewrite <- (IH H2).
  unfold contains at 1. simpl. unfold has_prefix. simpl. rewrite H1.
  unfold contains. by destruct (index_of _ _).
Qed.

Lemma contains_step sub d s :
  contains sub (String d s) = has_prefix sub (String d s) || contains sub s.
Proof.
  unfold contains at 1. simpl. destruct (has_prefix _ _); [done|].
  unfold contains. by destruct (index_of sub s).
Qed.

Lemma contains_absent c p s :
  all_bytes (fun d => negb (char_eqb c d)) s = true -> contains (String c p) s = false.
Proof.
  intros H. rewrite <- (app_nil_str s). rewrite contains_skip by done. done.
Qed.

Lemma has_prefix_absent c p s :
  all_bytes (fun d => negb (char_eqb c d)) s = true -> has_prefix (String c p) s = false.
Proof.
  destruct s as [|d s]; [done|]. simpl. intros [H1 _]%andb_true_iff.
  unfold has_prefix; simpl. apply negb_true_iff in H1. by rewrite H1.
Qed.

Definition not_char (c d : ascii) : bool := negb (char_eqb c d).

Lemma space_not c : is_space c = true ->
  is_op_char c = false /\ char_eqb "(" c = false /\ char_eqb ")" c = false.
Proof.
  intros H. destruct c as [[] [] [] [] [] [] [] []]; try discriminate H; repeat split.
Qed.

Lemma not_op c : is_op_char c = false ->
  not_char "<" c = true /\ not_char ">" c = true /\ not_char "=" c = true.
Proof.
  unfold is_op_char, not_char. rewrite !orb_false_iff. intros [[H1 H2] H3].
  repeat split; apply negb_true_iff, char_eqb_neq; intros <-; by rewrite char_eqb_refl in *.
Qed.

(** A version text as it may appear inside a dependency entry. *)
Definition plain_char (c : ascii) : bool :=
  negb (is_op_char c) && negb (char_eqb "(" c) && negb (char_eqb ")" c) && negb (is_space c).

Definition quiet (c : ascii) : bool :=
  negb (is_op_char c) && negb (char_eqb "(" c) && negb (char_eqb ")" c).

Lemma plain_quiet c : plain_char c = true -> quiet c = true.
Proof. unfold plain_char, quiet. by intros [? _]%andb_true_iff. Qed.
Lemma space_quiet c : is_space c = true -> quiet c = true.
Proof. intros H. destruct (space_not c H) as (H1 & H2 & H3). unfold quiet. by rewrite H1, H2, H3. Qed.

Lemma quiet_op c : quiet c = true -> negb (is_op_char c) = true.
Proof. unfold quiet. by intros [[? _]%andb_true_iff _]%andb_true_iff. Qed.

Definition op_text (c : constraint) : string :=
  match c with
  | CEquals => "==" | CGTE => ">=" | CGT => ">" | CLTE => "<=" | CLT => "<" | CNone => ""
  end.

Section op_tests.
  Variables (a t : string).
  Hypothesis Ha : all_bytes (fun c => negb (is_op_char c)) a = true.
  Hypothesis Ht : all_bytes (fun c => negb (is_op_char c)) t = true.

  Lemma op_free s : all_bytes (fun c => negb (is_op_char c)) s = true ->
    all_bytes (fun d => negb (char_eqb "<" d)) s = true /\
    all_bytes (fun d => negb (char_eqb ">" d)) s = true /\
    all_bytes (fun d => negb (char_eqb "=" d)) s = true.
  Proof.
    intros H. repeat split; (eapply all_bytes_impl; [|exact H]);
      intros c Hc; simpl in *; apply negb_true_iff in Hc; destruct (not_op c Hc) as (?&?&?); done.
  Qed.

  Lemma op_contains o sub :
    In sub ["=="; ">="; ">"; "<="; "<"] ->
    contains sub (a +:+ op_text o +:+ t) = contains sub (op_text o).
  Proof.
    destruct (op_free a Ha) as (A1 & A2 & A3). destruct (op_free t Ht) as (T1 & T2 & T3).
    intros Hin. simpl in Hin.
    destruct Hin as [<-|[<-|[<-|[<-|[<-|[]]]]]]; rewrite contains_skip by done;
      destruct o; cbn [op_text String.append];
      rewrite ?contains_step, ?contains_absent by done;
      (destruct t as [|d t'];
       [vm_compute; reflexivity|
        simpl in T1, T2, T3; apply andb_true_iff in T1 as [T1 _], T2 as [T2 _], T3 as [T3 _];
        apply negb_true_iff in T1, T2, T3;
        unfold has_prefix; simpl; rewrite ?T1, ?T2, ?T3; reflexivity]).
  Qed.
End op_tests.

Lemma parse_dep_entry w0 name w1 w2 w3 ver w4 w5 o v :
  all_bytes is_space w0 = true -> all_bytes is_space w1 = true ->
  all_bytes is_space w2 = true -> all_bytes is_space w3 = true ->
  all_bytes is_space w4 = true -> all_bytes is_space w5 = true ->
  trimmed is_space name -> name <> "" -> all_bytes (fun c => negb (char_eqb "(" c)) name = true ->
  all_bytes plain_char ver = true -> ver <> "" -> parse_version ver = Some v ->
  o <> CNone ->
  parse_dep (w0 +:+ name +:+ w1 +:+ "(" +:+ w2 +:+ op_text o +:+ w3 +:+ ver +:+ w4 +:+ ")" +:+ w5)
  = Some (Dep name v o).
Proof.
  intros Hw0 Hw1 Hw2 Hw3 Hw4 Hw5 Hname Hne Hparen Hver Hvne Hv Ho.
  assert (forall s, all_bytes is_space s = true ->
    all_bytes (fun c => negb (char_eqb "(" c)) s = true /\
    all_bytes (fun c => negb (char_eqb ")" c)) s = true /\
    all_bytes (fun c => negb (is_op_char c)) s = true) as SP.
  { intros s Hs. repeat split; (eapply (all_bytes_impl is_space); [|exact Hs]); intros c Hc;
      destruct (space_not c Hc) as (E1 & E2 & E3); by rewrite ?E1, ?E2, ?E3. }
  assert (all_bytes (fun c => negb (char_eqb "(" c)) ver = true /\
    all_bytes (fun c => negb (char_eqb ")" c)) ver = true /\
    all_bytes (fun c => negb (is_op_char c)) ver = true /\
    all_bytes (fun c => negb (is_space c)) ver = true) as (V1 & V2 & V3 & V4).
  { repeat split; (eapply all_bytes_impl; [|exact Hver]); intros c Hc; simpl;
      unfold plain_char in Hc; rewrite !andb_true_iff in Hc; tauto. }
  destruct (SP _ Hw0) as (P0 & _ & _). destruct (SP _ Hw1) as (P1 & _ & _).
  destruct (SP _ Hw2) as (P2 & Q2 & R2). destruct (SP _ Hw3) as (P3 & Q3 & R3).
  destruct (SP _ Hw4) as (P4 & Q4 & R4). destruct (SP _ Hw5) as (P5 & Q5 & R5).
  unfold parse_dep, split_char.
  replace (w0 +:+ name +:+ w1 +:+ "(" +:+ w2 +:+ op_text o +:+ w3 +:+ ver +:+ w4 +:+ ")" +:+ w5)
    with ((w0 +:+ name +:+ w1) +:+ String "(" (w2 +:+ op_text o +:+ w3 +:+ ver +:+ w4 +:+ ")" +:+ w5))
    by (rewrite !app_assoc_str; done).
  rewrite split_on_app; [|rewrite !all_bytes_app, P0, Hparen, P1; done|done].
  assert (all_bytes (fun c => negb (char_eqb "(" c)) (op_text o) = true) as O1 by (by destruct o).
  assert (all_bytes (fun c => negb (char_eqb ")" c)) (op_text o) = true) as O2 by (by destruct o).
  rewrite split_on_none by (rewrite !all_bytes_app, P2, O1, P3, V1, P4, P5; done).
  assert (trim_space (w0 +:+ name +:+ w1) = name) as -> by (by apply trim_app).
  set (t := w3 +:+ ver +:+ w4 +:+ w5).
  replace (replace1 ")" "" (w2 +:+ op_text o +:+ w3 +:+ ver +:+ w4 +:+ ")" +:+ w5))
    with (w2 +:+ op_text o +:+ t).
  2:{ replace (w2 +:+ op_text o +:+ w3 +:+ ver +:+ w4 +:+ ")" +:+ w5) with
        ((w2 +:+ op_text o +:+ w3 +:+ ver +:+ w4) +:+ String ")" "" +:+ w5)
        by (rewrite !app_assoc_str; done).
      rewrite replace1_app by (rewrite !all_bytes_app, Q2, O2, Q3, V2, Q4; done).
      unfold t. rewrite !app_assoc_str. done. }
  assert (all_bytes (fun c => negb (is_op_char c)) t = true) as Tq
    by (unfold t; rewrite !all_bytes_app, R3, V3, R4, R5; done).
  destruct (op_free w2 R2) as (W1 & W2 & W3).
  assert (forall sp, all_bytes is_space sp = true ->
    parse_version (trim_space (w2 +:+ sp +:+ t)) = Some v) as PV.
  { intros sp Hsp. unfold t, trim_space.
    replace (w2 +:+ sp +:+ w3 +:+ ver +:+ w4 +:+ w5) with
      ((w2 +:+ sp +:+ w3) +:+ ver +:+ (w4 +:+ w5)) by (rewrite !app_assoc_str; done).
    rewrite trim_app; [done| | |by apply trimmed_forall|done];
      rewrite !all_bytes_app, ?Hw2, ?Hsp, ?Hw3, ?Hw4, ?Hw5; done. }
  rewrite !op_contains by (try done; simpl; tauto).
  destruct o; [done|..];
    repeat match goal with |- context [contains ?x (op_text ?y)] =>
        let r := eval vm_compute in (contains x (op_text y)) in
        change (contains x (op_text y)) with r; cbv iota end;
    cbn [op_text]; rewrite replace1_app by done; rewrite PV by done; done.
Qed.

Lemma parse_dep_bare w0 name w1 :
  all_bytes is_space w0 = true -> all_bytes is_space w1 = true ->
  trimmed is_space name -> name <> "" -> all_bytes (fun c => negb (char_eqb "(" c)) name = true ->
  parse_dep (w0 +:+ name +:+ w1) = Some (Dep name zero_version CNone).
Proof.
  intros Hw0 Hw1 Hn Hne Hp. unfold parse_dep, split_char.
  rewrite split_on_none.
  - unfold trim_space. by rewrite trim_app.
  - rewrite !all_bytes_app, Hp.
    rewrite !(all_bytes_impl is_space (fun c => negb (char_eqb "(" c))); try done;
      intros c Hc; by destruct (space_not c Hc) as (_ & -> & _).
Qed.

Lemma parse_dep_print d :
  dep_constraint d <> CNone ->
  trimmed is_space (dep_name d) -> dep_name d <> "" ->
  all_bytes (fun c => negb (char_eqb "(" c)) (dep_name d) = true ->
  all_bytes plain_char (v_string (dep_version d)) = true -> v_string (dep_version d) <> "" ->
  parse_version (v_string (dep_version d)) = Some (dep_version d) ->
  parse_dep (dep_to_string d) = Some d.
Proof.
  intros. destruct d as [n v o]; simpl in *. unfold dep_to_string; simpl.
  replace (constraint_to_string o) with (op_text o) by (by destruct o).
  apply (parse_dep_entry "" n " " "" " " (v_string v) "" "" o v); done.
Qed.

(** ** Statements in the vocabulary of the specification *)

Definition constraint_of (o : relop) : constraint :=
  match o with OpEq => CEquals | OpGe => CGTE | OpGt => CGT | OpLe => CLTE | OpLt => CLT end.

Lemma constraint_of_text o : op_text (constraint_of o) = relop_text o.
Proof. by destruct o. Qed.

Lemma word_trimmed bad s : word_without bad s -> trimmed is_space s /\ s <> "".
Proof.
  intros [H1 H2]. split; [|done]. apply trimmed_forall. eapply all_bytes_impl; [|exact H2].
  intros c [Hc _]%andb_true_iff. by rewrite <- white_is_space.
Qed.

Lemma word_no_paren s : word_without "()<>=" s ->
  all_bytes (fun c => negb (char_eqb "(" c)) s = true /\ all_bytes plain_char s = true.
Proof.
  intros [H1 H2]. split; (eapply all_bytes_impl; [|exact H2]);
    intros c [Hw Hc]%andb_true_iff; apply negb_true_iff in Hc; cbn [one_of] in Hc;
    rewrite !orb_false_iff in Hc; destruct Hc as (C1 & C2 & C3 & C4 & C5 & _).
  - by apply negb_true_iff.
  - unfold plain_char, is_op_char. rewrite white_is_space in Hw. rewrite Hw.
    unfold char_eqb in *. rewrite C1, C2.
    rewrite (Ascii.eqb_sym c "<"), (Ascii.eqb_sym c ">"), (Ascii.eqb_sym c "=").
    by rewrite C3, C4, C5.
Qed.

Lemma all_white s : all_bytes white s = all_bytes is_space s.
Proof. apply all_bytes_ext, white_is_space. Qed.

Lemma parse_dep_entry_spec name ver o w0 w1 w2 w3 w4 w5 v :
  word_without "()<>=" name -> word_without "()<>=" ver -> parse_version ver = Some v ->
  Forall (fun w => all_bytes white w = true) [w0; w1; w2; w3; w4; w5] ->
  parse_dep (w0 +:+ name +:+ w1 +:+ "(" +:+ w2 +:+ relop_text o +:+ w3 +:+ ver +:+ w4 +:+ ")" +:+ w5)
  = Some (Dep name v (constraint_of o)).
Proof.
  intros Hn Hv Hp Hw.
  repeat match goal with H : Forall _ (_ :: _) |- _ => apply Forall_cons in H as [? H] end.
  rewrite all_white in *.
  destruct (word_trimmed _ _ Hn), (word_trimmed _ _ Hv), (word_no_paren _ Hn), (word_no_paren _ Hv).
  rewrite <- constraint_of_text. apply parse_dep_entry; try done. by destruct o.
Qed.

Lemma parse_dep_bare_spec name w0 w1 :
  word_without "()<>=" name -> all_bytes white w0 = true -> all_bytes white w1 = true ->
  parse_dep (w0 +:+ name +:+ w1) = Some (Dep name zero_version CNone).
Proof.
  intros Hn H0 H1. rewrite all_white in *.
  destruct (word_trimmed _ _ Hn), (word_no_paren _ Hn). by apply parse_dep_bare.
Qed.

Lemma parse_dep_print_spec d :
  dep_constraint d <> CNone ->
  word_without "()<>=" (dep_name d) -> word_without "()<>=" (v_string (dep_version d)) ->
  parse_version (v_string (dep_version d)) = Some (dep_version d) ->
  parse_dep (dep_to_string d) = Some d.
Proof.
  intros Hc Hn Hv Hp.
  destruct (word_trimmed _ _ Hn), (word_trimmed _ _ Hv), (word_no_paren _ Hn), (word_no_paren _ Hv).
  by apply parse_dep_print.
Qed.

(** [Versions.Less] misses no difference outside of the patch component, and agrees
    when no component goes the other way. *)
Lemma is_lower_version_complete a b : v_patch a = v_patch b ->
  compare_versions a b = (-1)%Z -> is_lower_version a b = true.
Proof. intros. unfold is_lower_version. cmp_cases; (done || lia). Qed.

Lemma is_lower_version_agrees a b : v_patch a = v_patch b ->
  (v_major a <= v_major b /\ v_minor a <= v_minor b /\ v_dev a <= v_dev b /\ v_other a <= v_other b \/
   v_major b <= v_major a /\ v_minor b <= v_minor a /\ v_dev b <= v_dev a /\ v_other b <= v_other a)%Z ->
  is_lower_version a b = true <-> compare_versions a b = (-1)%Z.
Proof.
  intros. unfold is_lower_version. cmp_cases; split; (done || lia).
Qed.
