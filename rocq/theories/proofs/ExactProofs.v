From stdpp Require Import strings list gmap.
From Coq Require Import Ascii ZArith Lia.
From Verif.model Require Import GoStr Version Yml.
From Verif.spec Require Import StrSpec EnvSpec VersionSpec YmlSpec ExactSpec.
From Verif.proofs Require Import GoStrLemmas VersionProofs YmlProofs.

Local Open Scope string_scope.
Local Arguments Ascii.eqb : simpl never.
Local Arguments char_eqb : simpl never.

(** * Versions *)

Lemma loop_exact s : forall n, (0 <= n <= max_uint64)%Z ->
  parse_uint_loop n s =
    let '(ds, rest) := leading_digits s in
    if (2 ^ 64 <=? numeral_value_from n ds)%Z then (max_uint64, RangeError)
    else if String.eqb rest "" then (numeral_value_from n ds, NoError) else (0%Z, SyntaxError).
Proof.
  assert (max_uint64 = 2 ^ 64 - 1)%Z as Em by reflexivity.
  induction s as [|c s IH]; intros n Hn; cbn [parse_uint_loop leading_digits].
  - unfold numeral_value_from. cbn [fold_left]. destruct (Z.leb_spec (2 ^ 64) n); [lia|done].
  - unfold digit_value, decimal.
    destruct ((48 <=? nat_of_ascii c)%nat && (nat_of_ascii c <=? 57)%nat) eqn:Ed.
    + apply andb_true_iff in Ed as [E1 E2]. apply Nat.leb_le in E1, E2.
      destruct (leading_digits s) as [ds rest]. cbn [fst snd].
      assert (numeral_value_from n ((nat_of_ascii c - 48)%nat :: ds) =
        numeral_value_from (n * 10 + (Z.of_nat (nat_of_ascii c) - 48)) ds) as ->.
      { unfold numeral_value_from. cbn [fold_left]. f_equal. lia. }
      set (m := (n * 10 + (Z.of_nat (nat_of_ascii c) - 48))%Z) in *. assert (0 <= m)%Z as Hm by lia.
      pose proof (numeral_value_from_ge m ds Hm) as Hg.
      destruct (Z.ltb_spec max_uint64 m).
      * destruct (Z.leb_spec (2 ^ 64) (numeral_value_from m ds)); [done|lia].
      * apply IH. lia.
    + unfold numeral_value_from. cbn [fold_left]. destruct (Z.leb_spec (2 ^ 64) n); [lia|done].
Qed.

Lemma leading_nonneg s : (0 <= numeral_value (leading_digits s).1)%Z.
Proof. apply numeral_value_nonneg. Qed.

Lemma leading_nil s r : leading_digits s = ([], r) -> r = s.
Proof. destruct s as [|c s]; cbn; [by intros [= <-]|]. destruct (decimal c); [done|by intros [= <-]]. Qed.

Lemma uint_exact s :
  parse_uint s =
    let '(ds, rest) := leading_digits s in
    if (2 ^ 64 <=? numeral_value ds)%Z then (max_uint64, RangeError)
    else match ds, rest with _ :: _, "" => (numeral_value ds, NoError) | _, _ => (0%Z, SyntaxError) end.
Proof.
  destruct s as [|c s]; [done|]. unfold parse_uint. rewrite loop_exact by (unfold max_uint64; lia).
  destruct (leading_digits (String c s)) as [ds rest] eqn:E. change (numeral_value_from 0 ds) with (numeral_value ds).
  destruct (2 ^ 64 <=? numeral_value ds)%Z; [done|]. destruct ds as [|d ds].
  - apply leading_nil in E as ->. done.
  - by destruct rest.
Qed.

Lemma signed_exact neg s : fst (atoi_signed neg s) =
  (if neg then - magnitude (2 ^ 63) s else magnitude (2 ^ 63 - 1) s)%Z.
Proof.
  unfold atoi_signed, magnitude. rewrite uint_exact. destruct (leading_digits s) as [ds rest] eqn:E.
  pose proof (numeral_value_nonneg ds) as Hn. assert (int64_cutoff = 2 ^ 63)%Z as Ec by reflexivity.
  destruct (2 ^ 64 <=? numeral_value ds)%Z; [by destruct neg|].
  destruct ds as [|d ds]; [by destruct neg|]. destruct rest; [|by destruct neg].
  destruct neg.
  - destruct (Z.ltb_spec int64_cutoff (numeral_value (d :: ds))); cbn [fst]; lia.
  - destruct (Z.leb_spec int64_cutoff (numeral_value (d :: ds))); cbn [fst]; lia.
Qed.

Lemma atoi_exact s : fst (atoi s) = number_in s.
Proof.
  destruct s as [|c s]; [done|]. unfold atoi, number_in.
  destruct (Ascii.eqb_spec c "+") as [->|Hp]; [apply signed_exact|].
  destruct (Ascii.eqb_spec c "-") as [->|Hm]; [apply signed_exact|].
  assert (char_eqb c "+" = false) as -> by by apply Ascii.eqb_neq.
  assert (char_eqb c "-" = false) as -> by by apply Ascii.eqb_neq.
  rewrite (signed_exact false). destruct c as [[] [] [] [] [] [] [] []]; done.
Qed.

Lemma piece_bytes s : piece s -> all_bytes (fun c => negb (is_version_sep c)) s = true.
Proof.
  induction s as [|c s IH]; intros H; [done|]. cbn [all_bytes]. apply andb_true_iff. split.
  - destruct (H "" c s eq_refl) as [H1 H2]. unfold is_version_sep, char_eqb.
    destruct (Ascii.eqb_spec c "."); [done|]. by destruct (Ascii.eqb_spec c "-").
  - apply IH. intros a d b ->. by apply (H (String c a) d b).
Qed.

Lemma compare_strings_exact a b : vtext_ok a -> vtext_ok b ->
  2 <= length (vtext_numerals a) -> 2 <= length (vtext_numerals b) ->
  compare_version_strings (vtext_text a) (vtext_text b) =
  Some (sign_of (lex_compare (looked_at (vtext_values a)) (looked_at (vtext_values b)))).
Proof.
  intros Ha Hb La Lb. unfold compare_version_strings.
  destruct (parse_version_first3 a Ha La) as (va & -> & A0 & A1 & A2 & A4 & A3 & A3').
  destruct (parse_version_first3 b Hb Lb) as (vb & -> & B0 & B1 & B2 & B4 & B3 & B3').
  f_equal. rewrite compare_versions_lex. f_equal. unfold components.
  assert (forall v ver, 2 <= length (vtext_numerals v) ->
    v_major ver = default 0%Z (vtext_values v !! 0) -> v_minor ver = default 0%Z (vtext_values v !! 1) ->
    v_patch ver = default 0%Z (vtext_values v !! 2) -> v_other ver = 0%Z ->
    (length (vtext_numerals v) <= 4 -> v_dev ver = default 0%Z (vtext_values v !! 3)) ->
    (5 <= length (vtext_numerals v) -> v_dev ver = 0%Z) ->
    length (looked_at (vtext_values v)) <= 4 /\
    [v_major ver; v_minor ver; v_patch ver; v_dev ver; v_other ver] =
      let z n := default 0%Z (looked_at (vtext_values v) !! n) in [z 0; z 1; z 2; z 3; 0%Z]) as K.
  { intros v ver L E0 E1 E2 E4 E3 E3'. assert (length (vtext_values v) = length (vtext_numerals v)) as Ll
      by (unfold vtext_values; by rewrite fmap_length).
    unfold looked_at. rewrite Ll. destruct (Nat.leb_spec (length (vtext_numerals v)) 4) as [H|H].
    - split; [lia|]. cbn zeta. rewrite E0, E1, E2, E4, E3 by lia. done.
    - split; [rewrite take_length; lia|]. cbn zeta. rewrite E0, E1, E2, E4, E3' by lia.
      rewrite !lookup_take by lia. rewrite lookup_take_ge by lia. done. }
  destruct (K a va La A0 A1 A2 A4 A3 A3') as [Ka ->]. destruct (K b vb Lb B0 B1 B2 B4 B3 B3') as [Kb ->].
  by apply lex_compare_pad4.
Qed.

(** * Lists in files *)

Lemma items_or rest : (forall x, x ∈ rest -> ~ list_item x) \/
  exists mid a b r, rest = (mid ++ (a +:+ "-" +:+ b) :: r)%list /\ all_bytes white a = true /\ (forall x, x ∈ mid -> ~ list_item x).
Proof.
  induction rest as [|l rest IH].
  - left. intros x Hx. by apply elem_of_nil in Hx.
  - destruct (has_prefix "-" (trim_space l)) eqn:E.
    + apply list_item_trim in E as (a & b & -> & Ha). right. exists [], a, b, rest. split; [done|]. split; [done|].
      intros x Hx. by apply elem_of_nil in Hx.
    + assert (~ list_item l) as Hl by (rewrite <- list_item_trim; congruence).
      destruct IH as [IH|(mid & a & b & r & -> & Ha & Hm)].
      * left. intros x Hx. apply elem_of_cons in Hx as [-> | Hx]; [done|by apply IH].
      * right. exists (l :: mid), a, b, r. split; [done|]. split; [done|].
        intros x Hx. apply elem_of_cons in Hx as [-> | Hx]; [done|by apply Hm].
Qed.

Lemma insert_no_item pre key rest pkgs : packages_key key = true ->
  (forall l, l ∈ rest -> packages_key l = false) -> (forall l, l ∈ rest -> ~ list_item l) ->
  insert_packages (pre ++ key :: rest)%list pkgs =
  match index_of "-" key with
  | None => None
  | Some n => Some (pre ++ key :: map (fun p => repeat_blank n +:+ "- " +:+ p) pkgs ++ rest)%list
  end.
Proof.
  intros H1 H2 H3. unfold insert_packages. rewrite last_section_some by done. cbn [Nat.add].
  rewrite drop_app_alt by done. rewrite first_item_none.
  - rewrite Nat.add_0_r, nth_middle. destruct (index_of "-" key); [|done]. f_equal.
    assert (forall (x : list string), pre ++ key :: x = (pre ++ [key]) ++ x)%list as Ex by (intros x; by rewrite <- app_assoc).
    rewrite (Ex rest), (Ex (map _ _ ++ _)%list). by rewrite take_app_alt, drop_app_alt by (rewrite app_length; cbn [length]; lia).
  - intros x. rewrite elem_of_cons. intros [-> |Hx]; [by apply key_no_item|by apply H3].
Qed.

Lemma no_dash s : contains "-" s = false <-> without "-" s.
Proof. exact (contains_char_false "-" s). Qed.
