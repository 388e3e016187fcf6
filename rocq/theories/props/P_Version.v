(** C01-C07: versions and dependency entries. *)
From stdpp Require Import strings list.
From Coq Require Import Ascii ZArith Lia.
From Verif.model Require Import GoStr Version.
From Verif.spec Require Import StrSpec VersionSpec.
From Verif.proofs Require Import VersionProofs.

Local Open Scope string_scope.

(** C01 *)
Theorem C01_compare_total_order :
  (forall a b, compare_versions a b = (-1)%Z \/ compare_versions a b = 0%Z \/ compare_versions a b = 1%Z) /\
  (forall a, compare_versions a a = 0%Z) /\
  (forall a b, compare_versions b a = (- compare_versions a b)%Z) /\
  (forall a b c, compare_versions a b <= 0 -> compare_versions b c <= 0 -> compare_versions a c <= 0)%Z /\
  (forall a b, compare_versions a b = 0%Z <->
    v_major a = v_major b /\ v_minor a = v_minor b /\ v_patch a = v_patch b /\
    v_dev a = v_dev b /\ v_other a = v_other b) /\
  (forall a b, compare_versions a b = sign_of (lex_compare
     [v_major a; v_minor a; v_patch a; v_dev a; v_other a]
     [v_major b; v_minor b; v_patch b; v_dev b; v_other b])).
Proof.
  exact (conj compare_versions_range (conj compare_versions_refl (conj compare_versions_antisym
    (conj compare_versions_trans (conj compare_versions_eq compare_versions_lex))))).
Qed.
Print Assumptions C01_compare_total_order.

Example C01_example :
  compare_versions (Version 1 2 0 9 0 "1.2.0.9") (Version 1 2 1 0 0 "1.2.1") = (-1)%Z.
Proof. reflexivity. Qed.

(** C02 *)
Theorem C02_compare_strings_numeric : forall a b,
  vtext_ok a -> vtext_ok b ->
  2 <= length (vtext_numerals a) <= 4 -> 2 <= length (vtext_numerals b) <= 4 ->
  compare_version_strings (vtext_text a) (vtext_text b) =
  Some (sign_of (lex_compare (vtext_values a) (vtext_values b))).
Proof. exact compare_strings_numeric. Qed.
Print Assumptions C02_compare_strings_numeric.

Definition v_1_10_dash_2 := VText [1] [(SepDot, [1; 0]); (SepDash, [2])].
Definition v_1_9 := VText [1] [(SepDot, [0; 9])].

Example C02_example :
  vtext_text v_1_10_dash_2 = "1.10-2" /\ vtext_text v_1_9 = "1.09" /\
  vtext_ok v_1_10_dash_2 /\ vtext_ok v_1_9 /\
  compare_version_strings "1.10-2" "1.09" = Some 1%Z.
Proof.
  repeat split; try reflexivity;
    repeat (apply Forall_cons; split; [split; [split; [done|repeat constructor; lia]|reflexivity]|]);
    constructor.
Qed.

(** C03: the full statement is false, the fourth and fifth components of a
    five-component version are lost. *)
Definition C03_statement : Prop := forall a b,
  vtext_ok a -> vtext_ok b ->
  2 <= length (vtext_numerals a) <= 5 -> 2 <= length (vtext_numerals b) <= 5 ->
  compare_version_strings (vtext_text a) (vtext_text b) =
  Some (sign_of (lex_compare (vtext_values a) (vtext_values b))).

Theorem C03_five_components_refuted :
  exists a b,
    vtext_text a = "1.2.3.4.5" /\ vtext_text b = "1.2.3.9.6" /\ vtext_ok a /\ vtext_ok b /\
    length (vtext_numerals a) = 5 /\ length (vtext_numerals b) = 5 /\
    lex_compare (vtext_values a) (vtext_values b) = Lt /\
    compare_version_strings (vtext_text a) (vtext_text b) = Some 0%Z /\
    (* and a version with more components is ordered below its own prefix *)
    compare_version_strings "1.2.3.4.5" "1.2.3.4" = Some (-1)%Z.
Proof.
  exists (VText [1] [(SepDot, [2]); (SepDot, [3]); (SepDot, [4]); (SepDot, [5])]),
         (VText [1] [(SepDot, [2]); (SepDot, [3]); (SepDot, [9]); (SepDot, [6])]).
  repeat split; try reflexivity;
    repeat (apply Forall_cons; split; [split; [split; [done|repeat constructor; lia]|reflexivity]|]);
    constructor.
Qed.
Print Assumptions C03_five_components_refuted.

(** What does hold for any number of components: a difference in the first
    three decides correctly.  Missing: differences in the fourth and fifth. *)
Theorem C03_five_components_partial : forall a b,
  vtext_ok a -> vtext_ok b ->
  2 <= length (vtext_numerals a) -> 2 <= length (vtext_numerals b) ->
  lex_compare (take 3 (vtext_values a)) (take 3 (vtext_values b)) <> Eq ->
  compare_version_strings (vtext_text a) (vtext_text b) =
  Some (sign_of (lex_compare (vtext_values a) (vtext_values b))).
Proof. exact compare_strings_first3. Qed.
Print Assumptions C03_five_components_partial.

(** C04 *)
Theorem C04_dep_round_trip : forall d,
  dep_constraint d <> CNone ->
  word_without "()<>=" (dep_name d) -> word_without "()<>=" (v_string (dep_version d)) ->
  parse_version (v_string (dep_version d)) = Some (dep_version d) ->
  parse_dep (dep_to_string d) = Some d.
Proof. exact parse_dep_print_spec. Qed.
Print Assumptions C04_dep_round_trip.

Example C04_example :
  let d := Dep "R" (Version 3 6 0 0 0 "3.6") CGTE in
  dep_to_string d = "R (>= 3.6)" /\ dep_constraint d <> CNone /\
  word_without "()<>=" (dep_name d) /\ word_without "()<>=" (v_string (dep_version d)) /\
  parse_version "3.6" = Some (dep_version d) /\ parse_dep "R (>= 3.6)" = Some d.
Proof. repeat split; done. Qed.

(** C05 *)
Theorem C05_parse_dep_entry : forall name ver o w0 w1 w2 w3 w4 w5 v,
  word_without "()<>=" name -> word_without "()<>=" ver -> parse_version ver = Some v ->
  Forall (fun w => all_bytes white w = true) [w0; w1; w2; w3; w4; w5] ->
  parse_dep (w0 +:+ name +:+ w1 +:+ "(" +:+ w2 +:+ relop_text o +:+ w3 +:+ ver +:+ w4 +:+ ")" +:+ w5)
  = Some (Dep name v (match o with
                      | OpEq => CEquals | OpGe => CGTE | OpGt => CGT
                      | OpLe => CLTE | OpLt => CLT end)).
Proof. exact parse_dep_entry_spec. Qed.
Print Assumptions C05_parse_dep_entry.

Theorem C05_parse_dep_bare : forall name w0 w1,
  word_without "()<>=" name -> all_bytes white w0 = true -> all_bytes white w1 = true ->
  parse_dep (w0 +:+ name +:+ w1) = Some (Dep name (Version 0 0 0 0 0 "") CNone).
Proof. exact parse_dep_bare_spec. Qed.
Print Assumptions C05_parse_dep_bare.

Example C05_example :
  parse_dep " Rcpp( >=0.12-3 ) " = Some (Dep "Rcpp" (Version 0 12 3 0 0 "0.12-3") CGTE) /\
  word_without "()<>=" "Rcpp" /\ word_without "()<>=" "0.12-3" /\
  parse_dep " methods " = Some (Dep "methods" (Version 0 0 0 0 0 "") CNone).
Proof. repeat split; done. Qed.

(** C06: the full statement is false, a version without separator panics. *)
Theorem C06_parse_total_refuted : exists v, v = "7" /\ parse_version v = None.
Proof. exists "7". split; reflexivity. Qed.
Print Assumptions C06_parse_total_refuted.

(** Exact domain of failure: no '.' and no '-' in the string. *)
Theorem C06_parse_total_partial : forall v,
  parse_version v = None <->
  all_bytes (fun c => negb (Ascii.eqb c "."%char || Ascii.eqb c "-"%char)) v = true.
Proof. exact parse_version_panics. Qed.
Print Assumptions C06_parse_total_partial.

Example C06_example : parse_version "2.x-y" = Some (Version 2 0 0 0 0 "2.x-y").
Proof. reflexivity. Qed.

(** C07: [Versions.Less] is not asymmetric and ignores the patch component. *)
Theorem C07_sort_order_refuted :
  (exists a b, is_lower_version a b = true /\ is_lower_version b a = true /\ compare_versions a b = (-1)%Z) /\
  (exists a b, is_lower_version a b = false /\ is_lower_version b a = false /\ compare_versions a b = (-1)%Z).
Proof.
  split.
  - exists (Version 1 5 0 0 0 "1.5"), (Version 2 1 0 0 0 "2.1"). repeat split.
  - exists (Version 1 1 1 0 0 "1.1.1"), (Version 1 1 2 0 0 "1.1.2"). repeat split.
Qed.
Print Assumptions C07_sort_order_refuted.

(** For versions with the same patch component it misses no difference, and it
    agrees with comparison when no component goes the other way.  Missing: the
    other pairs of versions. *)
Theorem C07_sort_order_partial : forall a b, v_patch a = v_patch b ->
  (compare_versions a b = (-1)%Z -> is_lower_version a b = true) /\
  ((v_major a <= v_major b /\ v_minor a <= v_minor b /\ v_dev a <= v_dev b /\ v_other a <= v_other b \/
    v_major b <= v_major a /\ v_minor b <= v_minor a /\ v_dev b <= v_dev a /\ v_other b <= v_other a)%Z ->
   is_lower_version a b = true <-> compare_versions a b = (-1)%Z).
Proof.
  intros a b H. split; [by apply is_lower_version_complete|by apply is_lower_version_agrees].
Qed.
Print Assumptions C07_sort_order_partial.
