(** For claims that hold only in part: what the program does in all cases. *)
From stdpp Require Import strings list gmap.
From Coq Require Import Ascii ZArith Lia.
From Verif.model Require Import GoStr Version Yml Commands.
From Verif.spec Require Import StrSpec EnvSpec VersionSpec YmlSpec ExactSpec.
From Verif.proofs Require Import GoStrLemmas VersionProofs YmlProofs CommandProofs ExactProofs.

Local Open Scope string_scope.

(** C03: with five or more components only the first three are compared. *)
Theorem C03_exact : forall a b, vtext_ok a -> vtext_ok b ->
  2 <= length (vtext_numerals a) -> 2 <= length (vtext_numerals b) ->
  compare_version_strings (vtext_text a) (vtext_text b) =
  Some (sign_of (lex_compare (looked_at (vtext_values a)) (looked_at (vtext_values b)))).
Proof. exact compare_strings_exact. Qed.
Print Assumptions C03_exact.

Example C03_exact_example :
  looked_at [1; 2; 3; 4; 5]%Z = [1; 2; 3]%Z /\ looked_at [1; 2; 3; 4]%Z = [1; 2; 3; 4]%Z /\
  compare_version_strings "1.2.3.4.5" "1.2.3.1" = Some (-1)%Z.
Proof. vm_compute. done. Qed.

(** C06: the numbers that are read from any text. *)
Theorem C06_exact : forall a b c d s1 s2 s3, piece a -> piece b -> piece c ->
  let sep s := String (separator_char s) in
  parse_version (a +:+ sep s1 b) = Some (Version (number_in a) (number_in b) 0 0 0 (a +:+ sep s1 b)) /\
  parse_version (a +:+ sep s1 (b +:+ sep s2 c)) =
    Some (Version (number_in a) (number_in b) (number_in c) 0 0 (a +:+ sep s1 (b +:+ sep s2 c))) /\
  parse_version (a +:+ sep s1 (b +:+ sep s2 (c +:+ sep s3 d))) =
    Some (Version (number_in a) (number_in b) (number_in c) (number_in d) 0 (a +:+ sep s1 (b +:+ sep s2 (c +:+ sep s3 d)))).
Proof.
  intros a b c d s1 s2 s3 Ha%piece_bytes Hb%piece_bytes Hc%piece_bytes sep. unfold parse_version, sep.
  split; [|split]; rewrite !split_on_n_app by (done || apply separator_is_sep).
  - rewrite split_on_n_none by done. cbn. by rewrite !atoi_exact.
  - rewrite split_on_n_none by done. cbn. by rewrite !atoi_exact.
  - rewrite split_on_n_one. cbn. by rewrite !atoi_exact.
Qed.
Print Assumptions C06_exact.

Example C06_exact_example : piece "x1" /\ number_in "x1" = 0%Z /\ number_in "007" = 7%Z /\ number_in "1rc" = 0%Z /\
  number_in "99999999999999999999" = 9223372036854775807%Z /\
  parse_version "2.x1-007.-5" = Some (Version 2 0 7 (-5) 0 "2.x1-007.-5").
Proof.
  split; [|vm_compute; done]. intros a c b H. destruct a as [|x [|y [|]]]; injection H as <-; by subst || done.
Qed.

(** C07: one smaller number, the patch aside, is enough for "lower". *)
Theorem C07_exact : forall a b, is_lower_version a b = true <->
  (v_major a < v_major b \/ v_minor a < v_minor b \/ v_dev a < v_dev b \/ v_other a < v_other b)%Z.
Proof.
  intros a b. unfold is_lower_version.
  destruct (Z.ltb_spec (v_major a) (v_major b)), (Z.ltb_spec (v_minor a) (v_minor b)),
    (Z.ltb_spec (v_dev a) (v_dev b)), (Z.ltb_spec (v_other a) (v_other b)); split; intros; lia || done.
Qed.
Print Assumptions C07_exact.

Example C07_exact_example :
  is_lower_version (Version 2 1 9 0 0 "2.1.9") (Version 1 2 0 0 0 "1.2.0") = true /\
  is_lower_version (Version 1 1 1 0 0 "1.1.1") (Version 1 1 2 0 0 "1.1.2") = false.
Proof. done. Qed.

(** C61: adding panics exactly when no list item follows the key Packages and the line of
    the key contains no dash, whatever is added. *)
Theorem C61_panics_exact : forall pre key rest listed pkgs,
  (forall l, l ∈ (pre ++ key :: rest)%list -> unix_line l) -> packages_key key = true ->
  (forall l, l ∈ rest -> packages_key l = false) ->
  add_packages (text (pre ++ key :: rest)%list) listed pkgs = None <->
  (forall x, x ∈ rest -> ~ list_item x) /\ without "-" key.
Proof.
  intros pre key rest listed pkgs H0 H1 H2. unfold add_packages. rewrite scan_text by done. rewrite <- no_dash.
  destruct (items_or rest) as [Hn|(mid & x & y & r & -> & Hw & Hm)].
  - rewrite insert_no_item by done. unfold contains.
    destruct (index_of "-" key); split; [done|intros [_ H]; done|done|done].
  - rewrite insert_ok by done. split; [done|]. intros [H _]. exfalso.
    apply (H (x +:+ "-" +:+ y)); [apply elem_of_app; right; by left|by exists x, y].
Qed.
Print Assumptions C61_panics_exact.

Example C61_panics_example :
  add_packages (text ["Version: 1"; "Packages:"; "  # none yet"; "Repos:"]) [] ["R6"] = None /\
  add_packages (text ["Packages: # my-list"; "Repos:"]) [] ["R6"] = Some (text ["Packages: # my-list"; "              - R6"; "Repos:"]).
Proof. vm_compute. split; reflexivity. Qed.

(** C62 and C114: in every file the lines that start, after blanks, with a dash, a blank
    and one of the names are removed, and no others. *)
Theorem C114_exact : forall lines last names,
  (forall l, l ∈ lines -> is_line l) -> is_line last ->
  let gone l := exists name, name ∈ names /\ item_like name l in
  exists kept last',
    deletes (fun _ l => gone l) 0 lines kept /\
    remove_packages (text lines +:+ last) names = text kept +:+ last' /\
    (gone last -> last' = "") /\ (~ gone last -> last' = last).
Proof.
  intros lines last names H1 H2 gone. rewrite remove_several by done.
  assert (K : forall l, existsb (fun n => removed n l) names = true <-> gone l).
  { intros l. unfold gone. rewrite existsb_exists. split.
    - intros (n & Hn & E). apply elem_of_list_In in Hn. exists n. split; [done|]. by apply removed_spec.
    - intros (n & Hn & E). exists n. split; [by apply elem_of_list_In|]. by apply removed_spec. }
  eexists. eexists. split; [|split; [reflexivity|]].
  - clear -K. generalize 0. induction lines as [|l ls IH]; intros i; [constructor|]. cbn [List.filter]. specialize (K l) as Kl.
    destruct (existsb (fun n => removed n l) names); cbn [negb].
    + apply del_drop; [by apply Kl|apply IH].
    + apply del_keep; [intros E; by apply Kl in E|apply IH].
  - rewrite <- K. by destruct (existsb (fun n => removed n last) names).
Qed.
Print Assumptions C114_exact.

Theorem C62_exact : forall lines last name,
  (forall l, l ∈ lines -> is_line l) -> is_line last ->
  exists kept last',
    deletes (fun _ l => item_like name l) 0 lines kept /\
    remove_package (text lines +:+ last) name = text kept +:+ last' /\
    (item_like name last -> last' = "") /\ (~ item_like name last -> last' = last).
Proof.
  intros lines last name H1 H2. eexists. eexists. split; [|split].
  - apply deletes_filter. intros k l Hk. symmetry. apply removed_spec.
  - unfold remove_package. rewrite split_text by done. apply remove_text.
  - rewrite <- removed_spec. by destruct (removed name last).
Qed.
Print Assumptions C62_exact.

Example C62_exact_example : item_like "data" "  - data.table" /\
  remove_package (text ["Packages:"; "  - data"; "  - data.table"; "Repos:"; "  -  data: u"] +:+ "- dataone") "data" =
  text ["Packages:"; "Repos:"; "  -  data: u"] +:+ "".
Proof. split; [by exists "  ", ".table"|reflexivity]. Qed.
