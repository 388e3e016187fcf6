(** C61 to C63: pkgr add and pkgr remove. *)
From stdpp Require Import strings list sets gmap.
From Coq Require Import Ascii NArith Lia.
From Verif.model Require Import GoStr Yml.
From Verif.spec Require Import StrSpec YmlSpec.
From Verif.proofs Require Import GoStrLemmas YmlProofs.

Local Open Scope string_scope.

(** C61.  In full: for all files and arguments.  Missing: a Packages key without
    any list item after it, repeated arguments and overlong lines (all refuted),
    and files with carriage returns or without a final line feed, which are
    normalised. *)
Theorem C61_insert_partial : forall pre key mid a b rest listed pkgs,
  (forall l, l ∈ (pre ++ key :: mid ++ (a +:+ "-" +:+ b) :: rest)%list -> unix_line l) ->
  packages_key key = true -> (forall l, l ∈ (mid ++ (a +:+ "-" +:+ b) :: rest)%list -> packages_key l = false) ->
  (forall x, x ∈ mid -> ~ list_item x) -> all_bytes white a = true -> NoDup pkgs ->
  exists pad new,
    all_bytes (Ascii.eqb " ") pad = true /\ String.length pad = String.length a /\
    NoDup new /\ (forall p, p ∈ new <-> p ∈ pkgs /\ ~ p ∈ listed) /\
    add_packages (text (pre ++ key :: mid ++ (a +:+ "-" +:+ b) :: rest)%list) listed pkgs =
    Some (text (pre ++ key :: map (fun p => pad +:+ "- " +:+ p) new ++ mid ++ (a +:+ "-" +:+ b) :: rest)%list).
Proof.
  intros pre key mid a b rest listed pkgs H0 H1 H2 H3 H4 H5. eexists. eexists.
  split; [apply repeat_blank_all|]. split; [apply repeat_blank_length|].
  split; [|split; [|by apply add_ok]].
  - apply NoDup_ListNoDup, List.NoDup_filter, NoDup_ListNoDup, H5.
  - intros p. rewrite !elem_of_list_In, filter_In, negb_true_iff, bool_decide_eq_false, elem_of_list_In. done.
Qed.
Print Assumptions C61_insert_partial.

Theorem C61_new_section : forall lines listed pkgs, (forall l, l ∈ lines -> unix_line l) ->
  (forall l, l ∈ lines -> packages_key l = false) -> NoDup pkgs ->
  exists new, NoDup new /\ (forall p, p ∈ new <-> p ∈ pkgs /\ ~ p ∈ listed) /\
    add_packages (text lines) listed pkgs =
    Some (text (lines ++ [""; "Packages:"] ++ map (fun p => "- " +:+ p) new)%list).
Proof.
  intros lines listed pkgs H0 H1 H5. eexists. split; [|split; [|by apply add_new]].
  - apply NoDup_ListNoDup, List.NoDup_filter, NoDup_ListNoDup, H5.
  - intros p. rewrite !elem_of_list_In, filter_In, negb_true_iff, bool_decide_eq_false, elem_of_list_In. done.
Qed.
Print Assumptions C61_new_section.

Definition ex_yml : list string := ["Version: 1"; "Packages:"; "  # first"; "  - dplyr"; "Repos:"; "  - CRAN: u"].

Example C61_example : add_packages (text ex_yml) ["dplyr"] ["dplyr"; "R6"] =
  Some (text ["Version: 1"; "Packages:"; "  - R6"; "  # first"; "  - dplyr"; "Repos:"; "  - CRAN: u"]).
Proof. reflexivity. Qed.

(** An empty Packages key makes pkgr panic, even with nothing to add. *)
Theorem C61_empty_section_refuted : exists lines listed, (forall l, l ∈ lines -> unix_line l) /\
  add_packages (text lines) listed [] = None /\ forall p, add_packages (text lines) listed [p] = None.
Proof.
  exists ["Version: 1"; "Packages:"], []. split.
  - intros l H. repeat (apply elem_of_cons in H as [->|H]; [by apply unix_check|]). by apply elem_of_nil in H.
  - split; reflexivity.
Qed.
Print Assumptions C61_empty_section_refuted.

(** Repeated arguments are inserted repeatedly. *)
Theorem C61_repeated_argument_refuted : exists lines listed p,
  (forall l, l ∈ lines -> unix_line l) /\ ~ p ∈ listed /\
  add_packages (text lines) listed [p; p] = Some (text ["Packages:"; "- " +:+ p; "- " +:+ p; "- a"]).
Proof.
  exists ["Packages:"; "- a"], ["a"], "b". split.
  - intros l H. repeat (apply elem_of_cons in H as [->|H]; [by apply unix_check|]). by apply elem_of_nil in H.
  - split; [set_solver|reflexivity].
Qed.
Print Assumptions C61_repeated_argument_refuted.

(** A line of 64 KiB or more and everything after it is lost. *)
Theorem C61_long_line_refuted : forall l r, is_line l -> (65536 <= N.of_nat (String.length l))%N ->
  add_packages (text ["Packages:"; "- a"] +:+ l +:+ String lf r) ["a"] ["b"] =
  Some (text ["Packages:"; "- b"; "- a"]).
Proof.
  intros l r H1 H2. unfold add_packages. rewrite scan_long; [reflexivity| |done|done].
  intros x H. repeat (apply elem_of_cons in H as [->|H]; [by apply unix_check|]). by apply elem_of_nil in H.
Qed.
Print Assumptions C61_long_line_refuted.

Example C61_long_line_example : is_line (long (N.to_nat 65536)) /\ (65536 <= N.of_nat (String.length (long (N.to_nat 65536))))%N.
Proof. split; [apply long_line|]. rewrite long_length, N2Nat.id. apply N.le_refl. Qed.

(** C62.  In full: for all files and names.  Missing: files in which the text "- name"
    starts some other item or an item outside Packages, or in which more blanks
    precede the name.  All refuted. *)
Theorem C62_remove_partial : forall lines last name,
  (forall l, l ∈ lines -> is_line l) -> is_line last ->
  (forall i l, (lines ++ [last])%list !! i = Some l ->
     (item_like name l <-> item name l /\ in_packages (lines ++ [last])%list i)) ->
  exists kept last',
    deletes (fun i l => item name l /\ in_packages (lines ++ [last])%list i) 0 lines kept /\
    remove_package (text lines +:+ last) name = text kept +:+ last' /\
    (item name last /\ in_packages (lines ++ [last])%list (length lines) -> last' = "") /\
    (~ (item name last /\ in_packages (lines ++ [last])%list (length lines)) -> last' = last).
Proof.
  intros lines last name H1 H2 H3. eexists. eexists. split; [|split].
  - apply deletes_filter. intros k l Hk. cbn [Nat.add]. rewrite removed_spec. symmetry. apply H3.
    by apply lookup_app_l_Some.
  - unfold remove_package. rewrite split_text by done. apply remove_text.
  - assert ((lines ++ [last])%list !! length lines = Some last) as Hl.
    { rewrite lookup_app_r by lia. by rewrite Nat.sub_diag. }
    rewrite <- (H3 _ _ Hl), <- removed_spec. by destruct (removed name last).
Qed.
Print Assumptions C62_remove_partial.

Example C62_example : remove_package (text ["Packages:"; "- dplyr"; "- R6"; "Repos:"; "  - CRAN: u"]) "dplyr" =
  text ["Packages:"; "- R6"; "Repos:"; "  - CRAN: u"].
Proof. reflexivity. Qed.

(** Removing data removes data.table as well. *)
Theorem C62_prefix_refuted : exists lines name other, (forall l, l ∈ lines -> is_line l) /\
  other <> name /\ "- " +:+ other ∈ lines /\ in_packages lines 2 /\ lines !! 2 = Some ("- " +:+ other) /\
  remove_package (text lines) name = text ["Packages:"].
Proof.
  exists ["Packages:"; "- data"; "- data.table"], "data", "data.table". split.
  - intros l H. repeat (apply elem_of_cons in H as [->|H]; [done|]). by apply elem_of_nil in H.
  - split; [done|]. split; [set_solver|]. split; [|done].
    exists 0, "Packages:". split; [lia|]. split; [done|]. split; [done|].
    intros [|[|[|k]]] m [Hk Hk2]; [lia| | |lia]; intros [= <-]; done.
Qed.
Print Assumptions C62_prefix_refuted.

(** Removing a package called like a repository removes the repository. *)
Theorem C62_section_refuted : exists lines name l, (forall l, l ∈ lines -> is_line l) /\
  l ∈ lines /\ ~ item name l /\ remove_package (text lines) name = text ["Packages:"; "- a"; "Repos:"].
Proof.
  exists ["Packages:"; "- a"; "Repos:"; "- CRAN: https://cran.r-project.org"], "CRAN", "- CRAN: https://cran.r-project.org". split.
  - intros l H. repeat (apply elem_of_cons in H as [->|H]; [done|]). by apply elem_of_nil in H.
  - split; [set_solver|]. split; [|done]. intros (a & s & b & E & Ha & Hs & Hb).
    destruct a as [|c a].
    + cbn in E. injection E as E. destruct s as [|c s].
      * cbn in E. injection E as <-. discriminate Hb.
      * simpl in E. injection E as <- _. discriminate Hs.
    + simpl in E. injection E as <- _. discriminate Ha.
Qed.
Print Assumptions C62_section_refuted.

(** An item with two blanks after the dash is not removed. *)
Theorem C62_two_blanks_refuted : exists lines name, (forall l, l ∈ lines -> is_line l) /\
  in_packages lines 1 /\ (exists l, lines !! 1 = Some l /\ item name l) /\
  remove_package (text lines) name = text lines.
Proof.
  exists ["Packages:"; "-  dplyr"], "dplyr". split.
  - intros l H. repeat (apply elem_of_cons in H as [->|H]; [done|]). by apply elem_of_nil in H.
  - split; [|split; [|done]].
    + exists 0, "Packages:". split; [lia|]. split; [done|]. split; [done|].
      intros [|[|k]] m [Hk Hk2]; [lia| |lia]; intros [= <-]; done.
    + eexists. split; [done|]. by exists "", " ", "".
Qed.
Print Assumptions C62_two_blanks_refuted.

(** C63.  In full: for all files and packages.  Missing: files in which adding has to
    start a Packages section, and other items starting with the name.  Both
    refuted. *)
Theorem C63_round_trip_partial : forall pre key mid a b rest listed p,
  (forall l, l ∈ (pre ++ key :: mid ++ (a +:+ "-" +:+ b) :: rest)%list -> unix_line l) -> is_line p ->
  packages_key key = true -> (forall l, l ∈ (mid ++ (a +:+ "-" +:+ b) :: rest)%list -> packages_key l = false) ->
  (forall x, x ∈ mid -> ~ list_item x) -> all_bytes white a = true ->
  (forall l, l ∈ (pre ++ key :: mid ++ (a +:+ "-" +:+ b) :: rest)%list -> ~ item_like p l) ->
  exists c, add_packages (text (pre ++ key :: mid ++ (a +:+ "-" +:+ b) :: rest)%list) listed [p] = Some c /\
    remove_package c p = text (pre ++ key :: mid ++ (a +:+ "-" +:+ b) :: rest)%list.
Proof. exact add_remove. Qed.
Print Assumptions C63_round_trip_partial.

Example C63_example : exists c, add_packages (text ex_yml) ["dplyr"] ["R6"] = Some c /\ c <> text ex_yml /\
  remove_package c "R6" = text ex_yml.
Proof. eexists. split; [reflexivity|]. split; [discriminate|reflexivity]. Qed.

Theorem C63_new_section_refuted : exists lines p c, (forall l, l ∈ lines -> unix_line l) /\
  add_packages (text lines) [] [p] = Some c /\ remove_package c p <> text lines.
Proof.
  exists ["Version: 1"], "R6". eexists. split.
  - intros l H. repeat (apply elem_of_cons in H as [->|H]; [by apply unix_check|]). by apply elem_of_nil in H.
  - split; [reflexivity|]. intros H. vm_compute in H. discriminate H.
Qed.
Print Assumptions C63_new_section_refuted.

Theorem C63_prefix_refuted : exists lines listed p c, (forall l, l ∈ lines -> unix_line l) /\ ~ p ∈ listed /\
  add_packages (text lines) listed [p] = Some c /\ remove_package c p = text ["Packages:"].
Proof.
  exists ["Packages:"; "- data.table"], ["data.table"], "data". eexists. split.
  - intros l H. repeat (apply elem_of_cons in H as [->|H]; [by apply unix_check|]). by apply elem_of_nil in H.
  - split; [set_solver|]. split; reflexivity.
Qed.
Print Assumptions C63_prefix_refuted.
