(** Editing the configuration file. *)
From stdpp Require Import strings list sets gmap.
From Coq Require Import Ascii NArith Lia.
From Verif.model Require Import GoStr Yml.
From Verif.spec Require Import StrSpec YmlSpec.
From Verif.proofs Require Import GoStrLemmas StampProofs.

Local Open Scope string_scope.

Local Arguments Ascii.eqb : simpl never.
Local Arguments char_eqb : simpl never.
Local Arguments max_token : simpl never.

Lemma is_line_split s : is_line s -> all_bytes (fun c => negb (char_eqb line_feed c)) s = true.
Proof.
  apply all_bytes_impl. intros c H. unfold char_eqb. rewrite Ascii.eqb_sym. exact H.
Qed.

Lemma split_line l r : is_line l -> split_char line_feed (l +:+ String lf r) = l :: split_char line_feed r.
Proof. intros H. apply split_on_app; [by apply is_line_split|apply char_eqb_refl]. Qed.

Lemma split_text lines last : (forall l, l ∈ lines -> is_line l) -> is_line last ->
  split_char line_feed (text lines +:+ last) = (lines ++ [last])%list.
Proof.
  intros H Hl. induction lines as [|l lines IH]; simpl.
  - apply split_on_none. by apply is_line_split.
  - rewrite app_assoc_str. simpl. rewrite split_line by (apply H; by left). f_equal.
    apply IH. intros x Hx. apply H. by right.
Qed.

Lemma split_text0 lines : (forall l, l ∈ lines -> is_line l) ->
  split_char line_feed (text lines) = (lines ++ [""])%list.
Proof. intros H. rewrite <- (app_nil_str (text lines)). by apply split_text. Qed.

Lemma string_rev_app s a : string_rev s a = string_rev s "" +:+ a.
Proof.
  revert a. induction s as [|c s IH]; intros a; [done|]. cbn [string_rev].
  rewrite (IH (String c a)), (IH (String c "")). by rewrite app_assoc_str.
Qed.

Lemma string_rev_snoc r c a : string_rev (r +:+ String c "") a = String c (string_rev r a).
Proof. revert a. induction r as [|d r IH]; intros a; [done|]. simpl. apply IH. Qed.

Lemma string_snoc s : s = "" \/ exists r c, s = r +:+ String c "".
Proof.
  induction s as [|c s [->|(r & d & ->)]]; [by left|right; by exists "", c|right].
  by exists (String c r), d.
Qed.

Lemma drop_cr_id s : (forall r, s <> r +:+ String cr "") -> drop_cr s = s.
Proof.
  intros H. unfold drop_cr, trim_suffix. destruct (string_snoc s) as [->|(r & c & ->)]; [done|].
  rewrite string_rev_snoc. change (string_rev carriage_return "") with (String cr "").
  cbn [cut_prefix]. destruct (char_eqb cr c) eqn:E; [|done].
  apply char_eqb_eq in E as <-. by destruct (H r).
Qed.

Lemma scan_text lines : (forall l, l ∈ lines -> unix_line l) -> scan_lines (text lines) = lines.
Proof.
  intros H. unfold scan_lines. rewrite split_text0 by (intros l Hl; by apply (H l)).
  induction lines as [|l lines IH]; [done|].
  destruct (H l) as (H1 & H2 & H3); [by left|].
  assert (scan_pieces (lines ++ [""])%list = lines) as IH' by (apply IH; intros x Hx; apply H; by right).
  assert ((max_token <=? N.of_nat (String.length l))%N = false) as E.
  { by apply N.leb_gt. }
  destruct lines as [|m lines]; cbn [app scan_pieces] in *; rewrite E, drop_cr_id by done; [done|].
  by rewrite IH'.
Qed.

Lemma write_text lines : write_lines lines = text lines.
Proof. induction lines as [|l lines IH]; [done|]. simpl. by rewrite IH. Qed.

Lemma text_app a b : text (a ++ b)%list = text a +:+ text b.
Proof. induction a as [|l a IH]; [done|]. simpl. rewrite IH, app_assoc_str. done. Qed.

(** * Adding *)

Lemma last_section_none i f lines : (forall l, l ∈ lines -> packages_key l = false) -> last_section i f lines = f.
Proof.
  revert i f. induction lines as [|l lines IH]; intros i f H; [done|]. cbn [last_section].
  pose proof (H l ltac:(by left)) as E. unfold packages_key in E. rewrite prefix_has in E. rewrite E.
  apply IH. intros x Hx. apply H. by right.
Qed.

Lemma last_section_some i f pre key rest : packages_key key = true -> (forall l, l ∈ rest -> packages_key l = false) ->
  last_section i f (pre ++ key :: rest)%list = Some (i + length pre).
Proof.
  intros Hk Hr. revert i f. induction pre as [|l pre IH]; intros i f; cbn [app last_section length].
  - unfold packages_key in Hk. rewrite prefix_has in Hk. rewrite Hk, last_section_none by done. f_equal. lia.
  - rewrite IH. f_equal. lia.
Qed.

Lemma list_item_trim l : has_prefix "-" (trim_space l) = true <-> list_item l.
Proof.
  unfold trim_space, trim, list_item. split.
  - induction l as [|c l IH]; [done|]. cbn [trim_left]. destruct (is_space c) eqn:E.
    + intros H. destruct (IH H) as (a & b & -> & Ha). exists (String c a), b. split; [done|].
      simpl. by rewrite white_is_space, E.
    + cbn [trim_right]. intros H. exists "".
      destruct (trim_right is_space l) eqn:Et; rewrite ?E in H; apply has_prefix_true in H as [r H];
        simpl in H; injection H as -> _; by exists l.
  - intros (a & b & -> & Ha). rewrite (all_bytes_ext _ is_space) in Ha by apply white_is_space.
    rewrite trim_left_app by done. simpl. by destruct (trim_right is_space b).
Qed.

Lemma first_item_app i mid l rest : (forall x, x ∈ mid -> ~ list_item x) -> list_item l ->
  first_item i (mid ++ l :: rest)%list = i + length mid.
Proof.
  intros Hm Hl. revert i. induction mid as [|x mid IH]; intros i; cbn [app first_item length].
  - apply list_item_trim in Hl. rewrite Hl. lia.
  - destruct (has_prefix "-" (trim_space x)) eqn:E.
    + apply list_item_trim in E. exfalso. apply (Hm x); [by left|done].
    + rewrite IH; [lia|]. intros y Hy. apply Hm. by right.
Qed.

Lemma first_item_none i lines : (forall x, x ∈ lines -> ~ list_item x) -> first_item i lines = 0.
Proof.
  revert i. induction lines as [|x lines IH]; intros i H; [done|]. cbn [first_item].
  destruct (has_prefix "-" (trim_space x)) eqn:E.
  - apply list_item_trim in E. exfalso. apply (H x); [by left|done].
  - apply IH. intros y Hy. apply H. by right.
Qed.

Lemma index_dash a b : all_bytes white a = true -> index_of "-" (a +:+ "-" +:+ b) = Some (String.length a).
Proof.
  induction a as [|c a IH]; intros H; [done|]. simpl in H. apply andb_true_iff in H as [H1 H2].
  change (String c a +:+ "-" +:+ b) with (String c (a +:+ "-" +:+ b)).
  cbn [index_of String.length]. rewrite IH by done.
  assert (has_prefix "-" (String c (a +:+ "-" +:+ b)) = false) as ->; [|done].
  unfold has_prefix. cbn [cut_prefix]. destruct (char_eqb "-" c) eqn:E; [|done].
  apply char_eqb_eq in E as <-. discriminate H1.
Qed.

Lemma key_no_item key : packages_key key = true -> ~ list_item key.
Proof.
  intros H. unfold packages_key in H. rewrite prefix_has in H. apply has_prefix_true in H as [r ->].
  rewrite <- list_item_trim. unfold trim_space, trim. cbn [append trim_left is_space nat_of_ascii].
  destruct (is_space "P") eqn:E; [discriminate E|].
  intros H. cbn [trim_right] in H. destruct (trim_right is_space _) in H; rewrite ?E in H; discriminate H.
Qed.

Lemma insert_ok pre key mid a b rest pkgs :
  packages_key key = true -> (forall l, l ∈ (mid ++ (a +:+ "-" +:+ b) :: rest)%list -> packages_key l = false) ->
  (forall x, x ∈ mid -> ~ list_item x) -> all_bytes white a = true ->
  insert_packages (pre ++ key :: mid ++ (a +:+ "-" +:+ b) :: rest)%list pkgs =
  Some (pre ++ key :: map (fun p => repeat_blank (String.length a) +:+ "- " +:+ p) pkgs ++
        mid ++ (a +:+ "-" +:+ b) :: rest)%list.
Proof.
  intros H1 H2 H3 H4. unfold insert_packages. rewrite last_section_some by done. cbn [Nat.add].
  rewrite drop_app_alt by done.
  change (key :: mid ++ (a +:+ "-" +:+ b) :: rest)%list with ((key :: mid) ++ (a +:+ "-" +:+ b) :: rest)%list.
  rewrite first_item_app.
  - cbn [length Nat.add].
    assert (nth (length pre + S (length mid)) (pre ++ (key :: mid) ++ (a +:+ "-" +:+ b) :: rest)%list "" = a +:+ "-" +:+ b) as ->.
    { rewrite app_assoc. rewrite app_nth2; rewrite app_length; cbn [length]; [|lia].
      replace (length pre + S (length mid) - (length pre + S (length mid))) with 0 by lia. done. }
    rewrite index_dash by done. f_equal. cbn [app].
    assert (forall (x : list string), pre ++ key :: x = (pre ++ [key]) ++ x)%list as Ex by (intros x; by rewrite <- app_assoc).
    rewrite (Ex (mid ++ _)%list), (Ex (map _ _ ++ _)%list). rewrite take_app_alt, drop_app_alt by (rewrite app_length; cbn [length]; lia).
    by rewrite <- app_assoc.
  - intros x. rewrite elem_of_cons. intros [->|Hx]; [by apply key_no_item|by apply H3].
  - by exists a, b.
Qed.

Lemma insert_new lines pkgs : (forall l, l ∈ lines -> packages_key l = false) ->
  insert_packages lines pkgs = Some (lines ++ ["" ; "Packages:"] ++ map (fun p => "- " +:+ p) pkgs)%list.
Proof. intros H. unfold insert_packages. by rewrite last_section_none. Qed.

(** Without any list item below the key the program panics unless the key line
    itself has a dash. *)
Lemma insert_panic pre key rest pkgs : packages_key key = true ->
  (forall l, l ∈ rest -> packages_key l = false) -> (forall l, l ∈ rest -> ~ list_item l) ->
  contains "-" key = false -> insert_packages (pre ++ key :: rest)%list pkgs = None.
Proof.
  intros H1 H2 H3 H4. unfold insert_packages. rewrite last_section_some by done. cbn [Nat.add].
  rewrite drop_app_alt by done. rewrite first_item_none.
  - rewrite Nat.add_0_r, nth_middle. unfold contains in H4. by destruct (index_of "-" key).
  - intros x. rewrite elem_of_cons. intros [->|Hx]; [by apply key_no_item|by apply H3].
Qed.

(** Any overlong line ends the file. *)
Lemma scan_long a l r : (forall x, x ∈ a -> unix_line x) -> is_line l -> (65536 <= N.of_nat (String.length l))%N ->
  scan_lines (text a +:+ l +:+ String lf r) = a.
Proof.
  intros Ha Hl Hlen. unfold scan_lines.
  assert (split_char line_feed (text a +:+ l +:+ String lf r) = (a ++ l :: split_char line_feed r)%list) as ->.
  { clear -Ha Hl. induction a as [|x a IH]; simpl; [by apply split_line|].
    rewrite app_assoc_str. simpl. rewrite split_line by (apply Ha; by left). f_equal. apply IH.
    intros y Hy. apply Ha. by right. }
  assert ((max_token <=? N.of_nat (String.length l))%N = true) as E by (by apply N.leb_le).
  assert (forall t, scan_pieces (l :: t) = []) as Hs.
  { intros [|y t]; cbn [scan_pieces]; rewrite E; [|done]. by destruct (String.eqb l ""). }
  induction a as [|x a IH]; cbn [app]; [apply Hs|].
  destruct (Ha x) as (H1 & H2 & H3); [by left|].
  assert ((max_token <=? N.of_nat (String.length x))%N = false) as E2 by (by apply N.leb_gt).
  assert (scan_pieces (a ++ l :: split_char line_feed r)%list = a) as IH' by (apply IH; intros y Hy; apply Ha; by right).
  destruct a as [|y a]; cbn [app] in *; cbn [scan_pieces] in *; rewrite E2, drop_cr_id by done.
  - by rewrite Hs.
  - by rewrite IH'.
Qed.

(** * Removing *)


Lemma trim_left_split f s : exists a, s = a +:+ trim_left f s /\ all_bytes f a = true.
Proof.
  induction s as [|c s (a & IH & Ha)]; [by exists ""|]. cbn [trim_left]. destruct (f c) eqn:E; [|by exists ""].
  exists (String c a). simpl. rewrite E. by rewrite <- IH.
Qed.

Lemma removed_spec name l : removed name l = true <-> item_like name l.
Proof.
  unfold removed, item_like. split.
  - intros H. destruct (trim_left_split is_blank l) as (a & E & Ha). apply has_prefix_true in H as [b Hb].
    exists a, b. split; [|].
    + rewrite E at 1. rewrite Hb. by rewrite !app_assoc_str.
    + revert Ha. apply all_bytes_impl. intros c Hc. apply char_eqb_eq in Hc as ->. done.
  - intros (a & b & -> & Ha). rewrite trim_left_app.
    + cbn [append trim_left]. replace (is_blank "-") with false by done. apply has_prefix_true. by exists b.
    + revert Ha. apply all_bytes_impl. intros c Hc. apply Ascii.eqb_eq in Hc as <-. done.
Qed.

Lemma remove_text name lines last :
  remove_loop name (lines ++ [last])%list =
  text (List.filter (fun l => negb (removed name l)) lines) +:+ (if removed name last then "" else last).
Proof.
  induction lines as [|l lines IH]; cbn [app].
  - simpl. done.
  - cbn [remove_loop List.filter]. destruct (removed name l); cbn [negb]; [done|].
    assert (exists x y, (lines ++ [last])%list = x :: y) as (x & y & E).
    { destruct lines; cbn [app]; eauto. }
    rewrite E. rewrite <- E, IH. simpl. by rewrite app_assoc_str.
Qed.

Lemma deletes_filter (P : nat -> string -> Prop) name i lines :
  (forall k l, lines !! k = Some l -> (P (i + k) l <-> removed name l = true)) ->
  deletes P i lines (List.filter (fun l => negb (removed name l)) lines).
Proof.
  revert i. induction lines as [|l lines IH]; intros i H; [constructor|]. simpl.
  assert (deletes P (S i) lines (List.filter (fun l => negb (removed name l)) lines)) as IH'.
  { apply IH. intros k x Hx. specialize (H (S k) x Hx). by replace (S i + k) with (i + S k) by lia. }
  specialize (H 0 l eq_refl). rewrite Nat.add_0_r in H.
  destruct (removed name l); cbn [negb].
  - apply del_drop; [by apply H|done].
  - apply del_keep; [|done]. intros HP. by apply H in HP.
Qed.

Lemma filter_none name lines : (forall l, l ∈ lines -> ~ item_like name l) ->
  List.filter (fun l => negb (removed name l)) lines = lines.
Proof.
  induction lines as [|l lines IH]; intros H; [done|]. simpl.
  destruct (removed name l) eqn:E.
  - apply removed_spec in E. exfalso. apply (H l); [by left|done].
  - simpl. f_equal. apply IH. intros x Hx. apply H. by right.
Qed.

(** * Adding and removing *)

Lemma add_ok pre key mid a b rest listed pkgs :
  (forall l, l ∈ (pre ++ key :: mid ++ (a +:+ "-" +:+ b) :: rest)%list -> unix_line l) ->
  packages_key key = true -> (forall l, l ∈ (mid ++ (a +:+ "-" +:+ b) :: rest)%list -> packages_key l = false) ->
  (forall x, x ∈ mid -> ~ list_item x) -> all_bytes white a = true ->
  add_packages (text (pre ++ key :: mid ++ (a +:+ "-" +:+ b) :: rest)%list) listed pkgs =
  Some (text (pre ++ key ::
    map (fun p => repeat_blank (String.length a) +:+ "- " +:+ p) (List.filter (fun p => negb (bool_decide (p ∈ listed))) pkgs) ++
    mid ++ (a +:+ "-" +:+ b) :: rest)%list).
Proof.
  intros H0 H1 H2 H3 H4. unfold add_packages. rewrite scan_text by done. rewrite insert_ok by done.
  by rewrite write_text.
Qed.

Lemma add_new lines listed pkgs : (forall l, l ∈ lines -> unix_line l) -> (forall l, l ∈ lines -> packages_key l = false) ->
  add_packages (text lines) listed pkgs =
  Some (text (lines ++ ["" ; "Packages:"] ++ map (fun p => "- " +:+ p) (List.filter (fun p => negb (bool_decide (p ∈ listed))) pkgs))%list).
Proof.
  intros H0 H1. unfold add_packages. rewrite scan_text by done. rewrite insert_new by done. by rewrite write_text.
Qed.

Lemma repeat_blank_all n : all_bytes (Ascii.eqb " ") (repeat_blank n) = true.
Proof. induction n as [|n IH]; [done|]. simpl. by rewrite IH. Qed.

Lemma repeat_blank_length n : String.length (repeat_blank n) = n.
Proof. induction n as [|n IH]; [done|]. simpl. by rewrite IH. Qed.

Lemma is_line_app a b : is_line a -> is_line b -> is_line (a +:+ b).
Proof. unfold is_line. intros H1 H2. by rewrite all_bytes_app, H1, H2. Qed.

Lemma repeat_blank_line n : is_line (repeat_blank n).
Proof. induction n as [|n IH]; [done|]. unfold is_line in *. simpl. by rewrite IH. Qed.

Lemma filter_app (f : string -> bool) (l1 l2 : list string) :
  List.filter f (l1 ++ l2)%list = (List.filter f l1 ++ List.filter f l2)%list.
Proof. induction l1 as [|x l1 IH]; [done|]. simpl. rewrite IH. by destruct (f x). Qed.

Lemma remove_text0 name lines : (forall l, l ∈ lines -> is_line l) ->
  remove_package (text lines) name = text (List.filter (fun l => negb (removed name l)) lines).
Proof.
  intros H. unfold remove_package. rewrite split_text0 by done. rewrite remove_text.
  assert (removed name "" = false) as -> by done. by rewrite app_nil_str.
Qed.

Lemma add_remove pre key mid a b rest listed p :
  (forall l, l ∈ (pre ++ key :: mid ++ (a +:+ "-" +:+ b) :: rest)%list -> unix_line l) -> is_line p ->
  packages_key key = true -> (forall l, l ∈ (mid ++ (a +:+ "-" +:+ b) :: rest)%list -> packages_key l = false) ->
  (forall x, x ∈ mid -> ~ list_item x) -> all_bytes white a = true ->
  (forall l, l ∈ (pre ++ key :: mid ++ (a +:+ "-" +:+ b) :: rest)%list -> ~ item_like p l) ->
  exists c, add_packages (text (pre ++ key :: mid ++ (a +:+ "-" +:+ b) :: rest)%list) listed [p] = Some c /\
    remove_package c p = text (pre ++ key :: mid ++ (a +:+ "-" +:+ b) :: rest)%list.
Proof.
  intros H0 Hp H1 H2 H3 H4 H5. eexists. split; [by apply add_ok|].
  set (new := List.filter _ [p]).
  assert (new = [p] \/ new = []) as Hnew.
  { unfold new. simpl. destruct (bool_decide (p ∈ listed)); [by right|by left]. }
  clearbody new.
  assert (forall l, l ∈ map (fun p => repeat_blank (String.length a) +:+ "- " +:+ p) new ->
     is_line l /\ removed p l = true) as Hn.
  { intros l Hl. apply elem_of_list_fmap in Hl as (q & -> & Hq).
    assert (q = p) as -> by (destruct Hnew; subst; set_solver). split.
    - apply is_line_app; [apply repeat_blank_line|]. by apply is_line_app.
    - apply removed_spec. exists (repeat_blank (String.length a)), "". rewrite app_nil_str.
      split; [done|apply repeat_blank_all]. }
  rewrite remove_text0.
  - f_equal. set (tail := (mid ++ (a +:+ "-" +:+ b) :: rest)%list) in *.
    rewrite filter_app. rewrite (filter_none p pre) by (intros l Hl; apply H5; set_solver). f_equal.
    cbn [List.filter].
    assert (removed p key = false) as ->.
    { apply not_true_iff_false. rewrite removed_spec. apply H5. set_solver. }
    cbn [negb]. f_equal. rewrite filter_app. rewrite (filter_none p tail) by (intros l Hl; apply H5; set_solver).
    assert (forall t, (forall l, l ∈ t -> is_line l /\ removed p l = true) ->
      List.filter (fun l => negb (removed p l)) t = []) as E.
    { induction t as [|x t IH]; intros Ht; [done|]. simpl. destruct (Ht x) as [_ ->]; [by left|]. simpl.
      apply IH. intros y Hy. apply Ht. by right. }
    by rewrite E.
  - intros l Hl. rewrite elem_of_app, elem_of_cons, elem_of_app in Hl.
    destruct Hl as [Hl|[Hl|[Hl|Hl]]]; [apply H0; set_solver|apply H0; set_solver|by apply Hn|apply H0; set_solver].
Qed.

Lemma indent_white a : all_bytes white a = true -> exists n, String.length a = n.
Proof. eauto. Qed.

(** A long line for a counterexample. *)
Fixpoint long (n : nat) : string := match n with 0 => "" | S n' => String "#" (long n') end.

Lemma long_length n : String.length (long n) = n.
Proof. induction n as [|n IH]; [done|]. simpl. by rewrite IH. Qed.

Lemma long_line n : is_line (long n).
Proof. induction n as [|n IH]; [done|]. unfold is_line in *. simpl. by rewrite IH. Qed.

Lemma unix_check l : forallb (fun c => negb (Ascii.eqb c lf) && negb (Ascii.eqb c cr)) (String.list_ascii_of_string l) = true ->
  (N.of_nat (String.length l) < 65536)%N -> unix_line l.
Proof.
  intros H Hl. split; [|split; [done|]].
  - unfold is_line. induction l as [|c l IH]; [done|]. simpl in *.
    apply andb_true_iff in H as [H1 H2]. apply andb_true_iff in H1 as [H1 _]. rewrite H1. apply IH; [done|lia].
  - intros r ->. clear Hl. induction r as [|c r IH]; simpl in H.
    + discriminate H.
    + apply andb_true_iff in H as [_ H]. auto.
Qed.
