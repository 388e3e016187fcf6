(** Settings. *)
From stdpp Require Import strings list.
From Coq Require Import Ascii ZArith NArith Lia.
From Verif.model Require Import GoStr RepoDb Env Yml Config.
From Verif.spec Require Import StrSpec VersionSpec YmlSpec ConfigSpec.
From Verif.model Require Import Fs.
From Verif.proofs Require Import GoStrLemmas VersionProofs StampProofs YmlProofs CleanProofs.

Local Open Scope string_scope.
Local Arguments Ascii.eqb : simpl never.
Local Arguments char_eqb : simpl never.

Lemma trim_right_keep f s r : trim_right f s = s -> s <> "" -> trim_right f (s +:+ r) = s +:+ trim_right f r.
Proof.
  induction s as [|c s IH]; intros H Hn; [done|]. cbn [trim_right] in H.
  change (String c s +:+ r) with (String c (s +:+ r)). cbn [trim_right].
  destruct s as [|d s].
  - cbn in H. change ("" +:+ r) with r. destruct (f c) eqn:E; [discriminate|]. by destruct (trim_right f r).
  - destruct (trim_right f (String d s)) as [|x t] eqn:E; [by destruct (f c)|]. injection H as Hx Ht.
    rewrite IH; [done|congruence|done].
Qed.

Lemma trim_right_first f c r : trim_right f (String c r) = "" \/ exists t, trim_right f (String c r) = String c t.
Proof. cbn [trim_right]. destruct (trim_right f r); [destruct (f c)|]; [by left|right; by eexists|right; by eexists]. Qed.

Lemma after_digits_sub seen s t : after_digits seen s = Some t -> exists a, s = a +:+ t.
Proof.
  revert seen. induction s as [|c s IH]; intros seen H; [done|]. cbn [after_digits] in H.
  destruct (digit_value c).
  - destruct (IH _ H) as [a ->]. by exists (String c a).
  - destruct (char_eqb c "]" && seen); [|done]. injection H as ->. by exists (String c "").
Qed.

Lemma strip_index_sub s : exists a, s = a +:+ strip_index s.
Proof.
  destruct s as [|c r]; [by exists ""|]. cbn [strip_index]. destruct (char_eqb c "["); [|by exists ""].
  destruct (after_digits false r) as [t|] eqn:E; [|by exists ""]. apply after_digits_sub in E as [a ->]. by exists (String c a).
Qed.

Lemma clean_line_sub s : exists a b, s = a +:+ clean_line s +:+ b.
Proof.
  unfold clean_line. destruct (strip_index_sub s) as [a Ha]. destruct (trim_sub is_space (strip_index s)) as (x & y & Hx).
  exists (a +:+ x), y. unfold trim_space. rewrite Ha at 1. rewrite Hx at 1. by rewrite app_assoc_str.
Qed.

Lemma occurs_clean p s : occurs p (clean_line s) -> occurs p s.
Proof.
  intros (a & b & H). destruct (clean_line_sub s) as (x & y & Hs). exists (x +:+ a), (b +:+ y).
  rewrite Hs, H. by rewrite !app_assoc_str.
Qed.

Lemma prefix_occurs p s : has_prefix p s = true -> occurs p s.
Proof. intros H. apply has_prefix_true in H as [r ->]. by exists "", r. Qed.

Lemma other_ignored l v : other_line l -> version_line (clean_line l) v = v.
Proof.
  intros [H1 H2]. destruct v; try done. unfold version_line.
  destruct (has_prefix "R version" (clean_line l)) eqn:E1; [exfalso; apply H1; by apply occurs_clean, prefix_occurs|].
  destruct (has_prefix "Platform:" (clean_line l)) eqn:E2; [exfalso; apply H2; by apply occurs_clean, prefix_occurs|]. done.
Qed.

Lemma keep_fold ls v : fold_left (fun v l => version_line l v) (List.filter (keep_line false) (map clean_line ls)) v
  = fold_left (fun v l => version_line (clean_line l) v) ls v.
Proof.
  revert v. induction ls as [|l ls IH]; intros v; [done|]. cbn [map List.filter fold_left].
  unfold keep_line at 1. rewrite andb_false_l, andb_true_r.
  destruct (String.eqb_spec (clean_line l) "") as [E|E]; cbn [negb]; [|apply IH].
  rewrite IH, E. by destruct v.
Qed.

Lemma other_fold ls v : (forall l, l ∈ ls -> other_line l) ->
  fold_left (fun v l => version_line (clean_line l) v) ls v = v.
Proof.
  intros H. induction ls as [|l ls IH]; [done|]. cbn [fold_left]. rewrite other_ignored by (apply H; by left).
  apply IH. intros k Hk. apply H. by right.
Qed.

(** ** Words *)

Lemma digit_plain d : d < 10 ->
  char_eqb "." (ascii_of_nat (48 + d)) = false /\ char_eqb " " (ascii_of_nat (48 + d)) = false
  /\ is_space (ascii_of_nat (48 + d)) = false.
Proof. intros H. do 10 (destruct d as [|d]; [repeat split|]). lia. Qed.

Lemma numeral_plain ds : Forall (fun d => d < 10) ds ->
  all_bytes (fun c => negb (char_eqb "." c)) (numeral_text ds) = true
  /\ all_bytes (fun c => negb (is_space c)) (numeral_text ds) = true
  /\ all_bytes (fun c => negb (char_eqb " " c)) (numeral_text ds) = true.
Proof.
  induction 1 as [|d ds Hd Hds (I1 & I2 & I3)]; [done|]. cbn [numeral_text all_bytes]. rewrite I1, I2, I3.
  destruct (digit_plain d Hd) as (-> & -> & ->). done.
Qed.

Lemma all_bytes_app f a b : all_bytes f (a +:+ b) = all_bytes f a && all_bytes f b.
Proof. induction a as [|c a IH]; [done|]. change (f c && all_bytes f (a +:+ b) = f c && all_bytes f a && all_bytes f b). rewrite IH. by destruct (f c). Qed.

Lemma trim_right_word s : all_bytes (fun c => negb (is_space c)) s = true -> trim_right is_space s = s.
Proof.
  induction s as [|c s IH]; [done|]. cbn [all_bytes trim_right]. intros [H1 H2]%andb_true_iff.
  apply negb_true_iff in H1. rewrite IH by done. destruct s; [by rewrite H1|done].
Qed.

(** A line that starts with a letter: only the end is trimmed. *)
Lemma clean_first c s : char_eqb c "[" = false -> is_space c = false ->
  clean_line (String c s) = trim_right is_space (String c s).
Proof.
  intros H1 H2. unfold clean_line. cbn [strip_index]. rewrite H1. unfold trim_space, trim. cbn [trim_left]. by rewrite H2.
Qed.

Lemma after_trim rest : after_word rest -> after_word (trim_right is_space rest).
Proof.
  intros [->|[r ->]]; [by left|]. destruct (trim_right_first is_space " " r) as [->|[t ->]]; [by left|right; by exists t].
Qed.

Lemma split_after w rest : all_bytes (fun c => negb (char_eqb " " c)) w = true -> after_word rest ->
  exists l, split_char " " (w +:+ rest) = w :: l.
Proof.
  intros Hw [->|[r ->]].
  - rewrite app_nil_str. unfold split_char. rewrite split_on_none by done. by eexists.
  - unfold split_char. rewrite split_on_app; [by eexists|done|by apply char_eqb_eq].
Qed.

Lemma dotted_split a b c : Forall (fun d => d < 10) a -> Forall (fun d => d < 10) b -> Forall (fun d => d < 10) c ->
  split_char "." (numeral_text a +:+ "." +:+ numeral_text b +:+ "." +:+ numeral_text c)
  = [numeral_text a; numeral_text b; numeral_text c].
Proof.
  intros Ha Hb Hc. unfold split_char.
  change ("." +:+ numeral_text b +:+ "." +:+ numeral_text c) with (String "." (numeral_text b +:+ String "." (numeral_text c))).
  rewrite split_on_app; [|by apply numeral_plain|by apply char_eqb_eq].
  rewrite split_on_app; [|by apply numeral_plain|by apply char_eqb_eq].
  by rewrite split_on_none by (by apply numeral_plain).
Qed.

Lemma version_line_read a b c rest ma mi pa p : small_numeral a -> small_numeral b -> small_numeral c -> after_word rest ->
  version_line (clean_line (version_line_of a b c rest)) (VData ma mi pa p)
  = VData (numeral_value a) (numeral_value b) (numeral_value c) p.
Proof.
  intros [[Na Ha] Va] [[Nb Hb] Vb] [[Nc Hc] Vc] Hr. unfold version_line_of.
  set (v := numeral_text a +:+ "." +:+ numeral_text b +:+ "." +:+ numeral_text c).
  replace ("R version " +:+ numeral_text a +:+ "." +:+ numeral_text b +:+ "." +:+ numeral_text c +:+ rest)
    with (("R version " +:+ v) +:+ rest) by (unfold v; by rewrite !app_assoc_str).
  destruct (numeral_plain a Ha) as (A1 & A2 & A3), (numeral_plain b Hb) as (B1 & B2 & B3), (numeral_plain c Hc) as (C1 & C2 & C3).
  assert (all_bytes (fun c => negb (is_space c)) v = true) as V1.
  { unfold v. rewrite !all_bytes_app, A2, B2, C2. done. }
  assert (all_bytes (fun c => negb (char_eqb " " c)) v = true) as V2.
  { unfold v. rewrite !all_bytes_app, A3, B3, C3. done. }
  assert (v <> "") as V3.
  { unfold v. destruct a as [|d a]; [done|]. discriminate. }
  assert (clean_line (("R version " +:+ v) +:+ rest) = "R version " +:+ v +:+ trim_right is_space rest) as ->.
  { change (("R version " +:+ v) +:+ rest) with (String "R" (" version " +:+ v +:+ rest)).
    rewrite clean_first by done.
    change (String "R" (" version " +:+ v +:+ rest)) with (("R version " +:+ v) +:+ rest).
    assert (trim_right is_space ("R version " +:+ v) = "R version " +:+ v) as Ev.
    { assert (forall x, trim_right is_space (x +:+ v) = x +:+ v) as K; [|apply K].
      intros x. induction x as [|d x IH]; [by apply trim_right_word|].
      change (String d x +:+ v) with (String d (x +:+ v)). cbn [trim_right]. rewrite IH.
      destruct (x +:+ v) eqn:E; [|done]. destruct x; [by cbn in E|done]. }
    rewrite (trim_right_keep is_space ("R version " +:+ v)); [by rewrite app_assoc_str|done|done]. }
  apply after_trim in Hr. revert Hr. generalize (trim_right is_space rest). intros t Ht.
  unfold version_line. rewrite (proj2 (has_prefix_true "R version" ("R version " +:+ v +:+ t))) by (by exists (" " +:+ v +:+ t)).
  destruct (split_after v t V2 Ht) as [l El].
  change ("R version " +:+ v +:+ t) with ("R" +:+ String " " ("version" +:+ String " " (v +:+ t))).
  unfold split_char in *. rewrite split_on_app; [|done|by apply char_eqb_eq].
  rewrite split_on_app; [|done|by apply char_eqb_eq]. rewrite El.
  change (split_on (char_eqb ".") v) with (split_char "." v). unfold v. rewrite dotted_split by done.
  by rewrite !atoi_numeral.
Qed.

Lemma trim_blank_word s : all_bytes (fun c => negb (is_space c)) s = true -> trim_blank s = s.
Proof.
  intros H. unfold trim_blank. apply trim_trimmed, trimmed_forall.
  induction s as [|c s IH]; [done|]. cbn [all_bytes] in *. apply andb_true_iff in H as [H1 H2]. rewrite IH by done.
  rewrite andb_true_r. unfold is_blank. destruct (char_eqb c " ") eqn:E; [|done]. apply char_eqb_eq in E as ->. done.
Qed.

Lemma platform_line_read p rest ma mi pa p0 : a_word p -> after_word rest ->
  version_line (clean_line (platform_line_of p rest)) (VData ma mi pa p0) = VData ma mi pa p.
Proof.
  intros [Hn Hp] Hr. unfold platform_line_of.
  assert (all_bytes (fun c => negb (is_space c)) p = true) as P1.
  { clear Hn. induction p as [|c p IH]; [done|]. cbn [all_bytes] in *. rewrite white_is_space in Hp.
    apply andb_true_iff in Hp as [-> Hp]. by rewrite IH. }
  assert (all_bytes (fun c => negb (char_eqb " " c)) p = true) as P2.
  { clear Hn Hp. induction p as [|c p IH]; [done|]. cbn [all_bytes] in *. apply andb_true_iff in P1 as [P1 P2].
    rewrite IH by done. rewrite andb_true_r. destruct (char_eqb " " c) eqn:E; [|done]. apply char_eqb_eq in E as <-. done. }
  assert (clean_line ("Platform: " +:+ p +:+ rest) = "Platform: " +:+ p +:+ trim_right is_space rest) as ->.
  { change ("Platform: " +:+ p +:+ rest) with (String "P" ("latform: " +:+ p +:+ rest)).
    rewrite clean_first by done.
    change (String "P" ("latform: " +:+ p +:+ rest)) with (("Platform: " +:+ p) +:+ rest).
    assert (trim_right is_space ("Platform: " +:+ p) = "Platform: " +:+ p) as Ev.
    { assert (forall x, trim_right is_space (x +:+ p) = x +:+ p) as K; [|apply K].
      intros x. induction x as [|d x IH]; [by apply trim_right_word|].
      change (String d x +:+ p) with (String d (x +:+ p)). cbn [trim_right]. rewrite IH.
      destruct (x +:+ p) eqn:E; [|done]. destruct x; [by cbn in E|done]. }
    rewrite (trim_right_keep is_space ("Platform: " +:+ p)); [by rewrite app_assoc_str|done|done]. }
  apply after_trim in Hr. revert Hr. generalize (trim_right is_space rest). intros t Ht.
  unfold version_line.
  assert (has_prefix "R version" ("Platform: " +:+ p +:+ t) = false) as -> by done.
  rewrite (proj2 (has_prefix_true "Platform:" ("Platform: " +:+ p +:+ t))) by (by exists (" " +:+ p +:+ t)).
  destruct (split_after p t P2 Ht) as [l El].
  change ("Platform: " +:+ p +:+ t) with ("Platform:" +:+ String " " (p +:+ t)).
  unfold split_char in *. rewrite split_on_app; [|done|by apply char_eqb_eq]. rewrite El.
  by rewrite trim_blank_word.
Qed.

Lemma version_read pre mid post a b c rest p prest :
  (forall l, l ∈ pre ++ mid ++ post -> unix_line l /\ other_line l)%list ->
  unix_line (version_line_of a b c rest) -> unix_line (platform_line_of p prest) ->
  small_numeral a -> small_numeral b -> small_numeral c -> after_word rest -> a_word p -> after_word prest ->
  parse_version_data (text (pre ++ [version_line_of a b c rest] ++ mid ++ [platform_line_of p prest] ++ post)%list)
  = VData (numeral_value a) (numeral_value b) (numeral_value c) p.
Proof.
  intros Ho Hv Hp Ha Hb Hc Hr Hw Hpr. unfold parse_version_data, scan_r_output. rewrite scan_text.
  - rewrite keep_fold, !fold_left_app. cbn [fold_left].
    rewrite (other_fold pre) by (intros l Hl; apply Ho; apply elem_of_app; by left).
    rewrite version_line_read by done.
    rewrite (other_fold mid) by (intros l Hl; apply Ho; rewrite !elem_of_app; naive_solver).
    rewrite platform_line_read by done.
    by rewrite (other_fold post) by (intros l Hl; apply Ho; rewrite !elem_of_app; naive_solver).
  - intros l. rewrite !elem_of_app, !elem_of_list_singleton. intros [H|[->|[H|[->|H]]]]; try done; apply Ho; rewrite !elem_of_app; naive_solver.
Qed.

(** ** The library of renv *)

Lemma string_rev_app_rev a b : string_rev (a +:+ b) "" = string_rev b "" +:+ string_rev a "".
Proof.
  induction a as [|c a IH]; [by rewrite app_nil_str|]. change (String c a +:+ b) with (String c (a +:+ b)).
  cbn [string_rev]. rewrite (string_rev_app (a +:+ b)), IH, (string_rev_app a (String c "")). by rewrite app_assoc_str.
Qed.

Lemma string_rev_twice s : string_rev (string_rev s "") "" = s.
Proof.
  induction s as [|c s IH]; [done|]. cbn [string_rev]. rewrite (string_rev_app s (String c "")), string_rev_app_rev, IH. done.
Qed.

Lemma cut_prefix_self p s : cut_prefix p (p +:+ s) = Some s.
Proof.
  induction p as [|c p IH]; [by destruct s|]. change (String c p +:+ s) with (String c (p +:+ s)). cbn [cut_prefix].
  replace (char_eqb c c) with true by (symmetry; by apply char_eqb_eq). done.
Qed.

Lemma trim_suffix_self s p : trim_suffix p (s +:+ p) = s /\ has_suffix p (s +:+ p) = true.
Proof.
  unfold trim_suffix, has_suffix. rewrite string_rev_app_rev. rewrite cut_prefix_self. split; [apply string_rev_twice|].
  apply has_prefix_app.
Qed.

Lemma find_app {A} f (l k : list A) : (forall x, x ∈ l -> f x = false) -> List.find f (l ++ k)%list = List.find f k.
Proof.
  intros H. induction l as [|x l IH]; [done|]. cbn. rewrite H by (by left). apply IH. intros y Hy. apply H. by right.
Qed.

Lemma clean_marked lib : clean_line ("_pkgr_" +:+ lib +:+ "_pkgr_") = "_pkgr_" +:+ lib +:+ "_pkgr_".
Proof.
  change ("_pkgr_" +:+ lib +:+ "_pkgr_") with (String "_" ("pkgr_" +:+ lib +:+ "_pkgr_")). rewrite clean_first by done.
  change (String "_" ("pkgr_" +:+ lib +:+ "_pkgr_")) with ("_pkgr_" +:+ lib +:+ "_pkgr_").
  rewrite <- app_assoc_str. generalize ("_pkgr_" +:+ lib). intros x.
  induction x as [|d x IH]; [done|]. change (String d x +:+ "_pkgr_") with (String d (x +:+ "_pkgr_")). cbn [trim_right]. rewrite IH.
  by destruct x.
Qed.

Lemma renv_read pre lib post : lib <> "" ->
  (forall l, l ∈ pre -> ~ occurs "_pkgr_" l) ->
  (forall l, l ∈ pre ++ ["_pkgr_" +:+ lib +:+ "_pkgr_"] ++ post -> unix_line l)%list ->
  get_renv_library (Some (text (pre ++ ["_pkgr_" +:+ lib +:+ "_pkgr_"] ++ post)%list)) = Some lib.
Proof.
  intros Hn Hpre Hu. unfold get_renv_library, scan_r_output. rewrite scan_text by done.
  rewrite map_app, List.filter_app. rewrite find_app.
  - cbn [map app]. rewrite clean_marked. cbn [List.filter].
    assert (keep_line false ("_pkgr_" +:+ lib +:+ "_pkgr_") = true) as -> by done.
    cbn [List.find]. unfold marker. rewrite has_prefix_app.
    destruct (trim_suffix_self ("_pkgr_" +:+ lib) "_pkgr_") as [_ H2]. rewrite app_assoc_str in H2. rewrite H2. cbn [andb].
    unfold trim_prefix. rewrite cut_prefix_self. destruct (trim_suffix_self lib "_pkgr_") as [-> _].
    by destruct (String.eqb_spec lib "").
  - intros x Hx. apply elem_of_list_In, filter_In in Hx as [Hx _]. apply in_map_iff in Hx as (l & <- & Hl).
    destruct (has_prefix marker (clean_line l)) eqn:E; [|done]. exfalso.
    apply (Hpre l); [by apply elem_of_list_In|]. by apply occurs_clean, prefix_occurs.
Qed.

(** ** The library *)

Lemma setting_asked flag env file l : asks_for flag env file l -> setting flag (env_value env) file "" = l.
Proof.
  intros [->|[(-> & -> & H)|(-> & [->| ->] & ->)]]; try done. by destruct l.
Qed.

Lemma setting_nothing flag env file : asks_nothing flag env file -> setting flag (env_value env) file "" = "".
Proof.
  intros H. unfold setting, env_value. destruct flag as [x|]; [apply H; by left|].
  destruct env as [[|c e]|].
  - destruct file as [y|]; [|done]. apply H. right. right. split; [done|]. split; [by right|done].
  - apply H. right. left. done.
  - destruct file as [y|]; [|done]. apply H. right. right. split; [done|]. split; [by left|done].
Qed.

Lemma split_slash_on s : split_slash s = split_on (char_eqb "/") s.
Proof.
  induction s as [|c s IH]; [done|]. cbn [split_slash split_on]. rewrite IH.
  replace (Ascii.eqb c "/") with (char_eqb "/" c); [done|]. unfold char_eqb. apply Ascii.eqb_sym.
Qed.

Lemma clean_loop_plain rooted l : forall out, (forall x, x ∈ l -> plain_name x) ->
  clean_loop rooted out l = (rev out ++ l)%list.
Proof.
  induction l as [|x l IH]; intros out H; [by rewrite app_nil_r|]. cbn [clean_loop].
  destruct (H x) as (H1 & H2 & H3 & _); [by left|].
  destruct (String.eqb_spec x ""); [done|]. destruct (String.eqb_spec x "."); [done|]. destruct (String.eqb_spec x ".."); [done|].
  cbn [orb]. rewrite IH by (intros y Hy; apply H; by right). cbn [rev]. by rewrite <- app_assoc.
Qed.

Lemma packrat_path p v : plain_name p -> plain_name v ->
  join_elems ["packrat"; "lib"; p; v] = "packrat/lib/" +:+ p +:+ "/" +:+ v.
Proof.
  intros Hp Hv. unfold join_elems. cbn [List.filter].
  destruct (String.eqb_spec p ""); [by destruct Hp|]. destruct (String.eqb_spec v ""); [by destruct Hv|].
  cbn [String.eqb negb]. change (String.eqb "packrat" "") with false. change (String.eqb "lib" "") with false. cbn [negb].
  unfold clean. change (has_prefix "/" (join "/" ["packrat"; "lib"; p; v])) with false. cbv zeta iota.
  rewrite split_slash_on. change "/" with (String "/" "") at 1 2.
  rewrite (split_join "/" ["packrat"; "lib"; p; v]); [|done|].
  - rewrite clean_loop_plain.
    + cbn [rev app]. destruct (String.eqb_spec (join (String "/" "") ["packrat"; "lib"; p; v]) ""); [done|]. done.
    + intros x. rewrite !elem_of_cons, elem_of_nil. intros [->|[->|[->|[->|[]]]]]; done.
  - intros x. rewrite !elem_of_cons, elem_of_nil. intros [->|[->|[->|[->|[]]]]]; [done|done|apply Hp|apply Hv].
Qed.
