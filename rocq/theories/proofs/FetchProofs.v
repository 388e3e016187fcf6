From stdpp Require Import strings list gmap.
From Coq Require Import Ascii ZArith Lia.
From Verif.model Require Import GoStr Version Desc Nexus RepoDb.
From Verif.spec Require Import StrSpec VersionSpec RepoSpec FetchSpec.
From Verif.proofs Require Import GoStrLemmas VersionProofs RepoProofs.

Local Open Scope string_scope.

(** ** Splitting an index into records *)
Lemma split_blank_nonempty s : split_blank_lines s <> [].
Proof.
  destruct s as [|c s]; [done|]. cbn [split_blank_lines].
  destruct (char_eqb c _).
  - destruct s as [|d s]; [done|]. destruct (char_eqb d _); [done|].
    by destruct (split_blank_lines (String d s)).
  - by destruct (split_blank_lines s).
Qed.

Definition prepend (p : string) (l : list string) : list string :=
  match l with [] => [p] | x :: r => (p +:+ x) :: r end.

Lemma prepend_app p q l : prepend p (prepend q l) = prepend (p +:+ q) l.
Proof. destruct l as [|x l]; simpl; [done|]. by rewrite app_assoc_str. Qed.

Lemma split_blank_line_cons c s :
  is_lf c = false -> split_blank_lines (String c s) = prepend (String c "") (split_blank_lines s).
Proof.
  intros H. cbn [split_blank_lines]. unfold is_lf, lf in H. unfold char_eqb. rewrite H.
  by destruct (split_blank_lines s).
Qed.

Lemma split_blank_line l s : line_bytes l = true ->
  split_blank_lines (l +:+ s) = prepend l (split_blank_lines s).
Proof.
  induction l as [|c l IH]; intros H.
  - simpl. by destruct (split_blank_lines s) eqn:E; [destruct (split_blank_nonempty s)|].
  - unfold line_bytes in H. cbn [all_bytes] in H. apply andb_true_iff in H as [H1 H2].
    apply andb_true_iff in H1 as [H1 _].
    change (String c l +:+ s) with (String c (l +:+ s)).
    rewrite split_blank_line_cons by (by destruct (is_lf c)). rewrite IH by done.
    by rewrite prepend_app.
Qed.

Lemma line_first l s : line_ok l -> exists c r, l +:+ s = String c r /\ is_lf c = false.
Proof.
  intros [Hne Hb]. destruct l as [|c l]; [done|]. exists c, (l +:+ s). split; [done|].
  unfold line_bytes in Hb. cbn [all_bytes] in Hb. by destruct (is_lf c).
Qed.

Lemma split_blank_newline c s : is_lf c = false ->
  split_blank_lines (String lf (String c s)) = prepend (String lf "") (split_blank_lines (String c s)).
Proof.
  intros H. unfold is_lf, lf in H. cbn [split_blank_lines]. unfold char_eqb, lf. rewrite Ascii.eqb_refl, H.
  by destruct (split_blank_lines s).
Qed.

Lemma rec_text_first ls s : ls <> [] -> Forall line_ok ls ->
  exists c r, rec_text (String lf "") ls +:+ s = String c r /\ is_lf c = false.
Proof.
  intros Hne H. destruct ls as [|l ls]; [done|]. apply Forall_cons in H as [Hl _].
  destruct ls as [|l2 ls]; cbn [rec_text].
  - by apply line_first.
  - rewrite app_assoc_str. by apply line_first.
Qed.

Lemma split_record ls s : ls <> [] -> Forall line_ok ls ->
  split_blank_lines (rec_text (String lf "") ls +:+ s) =
  prepend (rec_text (String lf "") ls) (split_blank_lines s).
Proof.
  intros Hne H. induction ls as [|l ls IH]; [done|].
  apply Forall_cons in H as [Hl H]. destruct ls as [|l2 ls].
  - cbn [rec_text]. apply split_blank_line, Hl.
  - change (rec_text (String lf "") (l :: l2 :: ls)) with
      (l +:+ String lf "" +:+ rec_text (String lf "") (l2 :: ls)).
    rewrite app_assoc_str, split_blank_line by apply Hl.
    destruct (rec_text_first (l2 :: ls) s ltac:(done) H) as (c & r & E & Hc).
    change ((String lf "" +:+ rec_text (String lf "") (l2 :: ls)) +:+ s) with
      (String lf (rec_text (String lf "") (l2 :: ls) +:+ s)).
    rewrite E, split_blank_newline by done. rewrite <- E, IH by done.
    by rewrite !prepend_app, ?app_assoc_str.
Qed.

Lemma split_blank_two s : split_blank_lines (String lf (String lf s)) = "" :: split_blank_lines s.
Proof. reflexivity. Qed.

Lemma split_index recs last trailing :
  Forall (fun ls => ls <> [] /\ Forall line_ok ls) recs -> last <> [] -> Forall line_ok last ->
  split_blank_lines (index_text (String lf "") recs last trailing) =
  (map (rec_text (String lf "")) recs ++
   [rec_text (String lf "") last +:+ (if trailing then String lf "" else "")])%list.
Proof.
  intros H Hne Hl. induction recs as [|r recs IH]; cbn [index_text map app].
  - rewrite split_record by done. by destruct trailing.
  - apply Forall_cons in H as [[H1 H2] H].
    rewrite split_record by done.
    change (String lf "" +:+ String lf "" +:+ index_text (String lf "") recs last trailing) with
      (String lf (String lf (index_text (String lf "") recs last trailing))).
    rewrite split_blank_two, IH by done. cbn [prepend]. by rewrite app_nil_str.
Qed.

(** Line ends *)
Lemma normalise_line l s : line_bytes l = true ->
  normalise_newlines (l +:+ s) = l +:+ normalise_newlines s.
Proof.
  induction l as [|c l IH]; intros H; [done|].
  unfold line_bytes in H. cbn [all_bytes] in H. apply andb_true_iff in H as [H1 H2].
  apply andb_true_iff in H1 as [_ H1].
  change (String c l +:+ s) with (String c (l +:+ s)). cbn [normalise_newlines].
  unfold is_cr, cr in H1. unfold char_eqb. destruct (Ascii.eqb c (ascii_of_nat 13)); [done|].
  change (String c l +:+ normalise_newlines s) with (String c (l +:+ normalise_newlines s)).
  f_equal. by apply IH.
Qed.

Lemma normalise_eol eol s : eol = String lf "" \/ eol = String cr (String lf "") ->
  normalise_newlines (eol +:+ s) = String lf "" +:+ normalise_newlines s.
Proof. by intros [-> | ->]. Qed.

Lemma normalise_record eol ls s : eol = String lf "" \/ eol = String cr (String lf "") ->
  Forall line_ok ls ->
  normalise_newlines (rec_text eol ls +:+ s) = rec_text (String lf "") ls +:+ normalise_newlines s.
Proof.
  intros He H. induction ls as [|l ls IH]; [done|]. apply Forall_cons in H as [[_ Hl] H].
  destruct ls as [|l2 ls]; [by apply normalise_line|].
  change (rec_text eol (l :: l2 :: ls)) with (l +:+ eol +:+ rec_text eol (l2 :: ls)).
  change (rec_text (String lf "") (l :: l2 :: ls)) with
    (l +:+ String lf "" +:+ rec_text (String lf "") (l2 :: ls)).
  rewrite !app_assoc_str, normalise_line by done. rewrite normalise_eol, IH by done.
  done.
Qed.

Lemma normalise_index eol recs last trailing :
  eol = String lf "" \/ eol = String cr (String lf "") ->
  Forall (fun ls => ls <> [] /\ Forall line_ok ls) recs -> Forall line_ok last ->
  normalise_newlines (index_text eol recs last trailing) = index_text (String lf "") recs last trailing.
Proof.
  intros He H Hl. induction recs as [|r recs IH]; cbn [index_text].
  - rewrite normalise_record by done. f_equal. destruct trailing; [|done].
    rewrite <- (app_nil_str eol), normalise_eol by done. done.
  - apply Forall_cons in H as [[H1 H2] H]. rewrite normalise_record by done.
    rewrite !normalise_eol, IH by done. done.
Qed.

Lemma rec_text_nonempty eol ls : ls <> [] -> Forall line_ok ls -> rec_text eol ls <> "".
Proof.
  intros Hne H. destruct ls as [|l ls]; [done|]. apply Forall_cons in H as [[Hl _] _].
  destruct l; [done|]. by destruct ls.
Qed.

Lemma record_texts_index eol recs last trailing :
  eol = String lf "" \/ eol = String cr (String lf "") ->
  Forall (fun ls => ls <> [] /\ Forall line_ok ls) recs -> last <> [] -> Forall line_ok last ->
  record_texts (index_text eol recs last trailing) =
  (map (rec_text (String lf "")) recs ++
   [rec_text (String lf "") last +:+ (if trailing then String lf "" else "")])%list.
Proof.
  intros He H Hne Hl. unfold record_texts. rewrite normalise_index, split_index by done.
  assert (forall p, p <> "" -> negb (String.eqb p "") = true) as N.
  { intros p Hp. by destruct p. }
  induction recs as [|r recs IH]; cbn [map app List.filter].
  - rewrite N; [done|]. pose proof (rec_text_nonempty (String lf "") last Hne Hl).
    by destruct (rec_text (String lf "") last).
  - apply Forall_cons in H as [[H1 H2] H]. rewrite N by (by apply rec_text_nonempty).
    f_equal. by apply IH.
Qed.

(** ** Collecting the indexes of a repository *)
Lemma descs_of_set st m l st' :
  descs_of (set_descs st m l) st' = if decide (st' = st) then m else descs_of l st'.
Proof.
  induction l as [|[t x] l IH]; cbn [set_descs descs_of].
  - repeat case_decide; congruence.
  - destruct (decide (t = st)) as [->|N]; cbn [descs_of].
    + repeat case_decide; congruence.
    + rewrite IH. repeat case_decide; congruence.
Qed.

Lemma set_descs_keys st m l : st ∈ l.*1 -> (set_descs st m l).*1 = l.*1.
Proof.
  induction l as [|[t x] l IH]; cbn [set_descs fmap list_fmap fst]; intros H; [by apply elem_of_nil in H|].
  destruct (decide (t = st)) as [->|N]; [done|]. cbn [fmap list_fmap fst]. f_equal.
  apply IH. apply elem_of_cons in H as [->|H]; [done|]. done.
Qed.

Definition count_none (arr : list (source_type * option (gmap string desc))) : nat :=
  length (List.filter (fun a => match snd a with None => true | Some _ => false end) arr).

Lemma collect_indexes_spec arr l e :
  NoDup arr.*1 -> (forall st, st ∈ arr.*1 -> st ∈ l.*1) ->
  (collect_indexes arr l e).1.*1 = l.*1 /\
  (collect_indexes arr l e).2 = e + count_none arr /\
  (forall st m, (st, Some m) ∈ arr -> descs_of (collect_indexes arr l e).1 st = m) /\
  (forall st, st ∉ arr.*1 \/ (st, None) ∈ arr ->
     descs_of (collect_indexes arr l e).1 st = descs_of l st).
Proof.
  revert l e. induction arr as [|[st o] arr IH]; intros l e Hnd Hin.
  - cbn. split; [done|]. split; [lia|]. split; [|done].
    intros st m H. by apply elem_of_nil in H.
  - cbn [fmap list_fmap fst] in Hnd. apply NoDup_cons in Hnd as [Hni Hnd].
    assert (forall x o', (x, o') ∈ arr -> x <> st) as Hne.
    { intros x o' Hx ->. apply Hni. apply elem_of_list_fmap. by exists (st, o'). }
    destruct o as [m|]; cbn [collect_indexes].
    + assert (st ∈ l.*1) as Hst by (apply Hin; by left).
      destruct (IH (set_descs st m l) e Hnd) as (A & B & C & D).
      { intros x Hx. rewrite set_descs_keys by done. apply Hin. by right. }
      rewrite set_descs_keys in A by done. split; [done|]. split; [done|]. split.
      * intros x m' H. apply elem_of_cons in H as [H|H].
        -- injection H as -> ->. rewrite D by (by left). rewrite descs_of_set. by case_decide.
        -- by apply C.
      * intros x H. rewrite D.
        -- rewrite descs_of_set. case_decide as Ex; [subst|done]. destruct H as [H|H].
           ++ destruct H. by left.
           ++ apply elem_of_cons in H as [H|H]; [done|]. by destruct (Hne _ _ H).
        -- destruct H as [H|H].
           ++ left. intros ?. apply H. by right.
           ++ apply elem_of_cons in H as [H|H]; [done|]. by right.
    + destruct (IH l (S e) Hnd) as (A & B & C & D).
      { intros x Hx. apply Hin. by right. }
      split; [done|]. split; [rewrite B; unfold count_none; cbn [List.filter snd length]; lia|]. split.
      * intros x m' H. apply elem_of_cons in H as [H|H]; [done|]. by apply C.
      * intros x H. apply D. destruct H as [H|H].
        -- left. intros ?. apply H. by right.
        -- apply elem_of_cons in H as [H|H]; [|by right]. injection H as ->. by left.
Qed.

Lemma count_none_all arr : count_none arr = length arr <-> (forall st o, (st, o) ∈ arr -> o = None).
Proof.
  unfold count_none. induction arr as [|[st o] arr IH].
  - split; [|done]. intros _ st o H. by apply elem_of_nil in H.
  - assert (length (List.filter (fun a => match snd a with None => true | Some _ => false end) arr)
      <= length arr) as Le by (clear; induction arr as [|[? [?|]] arr IH]; simpl; lia).
    destruct o as [m|]; cbn [List.filter snd length].
    + split; [intros; lia|]. intros H. specialize (H st (Some m) ltac:(by left)). done.
    + split.
      * intros H x o' Hx. apply elem_of_cons in Hx as [Hx|Hx]; [by injection Hx|].
        eapply IH; [lia|done].
      * intros H. f_equal. apply IH. intros x o' Hx. apply (H x). by right.
Qed.

Lemma arrivals_keys outcome types arr : arrivals_of outcome types arr -> arr.*1 ≡ₚ types.*1.
Proof.
  intros H. unfold arrivals_of in H. rewrite H. rewrite <- list_fmap_compose. done.
Qed.

Lemma counted_spec k n : counted k n <-> n = duration_seconds k.
Proof.
  unfold duration_seconds, wrap64. change (2 ^ 63)%Z with 9223372036854775808%Z. change (2 ^ 64)%Z with 18446744073709551616%Z. split.
  - intros (ns & q & E & B & N). assert (((k * 1000000000 + 9223372036854775808) mod 18446744073709551616)%Z = (ns + 9223372036854775808)%Z) as ->.
    { symmetry. apply (Z.mod_unique_pos _ _ (- q)); lia. }
    replace (ns + 9223372036854775808 - 9223372036854775808)%Z with ns by lia.
    apply (Z.div_unique_pos _ _ _ (ns - 1000000000 * n)); lia.
  - intros ->. set (m := ((k * 1000000000 + 9223372036854775808) mod 18446744073709551616)%Z).
    assert (0 <= m < 18446744073709551616)%Z as Hm by (apply Z.mod_pos_bound; lia).
    exists (m - 9223372036854775808)%Z, (- ((k * 1000000000 + 9223372036854775808) / 18446744073709551616))%Z.
    split; [|split; [lia|]].
    + pose proof (Z.div_mod (k * 1000000000 + 9223372036854775808) 18446744073709551616 ltac:(lia)). fold m in H. lia.
    + pose proof (Z.div_mod (m - 9223372036854775808) 1000000000 ltac:(lia)).
      pose proof (Z.mod_pos_bound (m - 9223372036854775808) 1000000000 ltac:(lia)). lia.
Qed.

Lemma max_age_spec env n : age_limit env n <-> n = max_age env.
Proof.
  unfold age_limit, max_age. split.
  - intros [(s & k & -> & H & C)|[H ->]].
    + apply atoi_spec in H. rewrite H. by apply counted_spec.
    + destruct env as [s|]; [|done]. destruct (atoi s) as [k e] eqn:E. destruct e; [|done|done].
      apply atoi_spec in E. by destruct (H s k).
  - intros ->. destruct env as [s|]; [|right; split; [|done]; by intros ? ? ?].
    destruct (atoi s) as [k e] eqn:E. destruct e.
    { left. exists s, k. split; [done|]. split; [by apply atoi_spec|by apply counted_spec]. }
    all: right; split; [|done]; intros s' k' [= <-] H; apply atoi_spec in H; congruence.
Qed.

Lemma index_for_set st m l st' m' :
  index_for (set_descs st m l) st' m' <-> (st' = st /\ m' = m) \/ (st' <> st /\ index_for l st' m').
Proof.
  induction l as [|[t x] l IH]; cbn [set_descs].
  - rewrite index_for_cons. split.
    + intros [[-> ->]|[? H]]; [by left|]. by apply index_for_nil in H.
    + intros [[-> ->]|[? H]]; [by left|]. by apply index_for_nil in H.
  - destruct (decide (t = st)) as [->|N].
    + rewrite !index_for_cons. split.
      * intros [[-> ->]|[? H]]; [by left|]. right. split; [done|]. by right.
      * intros [[-> ->]|[N [[-> _]|[_ H]]]]; [by left|done|by right].
    + rewrite !index_for_cons, IH. split.
      * intros [[-> ->]|[N' [[-> ->]|[? H]]]]; [right; split; [done|by left]|by left|].
        right. split; [done|]. by right.
      * intros [[-> ->]|[N' [[-> ->]|[? H]]]]; [right; split; [done|by left]|by left|].
        right. split; [done|]. by right.
Qed.

Lemma fetch_stale now env cache types arr outcome :
  NoDup types.*1 -> arrivals_of outcome types arr -> ~ fresh now env cache ->
  (1 < length types -> (forall st, st ∈ types.*1 -> outcome st = None) ->
     fetch_packages now env cache types arr = (FetchError, None)) /\
  (length types <= 1 \/ (exists st, st ∈ types.*1 /\ outcome st <> None) ->
     exists l, fetch_packages now env cache types arr = (FetchOk l, Some (CacheFile now l)) /\
       l.*1 = types.*1 /\
       forall st, st ∈ types.*1 ->
         match outcome st with
         | Some m => index_for l st m
         | None => forall m, index_for l st m <-> index_for types st m
         end).
Proof.
  intros Hnd Harr Hst.
  pose proof (arrivals_keys _ _ _ Harr) as Hk.
  assert (fetch_packages now env cache types arr =
    let '(l, errors) := collect_indexes arr types 0 in
    if ((1 <? length l)%nat && (errors =? length l)%nat)%bool then (FetchError, None)
    else (FetchOk l, Some (CacheFile now l))) as E.
  { unfold fetch_packages. destruct cache as [cf|]; [|done].
    unfold fresh in Hst. destruct (Z.gtb_spec (cf_mtime cf + max_age env) now); [|done].
    destruct Hst. exists cf, (max_age env). split; [done|]. split; [by apply max_age_spec|lia]. }
  destruct (collect_indexes_spec arr types 0) as (A & B & C & D).
  { by rewrite Hk. }
  { intros st. by rewrite Hk. }
  assert (length arr = length types) as Hlen.
  { rewrite <- (fmap_length fst arr), Hk. by rewrite fmap_length. }
  rewrite E. destruct (collect_indexes arr types 0) as [l errors]; cbn [fst snd] in *.
  assert (length l = length types) as Hl.
  { rewrite <- (fmap_length fst l), A. by rewrite fmap_length. }
  assert (forall st o, (st, o) ∈ arr <-> st ∈ types.*1 /\ o = outcome st) as Ain.
  { intros st o. unfold arrivals_of in Harr. rewrite Harr, elem_of_list_fmap. split.
    - intros (tm & [= -> ->] & Htm). split; [|done]. apply elem_of_list_fmap. eauto.
    - intros [H ->]. apply elem_of_list_fmap in H as (tm & -> & H). eauto. }
  assert (errors = length l <-> forall st, st ∈ types.*1 -> outcome st = None) as Herr.
  { rewrite B, Hl, <- Hlen. cbn [Nat.add]. rewrite count_none_all. split.
    - intros H st Hs. apply (H st). apply Ain. done.
    - intros H st o Ho. apply Ain in Ho as [Ho ->]. by apply H. }
  split.
  - intros H1 H2. rewrite (proj2 Herr H2). rewrite Nat.eqb_refl, Hl.
    destruct (Nat.ltb_spec 1 (length types)); [done|lia].
  - intros H. exists l. split; [|split; [done|]].
    + destruct (Nat.ltb_spec 1 (length l)); [|done]. cbn [andb].
      destruct (Nat.eqb_spec errors (length l)) as [E2|]; [|done].
      rewrite Hl in H0. destruct H as [H|(st & Hs & Ho)]; [lia|].
      by destruct Ho; apply Herr.
    + intros st Hs. destruct (outcome st) as [m|] eqn:Eo.
      * apply index_for_descs. rewrite A. split; [done|]. apply C, Ain. done.
      * intros m. rewrite !index_for_descs, A. rewrite (D st); [done|]. right. apply Ain. done.
Qed.

Lemma fetch_fresh now env cf types arr :
  fresh now env (Some cf) ->
  exists l, fetch_packages now env (Some cf) types arr = (FetchOk l, Some cf) /\
    (NoDup (cf_types cf).*1 -> forall st m, (st, m) ∈ cf_types cf -> index_for l st m) /\
    (forall st, st ∉ (cf_types cf).*1 -> forall m, index_for l st m <-> index_for types st m).
Proof.
  intros (cf' & n & [= <-] & Hn & H). apply max_age_spec in Hn as ->. unfold fetch_packages.
  destruct (Z.gtb_spec (cf_mtime cf + max_age env) now); [|lia].
  eexists. split; [done|]. revert types.
  induction (cf_types cf) as [|[t x] l IH]; intros types; cbn [fold_left fst snd].
  - split; [|done]. intros _ st m Hm. by apply elem_of_nil in Hm.
  - destruct (IH (set_descs t x types)) as [A B]. split.
    + intros Hnd. cbn [fmap list_fmap fst] in Hnd. apply NoDup_cons in Hnd as [Hni Hnd].
      intros st m Hm. apply elem_of_cons in Hm as [Hm|Hm].
      * injection Hm as -> ->. apply B; [done|]. apply index_for_set. by left.
      * by apply A.
    + intros st Hs m. cbn [fmap list_fmap fst] in Hs. apply not_elem_of_cons in Hs as [N1 N2].
      rewrite B by done. rewrite index_for_set. split; [intros [[? _]|[_ ?]]; done|]. by right.
Qed.

(** ** Collecting the repositories *)
Lemma collect_repos_spec arr dbs err :
  NoDup arr.*1 -> (forall i, i ∈ arr.*1 -> i < length dbs) ->
  length (collect_repos arr dbs err).1 = length dbs /\
  (forall i db, (i, inl db) ∈ arr -> (collect_repos arr dbs err).1 !! i = Some (Some db)) /\
  (forall i, i ∉ arr.*1 \/ (exists e, (i, inr e) ∈ arr) ->
     (collect_repos arr dbs err).1 !! i = dbs !! i) /\
  ((collect_repos arr dbs err).2 = None <-> err = None /\ forall i e, (i, inr e) ∉ arr) /\
  (forall e, (collect_repos arr dbs err).2 = Some e -> err = Some e \/ exists i, (i, inr e) ∈ arr).
Proof.
  revert dbs err. induction arr as [|[i o] arr IH]; intros dbs err Hnd Hin.
  - cbn. split; [done|]. split; [intros ? ? H; by apply elem_of_nil in H|]. split; [done|].
    split; [|auto]. split; [|tauto]. intros ->. split; [done|]. intros i e H. by apply elem_of_nil in H.
  - cbn [fmap list_fmap fst] in Hnd. apply NoDup_cons in Hnd as [Hni Hnd].
    assert (forall x o', (x, o') ∈ arr -> x <> i) as Hne.
    { intros x o' Hx ->. apply Hni. apply elem_of_list_fmap. by exists (i, o'). }
    assert (i < length dbs) as Hi by (apply Hin; by left).
    destruct o as [db|e]; cbn [collect_repos].
    + destruct (IH (<[i:=Some db]> dbs) err Hnd) as (A & B & C & D & E).
      { intros x Hx. rewrite insert_length. apply Hin. by right. }
      rewrite insert_length in A. split; [done|]. split; [|split; [|split]].
      * intros x db' H. apply elem_of_cons in H as [H|H].
        -- injection H as -> ->. rewrite C by (by left). by apply list_lookup_insert.
        -- by apply B.
      * intros x H. assert (x <> i) as Hx.
        { destruct H as [H|[e H]].
          - intros ->. apply H. by left.
          - apply elem_of_cons in H as [H|H]; [done|]. by eapply Hne. }
        rewrite C.
        -- by apply list_lookup_insert_ne.
        -- destruct H as [H|[e H]].
           ++ left. intros ?. apply H. by right.
           ++ apply elem_of_cons in H as [H|H]; [done|]. eauto.
      * rewrite D. split; intros [H1 H2]; split; try done; intros x e H.
        -- apply elem_of_cons in H as [H|H]; [done|]. by apply (H2 x e).
        -- apply (H2 x e). by right.
      * intros e He. destruct (E e He) as [|[x Hx]]; [by left|]. right. exists x. by right.
    + destruct (IH dbs (Some e) Hnd) as (A & B & C & D & E).
      { intros x Hx. apply Hin. by right. }
      split; [done|]. split; [|split; [|split]].
      * intros x db' H. apply elem_of_cons in H as [H|H]; [done|]. by apply B.
      * intros x H. apply C. destruct H as [H|[e' H]].
        -- left. intros ?. apply H. by right.
        -- apply elem_of_cons in H as [H|H]; [|eauto]. injection H as -> ->. by left.
      * rewrite D. split; [by intros [? _]|]. intros [_ H]. destruct (H i e). by left.
      * intros e' He. destruct (E e' He) as [H|[x Hx]].
        -- injection H as ->. right. exists i. by left.
        -- right. exists x. by right.
Qed.

Lemma new_pkg_db_spec (outcomes : list (repo_db + string)) arr :
  outcomes <> [] -> arr ≡ₚ imap pair outcomes ->
  (new_pkg_db (length outcomes) arr).1 =
    map (fun o => match o with inl db => Some db | inr _ => None end) outcomes /\
  ((new_pkg_db (length outcomes) arr).2 = None <-> forall e, inr e ∉ outcomes) /\
  (forall e, (new_pkg_db (length outcomes) arr).2 = Some e -> inr e ∈ outcomes).
Proof.
  intros Hne Harr. unfold new_pkg_db. destruct (Nat.eqb_spec (length outcomes) 0) as [E|E].
  { by destruct outcomes. }
  assert (forall i o, (i, o) ∈ arr <-> outcomes !! i = Some o) as Hin.
  { intros i o. rewrite Harr, elem_of_lookup_imap. split.
    - intros (j & x & [= -> ->] & H). done.
    - intros H. exists i, o. done. }
  assert (arr.*1 ≡ₚ seq 0 (length outcomes)) as Hk.
  { rewrite Harr. clear.
    assert (forall k, (imap (fun i o => (k + i, o)) outcomes).*1 = seq k (length outcomes)) as H.
    { induction outcomes as [|o l IH]; intros k; [done|]. cbn. rewrite Nat.add_0_r. f_equal.
      rewrite <- IH. f_equal. apply imap_ext. intros i x _. simpl. f_equal. lia. }
    rewrite <- (H 0). done. }
  destruct (collect_repos_spec arr (replicate (length outcomes) None) None) as (A & B & C & D & F).
  { rewrite Hk. apply NoDup_seq. }
  { intros i. rewrite Hk, elem_of_seq, replicate_length. lia. }
  split; [|split].
  - apply list_eq. intros i. rewrite list_lookup_fmap.
    destruct (outcomes !! i) as [[db|e]|] eqn:Ei; simpl.
    + apply B, Hin. done.
    + rewrite C by (right; exists e; by apply Hin). apply lookup_replicate_2. by eapply lookup_lt_Some.
    + apply lookup_ge_None. rewrite A, replicate_length. by apply lookup_ge_None.
  - rewrite D. split.
    + intros [_ H] e He. apply elem_of_list_lookup in He as [i Hi]. apply (H i e). by apply Hin.
    + intros H. split; [done|]. intros i e He. apply Hin in He. apply (H e).
      by eapply elem_of_list_lookup_2.
  - intros e He. destruct (F e He) as [?|[i Hi]]; [done|]. apply Hin in Hi.
    by eapply elem_of_list_lookup_2.
Qed.

(** ** Availability reports, ignored packages *)
Lemma filter_ext_list {A} (f g : A -> bool) l : (forall x, f x = g x) -> List.filter f l = List.filter g l.
Proof. intros H. induction l as [|x l IH]; [done|]. cbn [List.filter]. by rewrite H, IH. Qed.

Lemma missing_spec nx pkgs :
  ap_missing (get_packages nx pkgs) =
  List.filter (fun p => match get_package nx p with Some _ => false | None => true end) pkgs.
Proof.
  cbn. apply filter_ext_list. intros p. unfold get_package_go. by destruct (get_package nx p) as [[? ?]|].
Qed.

Lemma check_all_available_spec nx pkgs :
  check_all_available nx pkgs = true <-> forall p, p ∈ pkgs -> is_Some (get_package nx p).
Proof.
  unfold check_all_available. rewrite missing_spec. split.
  - intros H p Hp. destruct (get_package nx p) as [x|] eqn:E; [by exists x|].
    assert (p ∈ List.filter (fun p => match get_package nx p with Some _ => false | None => true end) pkgs) as Hin.
    { apply elem_of_list_In, filter_In. split; [by apply elem_of_list_In|]. by rewrite E. }
    destruct (List.filter _ pkgs); [by apply elem_of_nil in Hin|done].
  - intros H. assert (List.filter (fun p => match get_package nx p with Some _ => false | None => true end) pkgs = []) as ->; [|done].
    induction pkgs as [|p l IH]; [done|]. cbn [List.filter].
    destruct (H p) as [x ->]; [by left|]. apply IH. intros; apply H; by right.
Qed.

Lemma descs_of_delete l p st : descs_of (map (fun tm => (tm.1, delete p tm.2)) l) st = delete p (descs_of l st).
Proof.
  induction l as [|[t m] l IH]; cbn [map descs_of fst snd]; [by rewrite delete_empty|].
  by case_decide.
Qed.

Lemma first_some_map {A B C} (f : B -> option C) (g : A -> B) l :
  first_some f (map g l) = first_some (fun x => f (g x)) l.
Proof. induction l as [|x l IH]; [done|]. cbn [map first_some]. by rewrite IH. Qed.

Lemma first_some_ext {A B} (f g : A -> option B) l : (forall x, f x = g x) -> first_some f l = first_some g l.
Proof. intros H. induction l as [|x l IH]; [done|]. cbn [first_some]. by rewrite H, IH. Qed.

Lemma get_package_ignore nx p q :
  get_package (ignore_package nx p) q = if decide (q = p) then None else get_package nx q.
Proof.
  rewrite !get_package_first. unfold ignore_package. cbn [nx_db].
  case_decide as E.
  - subst. apply first_some_none. intros x Hx. apply elem_of_list_fmap in Hx as (db & -> & _).
    unfold offer_of. cbn [db_types]. rewrite descs_of_delete.
    by rewrite lookup_delete.
  - rewrite first_some_map. apply first_some_ext. intros x.
    unfold offer_of. cbn [db_types db_repo]. rewrite descs_of_delete, lookup_delete_ne by done.
    done.
Qed.

Lemma get_package_ignores nx l q :
  get_package (ignore_packages nx l) q = if decide (q ∈ l) then None else get_package nx q.
Proof.
  unfold ignore_packages. revert nx. induction l as [|p l IH]; intros nx; cbn [fold_left].
  - rewrite decide_False; [done|]. by intros ?%elem_of_nil.
  - rewrite IH, get_package_ignore. repeat case_decide; try done.
    + exfalso. apply H0. by right.
    + subst. exfalso. apply H1. by left.
    + exfalso. apply elem_of_cons in H1 as [?|?]; done.
Qed.

(** ** The cache key *)
Lemma app_inj_right a b t : a +:+ t = b +:+ t -> a = b.
Proof.
  assert (forall s, String.length (s +:+ t) = String.length s + String.length t) as L.
  { induction s as [|c s IH]; [done|]. cbn. by rewrite IH. }
  revert b. induction a as [|c a IH]; intros [|d b] H; [done| | |].
  - apply (f_equal String.length) in H. rewrite (L (String d b)) in H. cbn in H. lia.
  - apply (f_equal String.length) in H. rewrite (L (String c a)) in H. cbn in H. lia.
  - injection H as -> H. f_equal. by apply IH.
Qed.

Lemma app_inj_left a x y : a +:+ x = a +:+ y -> x = y.
Proof. induction a as [|c a IH]; [done|]. intros H. injection H as H. by apply IH. Qed.

Lemma split_at_last (f : ascii -> bool) a b c d x y :
  f c = false -> f d = false -> all_bytes f x = true -> all_bytes f y = true ->
  a +:+ String c x = b +:+ String d y -> a = b /\ c = d /\ x = y.
Proof.
  intros Hc Hd Hx Hy.
  assert (forall s t e z, all_bytes f z = true -> f e = false -> z <> s +:+ String e t) as N.
  { intros s t e z Hz He ->. induction s as [|g s IH]; cbn [append all_bytes] in Hz.
    - change ("" +:+ String e t) with (String e t) in Hz. cbn [all_bytes] in Hz. rewrite He in Hz. done.
    - apply IH. change (String g s +:+ String e t) with (String g (s +:+ String e t)) in Hz.
      cbn [all_bytes] in Hz. by apply andb_true_iff in Hz as [_ ?]. }
  revert b. induction a as [|g a IH]; intros [|h b] H.
  - injection H as -> ->. done.
  - injection H as -> H. by apply N in H.
  - injection H as -> H. symmetry in H. by apply N in H.
  - injection H as -> H. destruct (IH b H) as (-> & -> & ->). done.
Qed.

Definition version_byte (c : ascii) : bool := Ascii.eqb c "."%char || one_of "0123456789" c.

Lemma numeral_version_bytes ds : Forall (fun d => d < 10) ds -> all_bytes version_byte (numeral_text ds) = true.
Proof.
  induction 1 as [|d ds Hd _ IH]; [done|]. cbn [numeral_text all_bytes]. rewrite IH.
  do 10 (destruct d as [|d]; [done|]). lia.
Qed.

Lemma rv_full_bytes rv : all_bytes version_byte (rv_full rv) = true.
Proof.
  unfold rv_full.
  destruct (itoa_numeral (rv_major rv)) as (d0 & [_ O0] & _ & ->).
  destruct (itoa_numeral (rv_minor rv)) as (d1 & [_ O1] & _ & ->).
  destruct (itoa_numeral (rv_patch rv)) as (d2 & [_ O2] & _ & ->).
  rewrite !all_bytes_app, !numeral_version_bytes by done. done.
Qed.

Lemma source_type_string_cases b n : exists a, source_type_string b n = a +:+ "source" \/ source_type_string b n = a +:+ "binary".
Proof.
  unfold source_type_string. exists "".
  repeat match goal with |- context [if ?x then _ else _] => destruct x end; auto.
Qed.

Lemma hash_text_inj b r r' t rv rv' :
  ru_name r = ru_name r' ->
  hash_text b r t (rv_full rv) = hash_text b r' t (rv_full rv') ->
  ru_url r = ru_url r' /\ rv_full rv = rv_full rv'.
Proof.
  unfold hash_text. intros <- H. apply app_inj_left in H.
  set (st := source_type_string b (source_type_sum t)) in *.
  assert (exists p c, st = p +:+ String c "" /\ version_byte c = false) as (p & c & -> & Hc).
  { unfold st, source_type_string.
    repeat match goal with |- context [if ?x then _ else _] => destruct x end;
      first [by exists "binar", "y"%char | by exists "sourc", "e"%char]. }
  rewrite <- !app_assoc_str in H.
  assert (forall s x, (s +:+ p +:+ String c "") +:+ x = (s +:+ p) +:+ String c x) as A.
  { intros s x. by rewrite !app_assoc_str. }
  rewrite !app_assoc_str in H. cbn [append] in H.
  change (String c "" +:+ rv_full rv) with (String c (rv_full rv)) in H.
  change (String c "" +:+ rv_full rv') with (String c (rv_full rv')) in H.
  rewrite <- !app_assoc_str in H.
  apply (split_at_last version_byte) in H as (H1 & _ & H2); try done; try apply rv_full_bytes.
  split; [|done]. by eapply app_inj_right.
Qed.

Lemma rv_full_inj rv rv' : rv_ok rv -> rv_ok rv' -> rv_full rv = rv_full rv' -> rv = rv'.
Proof.
  intros H H' E. apply rv_full_parses in H, H'. rewrite E in H. rewrite H' in H.
  destruct rv, rv'; simpl in *. injection H as A B C. f_equal; lia.
Qed.
