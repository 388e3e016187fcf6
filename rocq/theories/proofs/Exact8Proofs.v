(** Proofs for P_Exact8. *)
From stdpp Require Import strings list gmap.
From Coq Require Import Ascii ZArith NArith Lia.
From Verif.model Require Import GoStr Desc Nexus RepoDb Fs Env Yml Install Download Urls Config Valtools.
From Verif.spec Require Import StrSpec EnvSpec VersionSpec YmlSpec UrlSpec ConfigSpec ExactSpec ValSpec Exact8Spec.
From Verif.proofs Require Import GoStrLemmas VersionProofs StampProofs YmlProofs CleanProofs ConfigProofs ExactProofs UrlProofs ValProofs.

Local Open Scope string_scope.

(** ** Fields *)

Lemma split_cases c s : (without c s /\ split_char c s = [s]) \/
  exists x r, s = x +:+ String c r /\ without c x /\ split_char c s = x :: split_char c r.
Proof.
  induction s as [|d s IH]; [by left|]. unfold split_char in *. cbn [split_on].
  destruct (char_eqb c d) eqn:E.
  - right. exists "", s. apply char_eqb_eq in E as <-. done.
  - assert (Ascii.eqb c d = false) as E' by exact E.
    destruct IH as [[H ->]|(x & r & -> & H & ->)].
    + left. split; [|done]. unfold without. cbn [all_bytes]. rewrite E'. done.
    + right. exists (String d x), r. split; [done|]. split; [|done].
      unfold without. cbn [all_bytes]. rewrite E'. done.
Qed.

Lemma split_without c s : without c s -> split_char c s = [s].
Proof. intros H. unfold split_char. by apply split_on_none. Qed.

Lemma split_with c x r : without c x -> split_char c (x +:+ String c r) = x :: split_char c r.
Proof. intros H. unfold split_char. apply split_on_app; [done|apply char_eqb_refl]. Qed.

Lemma gives_version_split l a b c : gives_version l a b c <->
  exists x y v k, split_char " " l = x :: y :: v :: k /\ split_char "." v = [a; b; c].
Proof.
  split.
  - intros (x & y & rest & -> & Hx & Hy & Hr & (Ha & Hb & Hc) & Ha' & Hb' & Hc').
    set (v := a +:+ "." +:+ b +:+ "." +:+ c).
    assert (without " " v) as Hv.
    { unfold v, without in *. rewrite !all_bytes_app, Ha', Hb', Hc'. done. }
    replace (x +:+ " " +:+ y +:+ " " +:+ a +:+ "." +:+ b +:+ "." +:+ c +:+ rest)
      with (x +:+ String " " (y +:+ String " " (v +:+ rest))).
    2:{ unfold v. rewrite !app_assoc_str. done. }
    rewrite (split_with " " x), (split_with " " y) by done.
    destruct (split_after v rest Hv Hr) as [k ->]. exists x, y, v, k. split; [done|].
    unfold v. change ("." +:+ b +:+ "." +:+ c) with (String "." (b +:+ String "." c)).
    by rewrite (split_with "." a), (split_with "." b), (split_without "." c).
  - intros (x & y & v & k & H & Hv).
    destruct (split_cases " " l) as [[_ E]|(x' & r & -> & Hx & E)]; rewrite E in H; [done|]. injection H as -> H.
    destruct (split_cases " " r) as [[_ E1]|(y' & r1 & -> & Hy & E1)]; rewrite E1 in H; [done|]. injection H as -> H.
    assert (exists rest, r1 = v +:+ rest /\ without " " v /\ after_word rest) as (rest & -> & Hw & Hr).
    { destruct (split_cases " " r1) as [[H2 E2]|(z & r2 & -> & Hz & E2)]; rewrite E2 in H.
      - injection H as -> _. exists "". rewrite app_nil_str. split; [done|]. split; [done|]. by left.
      - injection H as -> _. exists (String " " r2). split; [done|]. split; [done|]. right. by exists r2. }
    destruct (split_cases "." v) as [[_ E2]|(a' & t & -> & Ha & E2)]; rewrite E2 in Hv; [done|]. injection Hv as -> Hv.
    destruct (split_cases "." t) as [[_ E3]|(b' & t1 & -> & Hb & E3)]; rewrite E3 in Hv; [done|]. injection Hv as -> Hv.
    destruct (split_cases "." t1) as [[Hc E4]|(c' & t2 & -> & Hc & E4)]; rewrite E4 in Hv.
    2:{ injection Hv as _ Hv. by apply split_on_nonnil in Hv. }
    injection Hv as ->. exists x, y, rest. split; [rewrite !app_assoc_str; cbn [append]; rewrite !app_assoc_str; done|]. split; [done|]. split; [done|].
    split; [done|]. split; [done|]. unfold without in Hw |- *.
    rewrite all_bytes_app in Hw. cbn [all_bytes] in Hw. rewrite all_bytes_app in Hw. cbn [all_bytes] in Hw.
    rewrite !andb_true_iff in Hw. tauto.
Qed.

Lemma gives_platform_split l p : gives_platform l p <-> exists x k, split_char " " l = x :: p :: k.
Proof.
  split.
  - intros (x & rest & -> & Hx & Hp & Hr). change (" " +:+ p +:+ rest) with (String " " (p +:+ rest)).
    rewrite (split_with " " x) by done. destruct (split_after p rest Hp Hr) as [k ->]. by exists x, k.
  - intros (x & k & H).
    destruct (split_cases " " l) as [[_ E]|(x' & r & -> & Hx & E)]; rewrite E in H; [done|]. injection H as -> H.
    destruct (split_cases " " r) as [[H2 E2]|(z & r2 & -> & Hz & E2)]; rewrite E2 in H.
    + injection H as -> _. exists x, "". rewrite app_nil_str. split; [done|]. split; [done|]. split; [done|]. by left.
    + injection H as -> _. exists x, (String " " r2). split; [done|]. split; [done|]. split; [done|]. right. by exists r2.
Qed.

(** ** One line *)

Lemma clean_tidy l : tidy l -> clean_line l = l.
Proof.
  intros [H1 H2]. destruct l as [|c r]; [done|]. destruct (H1 c r eq_refl) as [Hw Hb].
  rewrite white_is_space in Hw. rewrite clean_first.
  - generalize (String c r), H2. clear. intros s. induction s as [|d s IH]; intros H; [done|]. cbn [trim_right].
    rewrite IH by (intros r e ->; by apply (H (String d r) e)).
    destruct s; [|done]. assert (white d = false) as Hd by (by apply (H "" d)). rewrite white_is_space in Hd. by rewrite Hd.
  - destruct (char_eqb c "[") eqn:E; [|done]. by apply char_eqb_eq in E.
  - done.
Qed.

Lemma about_prefix p l : has_prefix p l = true <-> exists r, l = p +:+ r.
Proof. apply has_prefix_true. Qed.

Lemma trim_blank_without p : without " " p -> trim_blank p = p.
Proof.
  intros H. unfold trim_blank. apply trim_trimmed, trimmed_forall. revert H. apply all_bytes_impl.
  intros c. unfold is_blank, char_eqb. by rewrite Ascii.eqb_sym.
Qed.

Lemma version_line_cases l ma mi pa p :
  (about_version l /\ exists a b c, gives_version l a b c /\
     version_line l (VData ma mi pa p) = VData (number_in a) (number_in b) (number_in c) p) \/
  (about_version l /\ (forall a b c, ~ gives_version l a b c) /\ version_line l (VData ma mi pa p) = VFatal) \/
  (~ about_version l /\ about_platform l /\ exists q, gives_platform l q /\ version_line l (VData ma mi pa p) = VData ma mi pa q) \/
  (~ about_version l /\ about_platform l /\ (forall q, ~ gives_platform l q) /\ version_line l (VData ma mi pa p) = VPanic) \/
  (~ about_version l /\ ~ about_platform l /\ version_line l (VData ma mi pa p) = VData ma mi pa p).
Proof.
  unfold version_line. destruct (has_prefix "R version" l) eqn:E.
  - assert (about_version l) as Ha by (by apply about_prefix).
    destruct (split_char " " l) as [|x [|y [|v k]]] eqn:Es.
    1-3: right; left; split; [done|]; split; [|done]; intros a b c H; apply gives_version_split in H as (?&?&?&?&H&_); congruence.
    destruct (split_char "." v) as [|a [|b [|c [|d w]]]] eqn:Ev.
    1-3,5: right; left; split; [done|]; split; [|done]; intros a' b' c' H; apply gives_version_split in H as (?&?&?&?&H&H2);
      rewrite Es in H; injection H as <- <- <- <-; congruence.
    left. split; [done|]. exists a, b, c. rewrite <- !atoi_exact. split; [|done]. apply gives_version_split. by exists x, y, v, k.
  - assert (~ about_version l) as Ha by (intros H; apply about_prefix in H; congruence). right; right.
    destruct (has_prefix "Platform:" l) eqn:E1.
    + assert (about_platform l) as Hb by (by apply about_prefix).
      destruct (split_char " " l) as [|x [|q k]] eqn:Es.
      1-2: right; left; split; [done|]; split; [done|]; split; [|done]; intros q' H; apply gives_platform_split in H as (?&?&H); congruence.
      assert (gives_platform l q) as Hq by (apply gives_platform_split; by exists x, k).
      left. split; [done|]. split; [done|]. exists q. split; [done|].
      destruct Hq as (? & ? & _ & _ & Hq & _). by rewrite trim_blank_without.
    + right; right. split; [done|]. split; [|done]. intros H; apply about_prefix in H; congruence.
Qed.

Lemma last_with_snoc_other (P : string -> Prop) lines l x : ~ P x -> last_with P lines l -> last_with P (lines ++ [x])%list l.
Proof.
  intros Hx (pre & post & -> & Hl & Hp). exists pre, (post ++ [x])%list. split; [by rewrite <- (assoc_L (++))|].
  split; [done|]. intros y. rewrite elem_of_app, elem_of_list_singleton. intros [Hy| ->]; [by apply Hp|done].
Qed.

Lemma last_with_snoc (P : string -> Prop) lines l : P l -> last_with P (lines ++ [l])%list l.
Proof. intros H. exists lines, []. split; [done|]. split; [done|]. intros x Hx. by apply elem_of_nil in Hx. Qed.

Lemma all_snoc (P : string -> Prop) lines x : (forall l, l ∈ lines -> P l) -> P x -> forall l, l ∈ (lines ++ [x])%list -> P l.
Proof. intros H Hx l. rewrite elem_of_app, elem_of_list_singleton. intros [Hl| ->]; [by apply H|done]. Qed.

Lemma about_apart l : about_version l -> ~ about_platform l.
Proof. intros [r ->] [r' H]. cbn in H. discriminate H. Qed.

Lemma version_lines_read lines :
  version_read_as lines (fold_left (fun v l => version_line l v) lines (VData 0 0 0 "")).
Proof.
  induction lines as [|x lines IH] using rev_ind.
  - cbn. split; [|split; [right|right]].
    + intros l Hl. by apply elem_of_nil in Hl.
    + split; [|done]. intros l Hl. by apply elem_of_nil in Hl.
    + split; [|done]. intros l Hl. by apply elem_of_nil in Hl.
  - rewrite fold_left_app. cbn [fold_left]. remember (fold_left (fun v l => version_line l v) lines (VData 0 0 0 "")) as v eqn:Ev.
    clear Ev. destruct v as [ma mi pa p| |].
    2:{ cbn in *. destruct IH as (pre & l & post & -> & H). exists pre, l, (post ++ [x])%list. split; [by rewrite <- (assoc_L (++))|done]. }
    2:{ cbn in *. destruct IH as (pre & l & post & -> & H). exists pre, l, (post ++ [x])%list. split; [by rewrite <- (assoc_L (++))|done]. }
    cbn [version_read_as] in IH. destruct IH as (Hr & Hv & Hp).
    destruct (version_line_cases x ma mi pa p) as [(Ha & a & b & c & Hg & ->)|[(Ha & Hg & ->)|[(Ha & Hb & q & Hg & ->)|[(Ha & Hb & Hg & ->)|(Ha & Hb & ->)]]]];
      cbn [version_read_as].
    + split; [|split].
      * apply all_snoc; [done|]. split; [intros _; by exists a, b, c|]. intros Hb. by apply about_apart in Ha.
      * left. exists x, a, b, c. split; [by apply last_with_snoc|done].
      * destruct Hp as [(l & Hl & Hq)|[Hn ->]].
        -- left. exists l. split; [|done]. apply last_with_snoc_other; [by apply about_apart|done].
        -- right. split; [|done]. apply all_snoc; [done|by apply about_apart].
    + exists lines, x, []. done.
    + split; [|split].
      * apply all_snoc; [done|]. split; [done|]. intros _. by exists q.
      * destruct Hv as [(l & a & b & c & Hl & Hq)|[Hn Hz]].
        -- left. exists l, a, b, c. split; [|done]. by apply last_with_snoc_other.
        -- right. split; [|done]. by apply all_snoc.
      * left. exists x. split; [by apply last_with_snoc|done].
    + exists lines, x, []. done.
    + split; [|split].
      * apply all_snoc; [done|]. by split.
      * destruct Hv as [(l & a & b & c & Hl & Hq)|[Hn Hz]].
        -- left. exists l, a, b, c. split; [|done]. by apply last_with_snoc_other.
        -- right. split; [|done]. by apply all_snoc.
      * destruct Hp as [(l & Hl & Hq)|[Hn ->]].
        -- left. exists l. split; [|done]. by apply last_with_snoc_other.
        -- right. split; [|done]. by apply all_snoc.
Qed.

Lemma version_read_exact lines : (forall l, l ∈ lines -> unix_line l /\ tidy l) ->
  version_read_as lines (parse_version_data (text lines)).
Proof.
  intros H. unfold parse_version_data, scan_r_output. rewrite scan_text by (intros l Hl; by apply H). rewrite keep_fold.
  assert (forall v, fold_left (fun v l => version_line (clean_line l) v) lines v = fold_left (fun v l => version_line l v) lines v) as ->.
  { induction lines as [|l lines IH]; intros v; [done|]. cbn [fold_left]. rewrite clean_tidy by (apply H; by left).
    apply IH. intros k Hk. apply H. by right. }
  apply version_lines_read.
Qed.

(** ** Adding and removing *)

Lemma filter_shorter (f : string -> bool) l : length (List.filter f l) <= length l.
Proof. induction l as [|x l IH]; [done|]. cbn [List.filter length]. destruct (f x); cbn [length]; lia. Qed.

Lemma filter_all (f : string -> bool) l : length (List.filter f l) = length l -> forall x, x ∈ l -> f x = true.
Proof.
  induction l as [|y l IH]; intros H x Hx; [by apply elem_of_nil in Hx|]. cbn [List.filter length] in H.
  pose proof (filter_shorter f l). destruct (f y) eqn:E; cbn [length] in H; [|lia].
  apply elem_of_cons in Hx as [-> |Hx]; [done|]. apply IH; [lia|done].
Qed.

Lemma text_inj l k : (forall x, x ∈ l -> is_line x) -> (forall x, x ∈ k -> is_line x) -> text l = text k -> l = k.
Proof.
  intros Hl Hk H. assert (split_char line_feed (text l) = split_char line_feed (text k)) as E by (by rewrite H).
  rewrite !split_text0 in E by done. by apply app_inv_tail in E.
Qed.

Lemma last_section_found i f lines n : last_section i f lines = Some n -> f = Some n \/ exists l, l ∈ lines /\ packages_key l = true.
Proof.
  revert i f. induction lines as [|l lines IH]; intros i f H; [by left|]. cbn [last_section] in H.
  apply IH in H as [H|(k & Hk & H)].
  - destruct (has_prefix "Packages:" l) eqn:E; [|by left]. right. exists l. split; [by left|].
    unfold packages_key. by rewrite prefix_has.
  - right. exists k. split; [by right|done].
Qed.

Lemma last_section_missing i f lines : last_section i f lines = None -> forall l, l ∈ lines -> packages_key l = false.
Proof.
  revert i f. induction lines as [|l lines IH]; intros i f H x Hx; [by apply elem_of_nil in Hx|]. cbn [last_section] in H.
  apply elem_of_cons in Hx as [-> |Hx]; [|by eapply IH].
  unfold packages_key. rewrite prefix_has. destruct (has_prefix "Packages:" l); [|done]. exfalso.
  assert (forall a b, last_section a (Some b) lines <> None) as K; [|by apply (K (S i) i)]. clear.
  induction lines as [|k lines IH]; intros a b; [done|]. cbn [last_section]. destruct (has_prefix "Packages:" k); apply IH.
Qed.

Lemma item_new n p : removed p (repeat_blank n +:+ "- " +:+ p) = true.
Proof.
  apply removed_spec. exists (repeat_blank n), "". split; [by rewrite app_nil_str|apply repeat_blank_all].
Qed.

Lemma add_remove_exact lines listed p c : (forall l, l ∈ lines -> unix_line l) -> is_line p ->
  add_packages (text lines) listed [p] = Some c ->
  remove_package c p = text lines <->
  (exists l, l ∈ lines /\ packages_key l = true) /\ (forall l, l ∈ lines -> ~ item_like p l).
Proof.
  intros Hl Hp H. unfold add_packages in H. rewrite scan_text in H by done. cbv zeta in H.
  set (new := List.filter (fun p => negb (bool_decide (p ∈ listed))) [p]) in *.
  assert (new = [] \/ new = [p]) as Hnew by (unfold new; cbn [List.filter]; destruct (negb _); [by right|by left]).
  unfold insert_packages in H. destruct (last_section 0 None lines) as [start|] eqn:Es.
  - destruct (index_of "-" _) as [n|]; [|done]. injection H as <-. rewrite write_text.
    apply last_section_found in Es as [Es|Hk]; [done|].
    set (l1 := take (S start) lines). set (l2 := drop (S start) lines).
    assert (lines = (l1 ++ l2)%list) as E by (symmetry; apply take_drop).
    set (items := map (fun p => repeat_blank n +:+ "- " +:+ p) new).
    assert (forall x, x ∈ items -> is_line x /\ removed p x = true) as Hi.
    { intros x Hx. unfold items in Hx. destruct Hnew as [-> | ->]; [by apply elem_of_nil in Hx|].
      apply elem_of_list_singleton in Hx as ->. split; [|apply item_new].
      apply is_line_app; [apply repeat_blank_line|]. by apply is_line_app. }
    assert (forall l, l ∈ (l1 ++ items ++ l2)%list -> is_line l) as Hall.
    { intros l. rewrite !elem_of_app. intros [Hx|[Hx|Hx]].
      - apply Hl. rewrite E, elem_of_app. by left.
      - by apply Hi.
      - apply Hl. rewrite E, elem_of_app. by right. }
    change (remove_package (text (l1 ++ items ++ l2)%list) p = text lines <->
      (exists l, l ∈ lines /\ packages_key l = true) /\ (forall l, l ∈ lines -> ~ item_like p l)).
    rewrite remove_text0 by done. rewrite !YmlProofs.filter_app.
    assert (List.filter (fun l => negb (removed p l)) items = []) as ->.
    { clear -Hi. induction items as [|x items IH]; [done|]. cbn [List.filter]. destruct (Hi x) as [_ ->]; [by left|].
      apply IH. intros y Hy. apply Hi. by right. }
    cbn [app]. rewrite <- YmlProofs.filter_app, <- E. split.
    + intros H. split; [done|]. intros l Hx Hit. apply removed_spec in Hit.
      apply text_inj in H; [|intros x Hx'; apply Hl; apply elem_of_list_In, filter_In in Hx' as [Hx' _]; by apply elem_of_list_In|intros x Hx'; by apply Hl].
      pose proof (filter_all (fun l => negb (removed p l)) lines ltac:(by rewrite H) l Hx) as K. cbn in K. by rewrite Hit in K.
    + intros [_ H]. by rewrite filter_none.
  - injection H as <-. rewrite write_text. pose proof (last_section_missing _ _ _ Es) as Hk. split.
    + intros H. exfalso.
      assert (forall l, l ∈ (lines ++ [""; "Packages:"] ++ map (fun p => "- " +:+ p) new)%list -> is_line l) as Hall.
      { intros l. rewrite !elem_of_app. intros [Hx|[Hx|Hx]].
        - by apply Hl.
        - rewrite !elem_of_cons, elem_of_nil in Hx. destruct Hx as [-> |[-> |[]]]; done.
        - destruct Hnew as [E|E]; rewrite E in Hx; [by apply elem_of_nil in Hx|].
          apply elem_of_list_singleton in Hx as ->. by apply is_line_app. }
      rewrite remove_text0 in H by done.
      apply text_inj in H; [|intros x Hx'; apply Hall; apply elem_of_list_In, filter_In in Hx' as [Hx' _]; by apply elem_of_list_In|intros x Hx'; by apply Hl].
      assert ("Packages:" ∈ lines) as Hin.
      { rewrite <- H. apply elem_of_list_In, filter_In. split; [|done]. apply elem_of_list_In.
        rewrite elem_of_app. right. cbn [app]. right. by left. }
      by apply Hk in Hin.
    + intros [(l & Hx & K) _]. by rewrite (Hk l Hx) in K.
Qed.

(** ** The type of a repository *)

Lemma make_default_exact os v :
  (if bool_decide (rc_default (make_repo_config v) = STDefault) then default_type os
   else rc_default (make_repo_config v)) = STBinary <->
  ~ same_word (rq_type v) "source" /\
  (same_word (rq_type v) "binary" \/ same_word (rq_repo_type v) "MPN" \/ os = Darwin \/ os = Windows).
Proof.
  unfold make_repo_config. cbn [rc_default].
  rewrite <- !equal_fold_same.
  destruct (equal_fold (rq_type v) "source"), (equal_fold (rq_type v) "binary"), (equal_fold (rq_repo_type v) "MPN"), os; cbn; naive_solver.
Qed.

Lemma make_default_known os v :
  let d := if bool_decide (rc_default (make_repo_config v) = STDefault) then default_type os
           else rc_default (make_repo_config v) in d = STSource \/ d = STBinary.
Proof.
  unfold make_repo_config. cbn [rc_default].
  destruct (equal_fold (rq_type v) "source"), (equal_fold (rq_type v) "binary"), (equal_fold (rq_repo_type v) "MPN"), os; cbn; tauto.
Qed.

(** ** The matrix *)

Lemma stat_ok f p : stat f p = StatOk <-> present f p.
Proof.
  unfold present. rewrite <- stat_error. unfold stat. destruct (under_file f [] p), (f p); naive_solver.
Qed.

Lemma check_files_none f top l : check_files f top l = ([], false) <-> forall x, x ∈ l -> present f (join_path top x).
Proof.
  induction l as [|x l IH]; cbn [check_files].
  - split; [|done]. intros _ x Hx. by apply elem_of_nil in Hx.
  - destruct (stat f (join_path top x)) eqn:E.
    + rewrite IH. apply stat_ok in E. split.
      * intros H y [-> |Hy]%elem_of_cons; [done|by apply H].
      * intros H y Hy. apply H. by right.
    + split.
      * destruct (check_files f top l). done.
      * intros H. exfalso. specialize (H x ltac:(by left)). apply stat_ok in H. congruence.
    + split; [done|]. intros H. specialize (H x ltac:(by left)). apply stat_ok in H. congruence.
Qed.

Lemma join_dot top : join_path top "." = top.
Proof. done. Qed.

Lemma doc_point_dot : doc_point "." = "" /\ doc_point "" = "".
Proof. done. Qed.

Lemma check_twice_none es : check_twice [] es = [] <-> NoDup (map en_point es).
Proof.
  assert (forall seen, check_twice seen es = [] <-> NoDup (map en_point es) /\ forall e, e ∈ es -> en_point e ∉ seen) as K.
  { induction es as [|e es IH]; intros seen; cbn [check_twice map].
    - split; [|done]. intros _. split; [constructor|]. intros e He. by apply elem_of_nil in He.
    - rewrite NoDup_cons. destruct (decide (en_point e ∈ seen)) as [H|H].
      + rewrite bool_decide_eq_true_2 by done. split; [done|]. intros [_ K]. exfalso. apply (K e); [by left|done].
      + rewrite bool_decide_eq_false_2 by done. rewrite IH. split.
        * intros [H1 H2]. split; [split; [|done]|].
          -- intros Hin. apply elem_of_list_fmap in Hin as (e' & E & He'). apply (H2 e' He'). rewrite <- E. by left.
          -- intros e' [-> |He']%elem_of_cons; [done|]. intros Hs. apply (H2 e' He'). by right.
        * intros [[H1 H2] H3]. split; [done|]. intros e' He' [E|Hs]%elem_of_cons.
          -- apply H1. rewrite <- E. by apply elem_of_list_fmap_1.
          -- apply (H3 e'); [by right|done]. }
  rewrite K. split; [by intros [H _]|]. intros H. split; [done|]. intros e _ He. by apply elem_of_nil in He.
Qed.

Lemma empty_list (l : list issue) : l = [] <-> forall m, m ∉ l.
Proof.
  split; [intros -> m Hm; by apply elem_of_nil in Hm|]. destruct l as [|m l]; [done|]. intros H. exfalso. apply (H m). by left.
Qed.

Lemma matrix_passes es l top f : (forall x, x ∈ l -> plain_name x) ->
  check_matrix (Some es) (Some l) top f = ([], false) <->
  (forall e, e ∈ es -> entry_passes top f e) /\ NoDup (map en_point es) /\
  (forall x, x ∈ l -> exists e, e ∈ es /\ documents x (en_point e)).
Proof.
  intros Hl.
  assert (check_matrix (Some es) (Some l) top f = ([], false) <->
    check_names es = [] /\ check_files f top (flat_map entry_files es) = ([], false) /\ check_docs es = [] /\
    check_twice [] es = [] /\ check_entries es l = []) as ->.
  { unfold check_matrix. destruct (check_files f top (flat_map entry_files es)) as [is [|]].
    - split; [done|]. by intros (_ & ? & _).
    - split.
      + intros [= H]. apply app_eq_nil in H as [H H5]. apply app_eq_nil in H as [H1 H]. apply app_eq_nil in H as [-> H].
        apply app_eq_nil in H as [H3 H4]. done.
      + intros (-> & [= ->] & -> & -> & ->). done. }
  rewrite check_files_none, check_twice_none.
  assert (check_names es = [] <-> forall e x, e ∈ es -> file_of e x -> x = "." \/ exists k, names x k) as ->.
  { rewrite empty_list. split.
    - intros H e x He Hx. apply valid_path_names. destruct (valid_path x) eqn:E; [done|]. exfalso.
      apply (H (BadName x)). apply check_names_in. by exists e, x.
    - intros H m Hm. apply check_names_in in Hm as (e & x & He & Hx & Hv & _). specialize (H e x He Hx).
      apply valid_path_names in H. congruence. }
  assert (check_docs es = [] <-> forall e, e ∈ es -> en_skip e = false -> doc_point (en_doc e) = en_point e) as ->.
  { rewrite empty_list. split.
    - intros H e He Hs. destruct (decide (doc_point (en_doc e) = en_point e)) as [E|E]; [done|]. exfalso.
      apply (H (Mismatch (en_point e) (en_doc e))). apply check_docs_in. by exists e.
    - intros H m Hm. apply check_docs_in in Hm as (e & He & Hs & Hn & _). apply Hn. by apply H. }
  assert (check_entries es l = [] <-> forall x, x ∈ l -> exists e, e ∈ es /\ documents x (en_point e)) as ->.
  { rewrite empty_list. split.
    - intros H x Hx. destruct (decide (doc_point x ∈ map en_point es)) as [Hin|Hin].
      + apply elem_of_list_fmap in Hin as (e & E & He). exists e. split; [done|]. apply (doc_point_plain x); [by apply Hl|done].
      + exfalso. apply (H (NoEntry x)). apply check_entries_in. exists x. split; [done|]. split; [|done].
        intros e He E. apply Hin. rewrite E. by apply elem_of_list_fmap_1.
    - intros H m Hm. apply check_entries_in in Hm as (x & Hx & Hn & _). destruct (H x Hx) as (e & He & Hd).
      apply (Hn e He). by apply doc_point_plain; [apply Hl|]. }
  split.
  - intros (H1 & H2 & H3 & H4 & H5). split; [|done]. intros e He. split.
    + intros x Hx. assert (present f (join_path top x)) as Hp by (apply H2, all_files; by exists e).
      destruct (H1 e x He Hx) as [-> |[k Hk]].
      * left. by rewrite join_dot in Hp.
      * right. exists k. split; [done|]. by rewrite (names_join top x k) in Hp.
    + intros Hs. specialize (H3 e He Hs). destruct (decide (en_doc e = "")) as [Ed|Ed].
      * left. split; [by left|]. rewrite Ed in H3. by rewrite <- H3.
      * destruct (H1 e (en_doc e) He) as [E|[k Hk]].
        -- left. split; [done|]. by right.
        -- left. split; [by right|]. rewrite E in H3. by rewrite <- H3.
        -- right. destruct (names_snoc _ _ Hk) as (k' & x & ->). exists k', x. split; [done|]. by apply (doc_point_names (en_doc e) k' x).
  - intros (H1 & H4 & H5). split; [|split; [|split; [|done]]].
    + intros e x He Hx. destruct (H1 e He) as [K _]. destruct (K x Hx) as [[-> _]|(k & Hk & _)]; [by left|right; by exists k].
    + intros x Hx. apply all_files in Hx as (e & He & Hx). destruct (H1 e He) as [K _].
      destruct (K x Hx) as [[-> Hp]|(k & Hk & Hp)]; [done|]. by rewrite (names_join top x k).
    + intros e He Hs. destruct (H1 e He) as [_ K]. destruct (K Hs) as [[[-> | ->] ->]|(k & x & Hk & Hd)]; [done..|].
      by apply (doc_point_names _ k x).
Qed.
