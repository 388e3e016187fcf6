(** The text of log files. *)
From stdpp Require Import strings list gmap.
From Coq Require Import Ascii NArith Lia.
From Verif.model Require Import GoStr Env Logging Json Records.
From Verif.spec Require Import EnvSpec JsonSpec RecordsSpec.
From Verif.proofs Require Import GoStrLemmas EnvProofs JsonProofs.

Local Open Scope string_scope.

(** ** Values in one line *)

Fixpoint flat_items (html : bool) (l : list json) : string :=
  match l with [] => "]" | y :: l' => "," +:+ flat html y +:+ flat_items html l' end.

Fixpoint flat_members (html : bool) (l : list (string * json)) : string :=
  match l with [] => "}" | (k', y) :: l' => "," +:+ quoted html k' +:+ ":" +:+ flat html y +:+ flat_members html l' end.

Lemma flat_arr html x l : flat html (JArr (x :: l)) = "[" +:+ flat html x +:+ flat_items html l.
Proof. cbn [flat]. f_equal. f_equal. induction l as [|y l IH]; [done|]. cbn [flat_items]. by rewrite <- IH. Qed.

Lemma flat_obj html k x l : flat html (JObj ((k, x) :: l)) = "{" +:+ quoted html k +:+ ":" +:+ flat html x +:+ flat_members html l.
Proof.
  cbn [flat]. f_equal. f_equal. f_equal. f_equal. induction l as [|[k' y] l IH]; [done|]. cbn [flat_members]. by rewrite <- IH.
Qed.

Definition flat_back (html : bool) (v : json) : Prop :=
  exists f0, forall f t, f0 <= f -> no_digit t -> read_value f (flat html v +:+ t) = Some (jmap mend v, t).

Lemma flat_items_back html l : Forall (flat_back html) l -> forall x, flat_back html x ->
  exists f0, forall f t, f0 <= f -> read_items f (flat html x +:+ flat_items html l +:+ t) = Some (map (jmap mend) (x :: l), t).
Proof.
  induction 1 as [|y l Hy _ IH]; intros x (f1 & Hx).
  - exists (S f1). intros f t Hf. destruct f as [|f]; [lia|]. cbn [read_items flat_items map].
    rewrite Hx; [|lia|done]. done.
  - destruct (IH y Hy) as (f2 & H2). exists (S (f1 + f2)). intros f t Hf. destruct f as [|f]; [lia|].
    cbn [read_items]. rewrite Hx; [|lia|done]. cbn [flat_items].
    change (skip (("," +:+ flat html y +:+ flat_items html l) +:+ t)) with (String "," ((flat html y +:+ flat_items html l) +:+ t)).
    change (is "," 44) with true. cbv iota. rewrite app_assoc_str. rewrite H2 by lia. done.
Qed.

Lemma flat_step f html k u : read_members (S f) (quoted html k +:+ ":" +:+ u) =
  match read_value f u with
  | None => None
  | Some (x, r) =>
      match skip r with
      | "" => None
      | String c r' =>
          if is c 44 then
            match read_members f r' with Some (l, r'') => Some ((mend k, x) :: l, r'') | None => None end
          else if is c 125 then Some ([(mend k, x)], r') else None
      end
  end.
Proof.
  rewrite quoted_key. cbn [read_members]. rewrite (skip_head """" _ eq_refl). change (is """" 34) with true. cbv iota.
  rewrite read_escape. cbv iota beta. change (skip (":" +:+ u)) with (String ":" u). cbv iota beta.
  change (is ":" 58) with true. cbv iota. done.
Qed.

Lemma flat_members_back html l : Forall (fun kx => flat_back html kx.2) l -> forall k x, flat_back html x ->
  exists f0, forall f t, f0 <= f ->
    read_members f (quoted html k +:+ ":" +:+ flat html x +:+ flat_members html l +:+ t) =
      Some (map (fun kx => (mend kx.1, jmap mend kx.2)) ((k, x) :: l), t).
Proof.
  induction 1 as [|[k' y] l Hy _ IH]; intros k x (f1 & Hx).
  - exists (S f1). intros f t Hf. destruct f as [|f]; [lia|]. rewrite flat_step.
    rewrite Hx; [|lia|done]. cbn [flat_members]. done.
  - destruct (IH k' y Hy) as (f2 & H2). exists (S (f1 + f2)). intros f t Hf. destruct f as [|f]; [lia|].
    rewrite flat_step. rewrite Hx; [|lia|done]. cbn [flat_members].
    change (skip (("," +:+ quoted html k' +:+ ":" +:+ flat html y +:+ flat_members html l) +:+ t)) with
      (String "," ((quoted html k' +:+ ":" +:+ flat html y +:+ flat_members html l) +:+ t)).
    change (is "," 44) with true. cbv iota. rewrite !app_assoc_str, H2 by lia. done.
Qed.

Lemma flat_head html v : exists c r, flat html v = String c r /\ (is c 32 || is c 9 || is c 10 || is c 13) = false /\ is c 93 = false.
Proof.
  destruct v as [|[]|n|p|s|[|x l]|[|[k x] l]]; try (by do 2 eexists).
  destruct (number_text n "" I) as (d' & r & E & D & _). rewrite app_nil_str in E. exists (digit_char d'), r.
  split; [done|]. unfold is, digit_char. rewrite !ascii_N by lia. rewrite !orb_false_iff, !N.eqb_neq. lia.
Qed.

Lemma flat_comes_back html v : flat_back html v.
Proof.
  induction v as [|b|n|p|s|l IH|l IH] using json_ind'.
  - exists 1. intros f t Hf _. destruct f as [|f]; [lia|]. done.
  - exists 1. intros f t Hf _. destruct f as [|f]; [lia|]. by destruct b.
  - destruct (all_come_back html "" (JNum n) ltac:(done)) as (f0 & H). exists f0. intros f t Hf Ht. apply (H f 0 t Hf Ht).
  - destruct (all_come_back html "" (JNeg p) ltac:(done)) as (f0 & H). exists f0. intros f t Hf Ht. apply (H f 0 t Hf Ht).
  - destruct (all_come_back html "" (JStr s) ltac:(done)) as (f0 & H). exists f0. intros f t Hf Ht. apply (H f 0 t Hf Ht).
  - destruct l as [|x l].
    { exists 1. intros f t Hf _. destruct f as [|f]; [lia|]. done. }
    apply Forall_cons in IH as [Hx Hl].
    destruct (flat_items_back html l Hl x Hx) as (f0 & H0). exists (S (S f0)). intros f t Hf _.
    destruct f as [|f]; [lia|]. rewrite flat_arr. rewrite !app_assoc_str.
    destruct (flat_head html x) as (c & r & E & E1 & E2).
    assert (skip (flat html x +:+ flat_items html l +:+ t) = String c (r +:+ flat_items html l +:+ t)) as E3.
    { rewrite E. cbn [String.append]. by rewrite skip_head. }
    specialize (H0 f t ltac:(lia)). revert E3 H0. generalize (flat html x +:+ flat_items html l +:+ t). intros u E3 HH.
    cbn [read_value]. change ("[" +:+ u) with (String "[" u). rewrite (skip_head "[" _ eq_refl).
    change (is "[" 34) with false. change (is "[" 91) with true. cbv iota. by rewrite E3, E2, HH.
  - destruct l as [|[k x] l].
    { exists 1. intros f t Hf _. destruct f as [|f]; [lia|]. done. }
    apply Forall_cons in IH as [Hx Hl].
    destruct (flat_members_back html l Hl k x Hx) as (f0 & H0). exists (S (S f0)). intros f t Hf _.
    destruct f as [|f]; [lia|]. rewrite flat_obj. rewrite !app_assoc_str.
    assert (exists c r, skip (quoted html k +:+ ":" +:+ flat html x +:+ flat_members html l +:+ t) = String c r /\ is c 125 = false) as (c & r & E & E2).
    { rewrite quoted_key. rewrite (skip_head """" _ eq_refl). by do 2 eexists. }
    specialize (H0 f t ltac:(lia)). revert E H0. generalize (quoted html k +:+ ":" +:+ flat html x +:+ flat_members html l +:+ t).
    intros u E HH. cbn [read_value]. change ("{" +:+ u) with (String "{" u). rewrite (skip_head "{" _ eq_refl).
    change (is "{" 34) with false. change (is "{" 91) with false. change (is "{" 123) with true. cbv iota. by rewrite E, E2, HH.
Qed.

Lemma flat_reads html v : Reads (flat html v) (jmap mend v).
Proof. destruct (flat_comes_back html v) as (f & H). exists f, "". split; [|done]. rewrite <- (app_nil_str (flat html v)). by apply H. Qed.

(** ** No new lines *)

Lemma no_newline_app a b : no_newline (a +:+ b) <-> no_newline a /\ no_newline b.
Proof. induction a as [|c a IH]; cbn [String.append no_newline]; [tauto|]. rewrite IH. tauto. Qed.

Lemma escape_low_line html b : (N_of_ascii b < 128)%N -> no_newline (escape_low html b).
Proof.
  intros H. destruct b as [[] [] [] [] [] [] [] []]; try (exfalso; vm_compute in H; discriminate);
    destruct html; vm_compute; repeat split; discriminate.
Qed.

Lemma high_line b r : (128 <= N_of_ascii b)%N -> no_newline r -> no_newline (String b r).
Proof. intros H1 H2. split; [lia|done]. Qed.

Lemma hex_line n : (n < 16)%N -> N_of_ascii (hex_char n) <> 10%N.
Proof. intros H. unfold hex_char. destruct (n <? 10)%N eqn:E; rewrite ascii_N; try lia; apply N.ltb_ge in E; lia. Qed.

Lemma escape_line html s : no_newline (escape html s).
Proof.
  induction s as [s IH] using string_len_ind.
  destruct (begin_of s) as [|b s H|b1 b2 s H R2|b1 b2 b3 s H R2 R3|b1 b2 b3 b4 s H R2 R3 R4|b s H B].
  - done.
  - cbn [escape]. rewrite low_ltb by done. apply no_newline_app. split; [by apply escape_low_line|]. apply IH. cbn. lia.
  - cbn [escape]. rewrite high_ltb, R2 by done. apply high_line; [done|]. apply high_line; [by eapply rune2_high|]. apply IH. cbn. lia.
  - cbn [escape]. rewrite high_ltb, R2, R3 by done. destruct (rune3_high _ _ _ R3) as [H2 H3].
    destruct (line_sep b1 b2 b3) eqn:L.
    + apply (no_newline_app "\u202"). split; [by vm_compute|]. split; [|apply IH; cbn; lia]. apply hex_line.
      destruct (divmod_ex (N_of_ascii b3) 16 ltac:(lia)) as (q & r & Q & R & D1 & D2). rewrite R. lia.
    + apply high_line; [done|]. apply high_line; [done|]. apply high_line; [done|]. apply IH. cbn. lia.
  - cbn [escape]. rewrite high_ltb, R2, R3, R4 by done. destruct (rune4_high _ _ _ _ R4) as (H2 & H3 & H4).
    apply high_line; [done|]. apply high_line; [done|]. apply high_line; [done|]. apply high_line; [done|]. apply IH. cbn. lia.
  - rewrite escape_bad by done. apply no_newline_app. split; [by vm_compute|]. apply IH. cbn. lia.
Qed.

Lemma quoted_line html s : no_newline (quoted html s).
Proof. unfold quoted. rewrite !no_newline_app. split; [by vm_compute|]. split; [apply escape_line|by vm_compute]. Qed.

Lemma itoa_aux_line fuel n t : no_newline t -> no_newline (itoa_aux fuel n t).
Proof.
  revert n t. induction fuel as [|fuel IH]; intros n t H; [done|]. cbn [itoa_aux].
  destruct (divmod_ex n 10 ltac:(lia)) as (q & r & Q & R & D1 & D2). rewrite Q, R.
  assert (no_newline (String (digit_char r) t)) as H'. { split; [|done]. unfold digit_char. rewrite ascii_N by lia. lia. }
  destruct (n <? 10)%N; [done|]. by apply IH.
Qed.

Lemma itoa_line n : no_newline (itoa n).
Proof. by apply itoa_aux_line. Qed.

Lemma flat_line html v : no_newline (flat html v).
Proof.
  induction v as [|b|n|p|s|l IH|l IH] using json_ind'.
  - by vm_compute.
  - by destruct b; vm_compute.
  - apply itoa_line.
  - cbn [flat]. apply no_newline_app. split; [by vm_compute|apply itoa_line].
  - apply quoted_line.
  - destruct l as [|x l]; [by vm_compute|]. apply Forall_cons in IH as [Hx Hl]. rewrite flat_arr, !no_newline_app.
    split; [by vm_compute|]. split; [done|]. induction Hl as [|y l Hy _ IH]; cbn [flat_items]; [by vm_compute|].
    rewrite !no_newline_app. split; [by vm_compute|]. done.
  - destruct l as [|[k x] l]; [by vm_compute|]. apply Forall_cons in IH as [Hx Hl]. rewrite flat_obj, !no_newline_app.
    split; [by vm_compute|]. split; [apply quoted_line|]. split; [by vm_compute|]. split; [done|].
    induction Hl as [|[k' y] l Hy _ IH]; cbn [flat_members]; [by vm_compute|].
    rewrite !no_newline_app. split; [by vm_compute|]. split; [apply quoted_line|]. split; [by vm_compute|]. done.
Qed.

(** ** The fields of a record *)

Lemma reserved_dec k : {reserved k} + {~ reserved k}.
Proof. unfold reserved. destruct (decide (k = "time" \/ k = "msg" \/ k = "level" \/ k = "logrus_error")); [by left|by right]. Qed.

Lemma prefixed_not r k : reserved r -> ~ reserved ("fields." +:+ k).
Proof. intros _ [H|[H|[H|H]]]; discriminate H. Qed.

Lemma prefix_inj a b : "fields." +:+ a = "fields." +:+ b -> a = b.
Proof. intros H. by injection H. Qed.

(** Each step moves one name. *)
Lemma prefix_one_spec m r k : ~ reserved ("fields." +:+ r) -> reserved r -> forall x, prefix_one m r !! k = Some x <->
  (k = "fields." +:+ r /\ m !! r = Some x) \/ (k <> r /\ (k = "fields." +:+ r -> m !! r = None) /\ m !! k = Some x).
Proof.
  intros Hp Hr x. unfold prefix_one. assert (r <> "fields." +:+ r) as Hne by (intros E; apply Hp; by rewrite <- E).
  destruct (m !! r) as [v|] eqn:E.
  - destruct (decide (k = r)) as [-> |H1].
    { rewrite lookup_delete. split; [done|]. intros [[? _]|[? _]]; done. }
    rewrite lookup_delete_ne by done. destruct (decide (k = "fields." +:+ r)) as [-> |H2].
    + rewrite lookup_insert. split; [intros [= ->]; by left|]. intros [[_ H]|(_ & H & _)]; [done|]. by specialize (H eq_refl).
    + rewrite lookup_insert_ne by done. split; [intros H; right; done|]. intros [[? _]|(_ & _ & H)]; done.
  - split.
    + intros H. right. split; [intros ->; congruence|]. done.
    + intros [[_ H]|(_ & _ & H)]; done.
Qed.

Lemma prefix_clashes_spec m k x : prefix_clashes m !! k = Some x <->
  (exists r, reserved r /\ k = "fields." +:+ r /\ m !! r = Some x) \/
  (~ reserved k /\ (forall r, reserved r -> k = "fields." +:+ r -> m !! r = None) /\ m !! k = Some x).
Proof.
  assert (reserved "time" /\ reserved "msg" /\ reserved "level" /\ reserved "logrus_error") as (R1 & R2 & R3 & R4) by (unfold reserved; tauto).
  assert (forall r, ~ reserved ("fields." +:+ r)) as Hp by (intros r; by apply (prefixed_not "msg")).
  unfold prefix_clashes. cbn [fold_left].
  set (m1 := prefix_one m "time"). set (m2 := prefix_one m1 "msg"). set (m3 := prefix_one m2 "level").
  assert (forall r m', reserved r -> forall k', k' <> r -> k' <> "fields." +:+ r -> prefix_one m' r !! k' = m' !! k') as Hsame.
  { intros r m' Hr k' H1 H2. unfold prefix_one. destruct (m' !! r); [|done]. by rewrite lookup_delete_ne, lookup_insert_ne. }
  assert (m1 !! "msg" = m !! "msg") as E1 by by apply Hsame.
  assert (m2 !! "level" = m !! "level") as E2. { unfold m2. rewrite Hsame by done. by apply Hsame. }
  assert (m3 !! "logrus_error" = m !! "logrus_error") as E3. { unfold m3. rewrite Hsame by done. unfold m2. rewrite Hsame by done. by apply Hsame. }
  rewrite (prefix_one_spec m3 "logrus_error" k (Hp _) R4), E3. unfold m3. rewrite (prefix_one_spec m2 "level" k (Hp _) R3), E2.
  unfold m2. rewrite (prefix_one_spec m1 "msg" k (Hp _) R2), E1. unfold m1. rewrite (prefix_one_spec m "time" k (Hp _) R1).
  split.
  - intros [[-> H]|(N4 & C4 & [[-> H]|(N3 & C3 & [[-> H]|(N2 & C2 & [[-> H]|(N1 & C1 & H)])])])].
    + left. by exists "logrus_error".
    + left. by exists "level".
    + left. by exists "msg".
    + left. by exists "time".
    + right. split; [intros [?|[?|[?|?]]]; done|]. split; [|done]. intros r [-> |[-> |[-> | ->]]] E; auto.
  - intros [(r & Hr & -> & H)|(Nr & C & H)].
    + destruct Hr as [-> |[-> |[-> | ->]]].
      * right. split; [done|]. split; [done|]. right. split; [done|]. split; [done|]. right. split; [done|]. split; [done|]. by left.
      * right. split; [done|]. split; [done|]. right. split; [done|]. split; [done|]. by left.
      * right. split; [done|]. split; [done|]. by left.
      * by left.
    + assert (k <> "time" /\ k <> "msg" /\ k <> "level" /\ k <> "logrus_error") as (N1 & N2 & N3 & N4).
      { repeat split; intros ->; by apply Nr. }
      right. split; [done|]. split; [by apply C|]. right. split; [done|]. split; [by apply C|]. right. split; [done|]. split; [by apply C|].
      right. split; [done|]. split; [by apply C|]. done.
Qed.

Lemma level_word_name l w : level_word l w <-> w = level_name l.
Proof.
  unfold level_word. destruct l; cbn [level_name]; (split; [intros H; decompose [or and] H; congruence|intros ->; tauto]).
Qed.

Lemma entry_data_spec timed e k x : entry_data timed e !! k = Some x <-> shows timed e k x.
Proof.
  unfold entry_data, shows. assert (reserved "time" /\ reserved "msg" /\ reserved "level") as (R1 & R2 & R3) by (unfold reserved; tauto).
  destruct (decide (k = "level")) as [-> |H1].
  { rewrite lookup_insert. split; [intros [= <-]; left; split; [done|]; eexists; split; [by apply level_word_name|done]|].
    intros [(_ & w & Hw & ->)|[[? _]|[(_ & ? & _)|[(r & _ & ? & _)|[H _]]]]]; try done. by apply level_word_name in Hw as ->. }
  rewrite lookup_insert_ne by done. destruct (decide (k = "msg")) as [-> |H2].
  { rewrite lookup_insert. split; [intros [= <-]; right; by left|].
    intros [[? _]|[[_ ->]|[(_ & ? & _)|[(r & _ & ? & _)|[H _]]]]]; done. }
  rewrite lookup_insert_ne by done. destruct (decide (timed = true /\ k = "time")) as [[-> ->]|H3].
  { rewrite lookup_insert. split; [intros [= <-]; right; right; by left|].
    intros [[? _]|[[? _]|[(_ & _ & ->)|[(r & _ & ? & _)|[H _]]]]]; done. }
  assert ((if timed then <["time" := JStr (en_time e)]> (prefix_clashes (en_fields e)) else prefix_clashes (en_fields e)) !! k =
    prefix_clashes (en_fields e) !! k) as ->.
  { destruct timed; [|done]. rewrite lookup_insert_ne; [done|]. intros <-. by apply H3. }
  rewrite prefix_clashes_spec. split; [tauto|]. intros [[? _]|[[? _]|[(? & ? & _)|H]]]; [done|done|exfalso; auto|done].
Qed.

(** ** Texts that are UTF-8 come back as they are *)

Lemma utf8_json_mend v : Utf8_json v -> jmap mend v = v.
Proof.
  induction v as [|b|n|p|s|l IH|l IH] using json_ind'; intros H; inversion H as [| | | |s' Hs|l' Hl|l' Hl]; subst; cbn [jmap]; try done.
  - by rewrite mend_utf8.
  - f_equal. induction Hl as [|x l Hx Hl IH2]; [done|]. apply Forall_cons in IH as [I1 I2]. cbn [map]. rewrite I1, IH2; try done. by constructor.
  - f_equal. induction Hl as [|[k x] l [Hk Hx] Hl IH2]; [done|]. apply Forall_cons in IH as [I1 I2]. cbn in *. rewrite I1, mend_utf8, IH2; try done. by constructor.
Qed.

Lemma level_name_utf8 l : Utf8 (level_name l).
Proof. destruct l; by apply low_utf8. Qed.

Lemma shows_utf8 timed e k x : utf8_entry e -> shows timed e k x -> Utf8 k /\ Utf8_json x.
Proof.
  intros (U1 & U2 & U3) [(-> & w & Hw & ->)|[[-> ->]|[(_ & -> & ->)|[(r & _ & -> & H)|(_ & _ & H)]]]].
  - split; [by apply low_utf8|]. constructor. apply level_word_name in Hw as ->. apply level_name_utf8.
  - split; [by apply low_utf8|]. by constructor.
  - split; [by apply low_utf8|]. by constructor.
  - destruct (U3 _ _ H). split; [|done]. apply utf8_app; [by apply low_utf8|done].
  - by apply U3.
Qed.

Lemma data_tells timed e : utf8_entry e -> tells timed e (jmap mend (in_order (fun v => v) (entry_data timed e))).
Proof.
  intros U. pose proof (in_order_says (fun a x => x = a) (fun v => v) (entry_data timed e)) as K.
  destruct K as (l & E & Hnd & _ & H1 & H2).
  { intros k a Ha. apply entry_data_spec in Ha. destruct (shows_utf8 _ _ _ _ U Ha) as [Uk Ua]. split; [done|]. by apply utf8_json_mend. }
  exists l. split; [done|]. split; [done|]. intros k x. split.
  - intros H. destruct (H1 k x H) as (a & Ha & ->). by apply entry_data_spec.
  - intros H. apply entry_data_spec in H. assert (k ∈ l.*1) as Hk by (apply H2; by exists x).
    apply elem_of_list_fmap in Hk as ([k' y] & E' & Hy). cbn [fst] in E'. subst k'.
    destruct (H1 _ _ Hy) as (a & Ha & Ea). rewrite Ha in H. injection H as <-. by rewrite <- Ea.
Qed.

(** ** Lines *)

Lemma in_lines_app a ls b ls' : in_lines a ls -> in_lines b ls' -> in_lines (a +:+ b) (ls ++ ls')%list.
Proof.
  induction 1 as [|l t ls Hl _ IH]; intros H; [done|]. cbn [app]. rewrite app_assoc_str. cbn [String.append]. constructor; [done|]. by apply IH.
Qed.

Lemma no_newline_split a b t u : no_newline a -> no_newline b -> a +:+ String (ascii_of_N 10) t = b +:+ String (ascii_of_N 10) u -> a = b /\ t = u.
Proof.
  revert b. induction a as [|c a IH]; intros [|d b]; cbn [String.append no_newline].
  - intros _ _ E. by injection E as ->.
  - intros _ [H _] E. injection E as <- _. by destruct H.
  - intros [H _] _ E. injection E as -> _. by destruct H.
  - intros [_ H1] [_ H2] E. injection E as <- E. destruct (IH b H1 H2 E) as [-> ->]. done.
Qed.

Lemma in_lines_one t ls ls' : in_lines t ls -> in_lines t ls' -> ls = ls'.
Proof.
  intros H. revert ls'. induction H as [|l t ls Hl _ IH]; intros ls' H'; inversion H' as [|l' t' ls2 Hl' Ht' E]; subst; try done.
  - by destruct l'.
  - by destruct l.
  - destruct (no_newline_split l' l t' t Hl' Hl) as [-> ->]; [done|]. f_equal. by apply IH.
Qed.

Lemma newline_is : newline = String (ascii_of_N 10) "".
Proof. done. Qed.

Lemma entry_line timed e : no_newline (flat true (in_order (fun v => v) (entry_data timed e))).
Proof. apply flat_line. Qed.

Lemma fired_lines e t0 ls0 : in_lines t0 ls0 ->
  in_lines (t0 +:+ format_entry true e) (ls0 ++ [flat true (in_order (fun v => v) (entry_data true e))])%list.
Proof. intros H. apply in_lines_app; [done|]. unfold format_entry. rewrite newline_is. constructor; [apply flat_line|constructor]. Qed.

Lemma sublist_omap {A B} (f : A -> option B) (l k : list A) : sublist l k -> sublist (omap f l) (omap f k).
Proof.
  induction 1 as [|x l k _ IH|x l k _ IH]; [done|..]; cbn; destruct (f x); try done; by constructor.
Qed.

Lemma sublist_Forall2 {A B} (P : A -> B -> Prop) (ls : list A) (es es1 : list B) : sublist es1 es -> Forall2 P ls es ->
  exists ls1, sublist ls1 ls /\ Forall2 P ls1 es1.
Proof.
  intros H. revert ls. induction H as [|x l k _ IH|x l k _ IH]; intros ls H; inversion H as [|t e ts es' Ht Hts E1 E2]; subst.
  - by exists [].
  - destruct (IH ts Hts) as (ls1 & S1 & F1). exists (t :: ls1). split; by constructor.
  - destruct (IH ts Hts) as (ls1 & S1 & F1). exists ls1. split; [by constructor|done].
Qed.

(** ** Secrets *)

Lemma upper_without s : without "=" (upper s) -> without "=" s.
Proof.
  unfold without. induction s as [|c s IH]; [done|]. cbn [upper all_bytes]. rewrite !andb_true_iff. intros [H1 H2]. split; [|by apply IH].
  apply negb_true_iff in H1. apply negb_true_iff. destruct (Ascii.eqb_spec "=" c) as [<- |]; [by vm_compute in H1|done].
Qed.

Lemma sensitive_without name : sensitive name -> without "=" name.
Proof. intros H. apply upper_without. destruct H as [H|[H|[H|[H|[H|H]]]]]; rewrite H; by vm_compute. Qed.

Lemma secret_system rpath l ev ev' : same_but_secret ev ev' -> add_system rpath l ev = add_system rpath l ev'.
Proof.
  intros [ev0|name v w Hs Hv Hw]; [done|]. unfold add_system. rewrite !split_pair by by apply sensitive_without.
  rewrite (proj2 (String.eqb_neq v "") Hv), (proj2 (String.eqb_neq w "") Hw).
  rewrite bool_decide_eq_true_2 by by apply sensitive_censored. done.
Qed.

Lemma secret_said rpath ev ev' : same_but_secret ev ev' -> variable_said rpath ev = variable_said rpath ev'.
Proof.
  intros [ev0|name v w Hs Hv Hw]; [done|]. unfold variable_said. rewrite !split_pair by by apply sensitive_without.
  rewrite (proj2 (String.eqb_neq v "") Hv), (proj2 (String.eqb_neq w "") Hw).
  assert (forall k, ~ sensitive k -> String.eqb name k = false) as Hk. { intros k Hk. apply String.eqb_neq. by intros ->. }
  rewrite (Hk "R_LIBS_USER"), (Hk "R_LIBS_SITE"), (Hk "PATH"); [done|..];
    intros [H|[H|[H|[H|[H|H]]]]]; vm_compute in H; discriminate H.
Qed.

Lemma secret_env sys sys' rs tmpdir : Forall2 same_but_secret sys sys' -> configure_env sys rs tmpdir = configure_env sys' rs tmpdir.
Proof.
  intros H. unfold configure_env, env_list. cbv zeta.
  assert (forall l, fold_left (add_system (e_rpath rs)) sys l = fold_left (add_system (e_rpath rs)) sys' l) as K.
  { induction H as [|ev ev' sys sys' H1 _ IH]; intros l; [done|]. cbn [fold_left]. rewrite (secret_system _ _ _ _ H1). apply IH. }
  by rewrite K.
Qed.

Lemma secret_start st s pkg rprog tmpdir sys sys' : Forall2 same_but_secret sys sys' ->
  start_said st s pkg rprog tmpdir sys = start_said st s pkg rprog tmpdir sys'.
Proof.
  intros H. unfold start_said. rewrite (secret_env _ _ _ _ H). do 2 f_equal.
  induction H as [|ev ev' sys sys' H1 _ IH]; [done|]. cbn [flat_map]. by rewrite (secret_said _ _ _ H1), IH.
Qed.
