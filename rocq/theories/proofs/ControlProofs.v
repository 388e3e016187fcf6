(** Reading descriptions. *)
From stdpp Require Import strings list gmap.
From Coq Require Import Ascii ZArith Lia.
From Verif.model Require Import GoStr Version Desc Nexus RepoDb Control.
From Verif.spec Require Import StrSpec VersionSpec FetchSpec RepoSpec UrlSpec ControlSpec.
From Verif.proofs Require Import GoStrLemmas VersionProofs RepoProofs FetchProofs UrlProofs ConfigProofs.

Local Open Scope string_scope.
Local Arguments Ascii.eqb : simpl never.
Local Arguments char_eqb : simpl never.

Notation nl := (String lf "").

(** ** Trimming *)
Lemma trim_left_keep f x s : all_bytes f x = false -> trim_left f (x +:+ s) = trim_left f x +:+ s.
Proof.
  induction x as [|c x IH]; [done|]. cbn. destruct (f c); cbn; [exact IH|done].
Qed.

Lemma trim_right_nil f s : trim_right f s = "" <-> all_bytes f s = true.
Proof.
  split; [|apply trim_right_all]. induction s as [|c s IH]; [done|]. cbn.
  destruct (trim_right f s); [|done]. destruct (f c); [|done]. intros _. cbn. by apply IH.
Qed.

Lemma trim_right_keep f s y : all_bytes f y = false -> trim_right f (s +:+ y) = s +:+ trim_right f y.
Proof.
  intros H. assert (trim_right f y <> "") as Hn.
  { intros E. apply trim_right_nil in E. congruence. }
  induction s as [|c s IH]; [done|]. cbn. rewrite IH.
  destruct (s +:+ trim_right f y) eqn:E; [|done].
  destruct s; [|done]. by cbn in E.
Qed.

Lemma trim_mid f x y : all_bytes f x = false -> all_bytes f y = false ->
  exists x' y', forall m, trim f (x +:+ m +:+ y) = x' +:+ m +:+ y'.
Proof.
  intros Hx Hy. exists (trim_left f x), (trim_right f y). intros m. unfold trim.
  rewrite (trim_left_keep _ _ _ Hx). by rewrite <- !app_assoc_str, (trim_right_keep _ _ _ Hy).
Qed.

Lemma trim_pre f a s : all_bytes f a = true -> trim f (a +:+ s) = trim f s.
Proof. intros H. unfold trim. by rewrite trim_left_app. Qed.

Lemma trim_post f s a : all_bytes f a = true -> trim f (s +:+ a) = trim f s.
Proof.
  intros H. unfold trim. destruct (all_bytes f s) eqn:E.
  - rewrite (trim_left_app _ _ _ E), (trim_left_all _ _ H), (trim_left_all _ _ E). done.
  - rewrite (trim_left_keep _ _ _ E). by apply trim_right_app.
Qed.

Lemma trim_left_parts f s : exists a, s = a +:+ trim_left f s /\ all_bytes f a = true.
Proof.
  induction s as [|c s IH]; [by exists ""|]. cbn. destruct (f c) eqn:E; [|by exists ""].
  destruct IH as (a & H1 & H2). exists (String c a). cbn. rewrite E. by rewrite <- H1.
Qed.

Lemma trim_right_parts f s : exists b, s = trim_right f s +:+ b /\ all_bytes f b = true.
Proof.
  induction s as [|c s IH]; [by exists ""|]. cbn. destruct IH as (b & H1 & H2).
  destruct (trim_right f s) as [|d r] eqn:Er.
  - cbn in H1. subst s. destruct (f c) eqn:E; [|by exists b]. exists (String c b). cbn. by rewrite E.
  - exists b. cbn. split; [|done]. by f_equal.
Qed.

Lemma trim_parts f s : exists a b, s = a +:+ trim f s +:+ b /\ all_bytes f a = true /\ all_bytes f b = true.
Proof.
  destruct (trim_left_parts f s) as (a & H1 & H2). destruct (trim_right_parts f (trim_left f s)) as (b & H3 & H4).
  exists a, b. unfold trim. by rewrite <- H3.
Qed.

Lemma trim_right_bare f e : (forall r c, e = r +:+ String c "" -> f c = false) -> trim_right f e = e.
Proof.
  induction e as [|c e IH]; intros H; [done|]. cbn. rewrite IH.
  - destruct e as [|d e]; [|done]. by rewrite (H "" c).
  - intros r d ->. by apply (H (String c r) d).
Qed.

Lemma bare_trimmed e : bare e -> trim is_space e = e.
Proof.
  intros [H1 H2]. unfold trim. assert (trim_left is_space e = e) as ->.
  { destruct e as [|c e]; [done|]. cbn. by rewrite <- white_is_space, (H1 c e). }
  apply trim_right_bare. intros r c E. rewrite <- white_is_space. by eapply H2.
Qed.

Lemma trim_length f s : String.length (trim f s) <= String.length s.
Proof.
  destruct (trim_parts f s) as (a & b & E & _). rewrite E at 2. rewrite !append_length. lia.
Qed.

Lemma trimmed_bare e : trim is_space e = e -> bare e.
Proof.
  intros H. split.
  - intros c r ->. rewrite white_is_space. destruct (is_space c) eqn:E; [|done]. exfalso.
    assert (trim is_space (String c r) = trim is_space r) as E2.
    { apply (trim_pre is_space (String c "")). cbn. by rewrite E. }
    pose proof (trim_length is_space r) as L. rewrite <- E2, H in L. cbn in L. lia.
  - intros r c ->. rewrite white_is_space. destruct (is_space c) eqn:E; [|done]. exfalso.
    assert (trim is_space (r +:+ String c "") = trim is_space r) as E2.
    { apply trim_post. cbn. by rewrite E. }
    pose proof (trim_length is_space r) as L. rewrite <- E2, H, append_length in L. cbn in L. lia.
Qed.

Lemma all_white s : all_bytes white s = all_bytes is_space s.
Proof. apply all_bytes_ext, white_is_space. Qed.

Lemma stripped_trim p e : stripped p e -> trim is_space p = e.
Proof.
  intros (Hb & a & b & -> & Ha & Hw). rewrite all_white in Ha, Hw.
  rewrite (trim_pre _ _ _ Ha), (trim_post _ _ _ Hw). by apply bare_trimmed.
Qed.

Lemma trim_right_ext (f g h : ascii -> bool) s :
  (forall c, h c = true -> f c = g c) -> all_bytes h s = true -> trim_right f s = trim_right g s.
Proof.
  intros Hfg. induction s as [|c s IH]; [done|]. cbn. intros [H1 H2]%andb_true_iff.
  by rewrite (Hfg c H1), (IH H2).
Qed.

Lemma trim_left_ext (f g h : ascii -> bool) s :
  (forall c, h c = true -> f c = g c) -> all_bytes h s = true -> trim_left f s = trim_left g s.
Proof.
  intros Hfg. induction s as [|c s IH]; [done|]. cbn. intros [H1 H2]%andb_true_iff.
  by rewrite (Hfg c H1), (IH H2).
Qed.

Lemma trim_ext (f g h : ascii -> bool) s :
  (forall c, h c = true -> f c = g c) -> all_bytes h s = true -> trim f s = trim g s.
Proof.
  intros Hfg Hs. unfold trim. rewrite (trim_left_ext f g h) by done. apply (trim_right_ext f g h); [done|].
  destruct (trim_left_parts g s) as (a & E & _). rewrite E, all_bytes_app in Hs.
  by apply andb_true_iff in Hs as [_ Hs].
Qed.

Lemma trim_bytes f h s : all_bytes h s = true -> all_bytes h (trim f s) = true.
Proof.
  destruct (trim_parts f s) as (a & b & E & _). rewrite E at 1. rewrite !all_bytes_app.
  by intros (_ & H & _)%andb_true_iff%(fun x => conj (proj1 x) (proj1 (andb_true_iff _ _) (proj2 x))).
Qed.

(** ** The pieces of a list *)
Definition tp (v : string) : list string := map (trim is_space) (split_char ","%char v).

Definition comma_free (m : string) : Prop := all_bytes (fun c => negb (char_eqb ","%char c)) m = true.

Lemma split_mid a b : exists A x y B, forall m, comma_free m ->
  split_char ","%char (a +:+ m +:+ b) = (A ++ (x +:+ m +:+ y) :: B)%list.
Proof.
  unfold split_char. induction a as [|c a IH].
  - destruct (split_on (char_eqb ","%char) b) as [|y B] eqn:E; [by apply split_on_nonnil in E|].
    exists [], "", y, B. intros m. cbn. unfold comma_free. induction m as [|d m IHm]; [done|].
    cbn. intros [H1 H2]%andb_true_iff. apply negb_true_iff in H1. rewrite H1. by rewrite (IHm H2).
  - destruct IH as (A & x & y & B & IH). destruct (char_eqb ","%char c) eqn:E.
    + exists ("" :: A), x, y, B. intros m Hm. cbn. by rewrite E, (IH m Hm).
    + destruct A as [|z A].
      * exists [], (String c x), y, B. intros m Hm. cbn. by rewrite E, (IH m Hm).
      * exists (String c z :: A), x, y, B. intros m Hm. cbn. by rewrite E, (IH m Hm).
Qed.

Definition spaces (m : string) : Prop := all_bytes is_space m = true.

Lemma space_not_comma c : is_space c = true -> negb (char_eqb ","%char c) = true.
Proof. destruct c as [[] [] [] [] [] [] [] []]; by cbn. Qed.

Lemma spaces_comma_free m : spaces m -> comma_free m.
Proof. apply all_bytes_impl, space_not_comma. Qed.

Lemma spaces_app a b : spaces (a +:+ b) <-> spaces a /\ spaces b.
Proof. unfold spaces. by rewrite all_bytes_app, andb_true_iff. Qed.

Lemma split_pre s : exists y B, forall m, comma_free m ->
  split_char ","%char (m +:+ s) = (m +:+ y) :: B.
Proof.
  unfold split_char. destruct (split_on (char_eqb ","%char) s) as [|y B] eqn:E; [by apply split_on_nonnil in E|].
  exists y, B. intros m. unfold comma_free. induction m as [|d m IHm]; [done|].
  cbn. intros [H1 H2]%andb_true_iff. apply negb_true_iff in H1. rewrite H1. by rewrite (IHm H2).
Qed.

Lemma split_post s : exists A x, forall m, comma_free m ->
  split_char ","%char (s +:+ m) = (A ++ [x +:+ m])%list.
Proof.
  unfold split_char. induction s as [|c s (A & x & IH)].
  - exists [], "". intros m Hm. cbn. by apply split_on_none.
  - destruct (char_eqb ","%char c) eqn:E.
    + exists ("" :: A), x. intros m Hm. cbn. by rewrite E, (IH m Hm).
    + destruct A as [|z A].
      * exists [], (String c x). intros m Hm. cbn. by rewrite E, (IH m Hm).
      * exists (String c z :: A), x. intros m Hm. cbn. by rewrite E, (IH m Hm).
Qed.

Lemma tp_pre a s : spaces a -> tp (a +:+ s) = tp s.
Proof.
  intros H. destruct (split_pre s) as (y & B & E). unfold tp.
  pose proof (E a (spaces_comma_free _ H)) as E1. pose proof (E "" eq_refl) as E2. cbn in E2.
  rewrite E1, E2. cbn. by rewrite (trim_pre _ _ _ H).
Qed.

Lemma tp_post s a : spaces a -> tp (s +:+ a) = tp s.
Proof.
  intros H. destruct (split_post s) as (A & x & E). unfold tp.
  pose proof (E a (spaces_comma_free _ H)) as E1. pose proof (E "" eq_refl) as E2.
  rewrite !app_nil_str in E2. rewrite E1, E2, !map_app. cbn. by rewrite (trim_post _ _ _ H).
Qed.

Lemma tp_trim v : tp (trim is_space v) = tp v.
Proof.
  destruct (trim_parts is_space v) as (a & b & E & Ha & Hb). rewrite E at 2.
  by rewrite (tp_pre _ _ Ha), (tp_post _ _ Hb).
Qed.

Definition has_nl (m : string) : Prop := exists a b, m = a +:+ nl +:+ b.

Lemma one_line_mid a m b : has_nl m -> ~ one_line (a +:+ m +:+ b).
Proof.
  intros (p & q & ->). unfold one_line. rewrite !all_bytes_app. cbn. rewrite !andb_false_r. done.
Qed.

(** White space around a line end does not matter, as long as no entry spans
    two lines. *)
Definition same_list (v v' : string) : Prop := Forall one_line (tp v) -> tp v = tp v'.

Lemma same_list_trans a b c : same_list a b -> same_list b c -> same_list a c.
Proof. intros H1 H2 H. rewrite (H1 H). apply H2. by rewrite <- (H1 H). Qed.

Lemma same_list_eq a b : tp a = tp b -> same_list a b.
Proof. by intros H _. Qed.

Lemma same_list_mid a b m1 m2 : spaces m1 -> spaces m2 -> has_nl m1 ->
  same_list (a +:+ m1 +:+ b) (a +:+ m2 +:+ b).
Proof.
  intros H1 H2 Hn. destruct (split_mid a b) as (A & x & y & B & E). unfold same_list, tp.
  rewrite (E m1), (E m2) by (by apply spaces_comma_free). rewrite !map_app. cbn.
  rewrite Forall_app, Forall_cons. intros (_ & Ho & _). f_equal. f_equal.
  destruct (all_bytes is_space x) eqn:Ex.
  { rewrite !(trim_pre _ x _ Ex), (trim_pre _ m1 _ H1), (trim_pre _ m2 _ H2). done. }
  destruct (all_bytes is_space y) eqn:Ey.
  { rewrite (trim_post _ x (m1 +:+ y)), (trim_post _ x (m2 +:+ y)); [done|by apply spaces_app..]. }
  destruct (trim_mid _ _ _ Ex Ey) as (x' & y' & Em). rewrite (Em m1) in Ho.
  by apply one_line_mid in Ho.
Qed.

Lemma comma_list_tp v es : comma_list v es -> tp v = es.
Proof.
  intros (ps & Hne & -> & Hc & Hs). unfold tp. assert (split_char ","%char (join "," ps) = ps) as ->.
  { clear Hs. unfold split_char. induction ps as [|p ps IH]; [done|].
    inversion Hc as [|? ? Hp Hps]; subst.
    assert (all_bytes (fun c => negb (char_eqb ","%char c)) p = true) as Hp'.
    { eapply all_bytes_impl, Hp. intros c. cbn. by rewrite orb_false_r. }
    destruct ps as [|q ps].
    - cbn. by apply split_on_none.
    - change (join "," (p :: q :: ps)) with (p +:+ String ","%char (join "," (q :: ps))).
      rewrite (split_on_app _ _ _ _ Hp') by done. by rewrite IH. }
  clear -Hs. induction Hs as [|p e ps es H _ IH]; [done|]. cbn. by rewrite (stripped_trim _ _ H), IH.
Qed.

(** ** Continuation lines *)
Notation rest_text more := (String.concat "" (map (fun l => String lf l) more)).

Lemma rest_cons l more : rest_text (l :: more) = nl +:+ l +:+ rest_text more.
Proof. cbn. destruct more; [cbn; by rewrite app_nil_str|done]. Qed.

Lemma tail_lines p w more : spaces w -> same_list (p +:+ w +:+ rest_text more) (p +:+ nl +:+ rest_text more).
Proof.
  intros Hw. destruct more as [|l more].
  - apply same_list_eq. change (rest_text []) with "". rewrite !app_nil_str, (tp_post _ _ Hw).
    symmetry. by apply tp_post.
  - rewrite rest_cons. rewrite <- (app_assoc_str w nl). rewrite <- (app_assoc_str nl nl).
    apply same_list_mid; [by apply spaces_app|done|]. exists w, "". by rewrite app_nil_str.
Qed.

Lemma has_suffix_nl s : has_suffix newline s = true -> exists u, s = u +:+ nl.
Proof.
  unfold has_suffix. intros [r E]%has_prefix_true. exists (string_rev r "").
  rewrite <- (string_rev_twice s), E, string_rev_app_rev. done.
Qed.

Lemma more_parts l : more_line l ->
  exists c t w, l = String c (t +:+ w) /\ spaces (String c "") /\ spaces w /\
    forall old, continued old l =
      (if String.eqb old "" then t +:+ newline
       else (if has_suffix newline old then old else old +:+ newline) +:+ t +:+ newline).
Proof.
  intros (_ & c & r & -> & Hc & Hd). destruct (trim_right_parts is_space r) as (w & E & Hw).
  exists c, (trim_right is_space r), w. rewrite <- E. split; [done|]. split.
  { unfold spaces. revert Hc. clear. destruct c as [[] [] [] [] [] [] [] []]; by vm_compute. }
  split; [done|]. intros old. unfold continued. destruct (String.eqb_spec (trim_right is_space r) ".") as [E1|]; [|done].
  exfalso. rewrite E1 in E. specialize (Hd w E). rewrite all_white in Hd. congruence.
Qed.

Lemma continued_same more v : Forall more_line more ->
  same_list (v +:+ rest_text more) (fold_left continued more v).
Proof.
  intros H. revert v. induction H as [|l more Hl _ IH]; intros v.
  { apply same_list_eq. cbn. by rewrite app_nil_str. }
  cbn [fold_left]. eapply same_list_trans; [|apply IH]. rewrite rest_cons.
  destruct (more_parts l Hl) as (c & t & w & -> & Hc & Hw & E). rewrite E.
  change (String c (t +:+ w)) with (String c "" +:+ (t +:+ w)).
  destruct (String.eqb_spec v "") as [->|Hv].
  { cbn [append]. rewrite !app_assoc_str. eapply same_list_trans; [|by apply tail_lines].
    apply same_list_eq. apply (tp_pre (nl +:+ String c "")). by apply spaces_app. }
  destruct (has_suffix newline v) eqn:Es.
  - apply has_suffix_nl in Es as (u & ->). rewrite !app_assoc_str.
    eapply same_list_trans with (u +:+ nl +:+ t +:+ w +:+ rest_text more).
    + pose proof (same_list_mid u (t +:+ w +:+ rest_text more) (nl +:+ nl +:+ String c "") nl) as G.
      rewrite !app_assoc_str in G. apply G; [by apply spaces_app|done|]. by exists "", (nl +:+ String c "").
    + pose proof (tail_lines (u +:+ nl +:+ t) w more Hw) as G. by rewrite !app_assoc_str in G.
  - rewrite !app_assoc_str.
    eapply same_list_trans with (v +:+ nl +:+ t +:+ w +:+ rest_text more).
    + pose proof (same_list_mid v (t +:+ w +:+ rest_text more) (nl +:+ String c "") nl) as G.
      rewrite !app_assoc_str in G. apply G; [by apply spaces_app|done|]. by exists "", (String c "").
    + pose proof (tail_lines (v +:+ nl +:+ t) w more Hw) as G. by rewrite !app_assoc_str in G.
Qed.

Definition final_value (f : field) : string := fold_left continued (fd_more f) (trim_space (fd_first f)).

Lemma value_same f : Forall more_line (fd_more f) -> same_list (value_text f) (final_value f).
Proof.
  intros H. unfold value_text, final_value. eapply same_list_trans; [|by apply continued_same].
  destruct (trim_parts is_space (fd_first f)) as (a & b & E & Ha & Hb). unfold trim_space.
  set (t := trim is_space (fd_first f)) in *. rewrite E, !app_assoc_str.
  eapply same_list_trans; [apply same_list_eq, (tp_pre _ _ Ha)|].
  destruct (fd_more f) as [|l more].
  - change (rest_text []) with "". rewrite !app_nil_str. apply same_list_eq. by apply tp_post.
  - rewrite rest_cons. pose proof (same_list_mid t (l +:+ rest_text more) (b +:+ nl) nl) as G.
    rewrite !app_assoc_str in G. apply G; [by apply spaces_app|done|]. exists b, "". by rewrite app_nil_str.
Qed.

(** ** Fields *)
Definition good (c : ascii) : bool := negb (existsb (Nat.eqb (nat_of_ascii c)) [11; 12]).

Lemma value_good s : value_line s -> all_bytes good s = true.
Proof. apply all_bytes_impl. intros c. destruct c as [[] [] [] [] [] [] [] []]; by vm_compute. Qed.

Lemma value_one_line s : value_line s -> one_line s.
Proof. apply all_bytes_impl. intros c. destruct c as [[] [] [] [] [] [] [] []]; by vm_compute. Qed.

Lemma strip_space c : good c = true -> is_strip c = is_space c.
Proof. destruct c as [[] [] [] [] [] [] [] []]; by vm_compute. Qed.

Lemma final_good f : field_ok f -> all_bytes good (final_value f) = true.
Proof.
  intros (_ & H1 & H2). unfold final_value.
  assert (all_bytes good (trim_space (fd_first f)) = true) as H by (by apply trim_bytes, value_good).
  revert H. generalize (trim_space (fd_first f)). induction H2 as [|l more Hl _ IH]; intros v Hv; [done|].
  cbn. apply IH. destruct (more_parts l Hl) as (c & t & w & E & _ & _ & Ec). rewrite Ec.
  destruct Hl as (Hl & _). rewrite E in Hl. apply value_good in Hl. cbn in Hl.
  rewrite all_bytes_app in Hl. apply andb_true_iff in Hl as [_ [Ht _]%andb_true_iff].
  destruct (v =? ""); [|destruct (has_suffix newline v)]; by rewrite ?all_bytes_app, ?Hv, ?Ht.
Qed.

Lemma split_bytes h f s : all_bytes h s = true -> Forall (fun p => all_bytes h p = true) (split_on f s).
Proof.
  induction s as [|c s IH]; [by repeat constructor|]. cbn. intros [H1 H2]%andb_true_iff. specialize (IH H2).
  destruct (f c); [by constructor|]. destruct (split_on f s) as [|p ps]; [repeat constructor; cbn; by rewrite H1|].
  inversion IH; subst. constructor; [|done]. cbn. by rewrite H1.
Qed.

Lemma list_field_value vals k v : vals !! k = Some v -> all_bytes good v = true -> list_field vals k = tp v.
Proof.
  intros E H. unfold list_field. rewrite E. rewrite (trim_ext is_strip is_space good _ strip_space H).
  rewrite <- tp_trim. unfold tp. assert (Forall (fun p => all_bytes good p = true) (split_char ","%char (trim is_space v))) as G
    by (by apply split_bytes, trim_bytes).
  induction G as [|p ps Hp _ IH]; [done|]. cbn. by rewrite IH, (trim_ext is_strip is_space good _ strip_space Hp).
Qed.

(** ** Reading the lines *)
Lemma first_of_name n s : word_without ":#" n ->
  exists c r, n +:+ s = String c r /\ char_eqb "#" c = false /\ is_continuation c = false.
Proof.
  intros [H1 H2]. destruct n as [|c n]; [done|]. exists c, (n +:+ s). split; [done|].
  cbn [all_bytes] in H2. apply andb_true_iff in H2 as [H2 _]. revert H2. clear.
  destruct c as [[] [] [] [] [] [] [] []]; by vm_compute.
Qed.

Lemma name_line ls some key vals n v : word_without ":#" n ->
  read_fields ((n +:+ ":" +:+ v) :: ls) some key vals = read_fields ls true n (<[n := trim_space v]> vals).
Proof.
  intros Hn. cbn [read_fields].
  destruct (first_of_name n (":" +:+ v) Hn) as (c & r & E & E1 & E2).
  assert (is_empty_line (n +:+ ":" +:+ v) = false) as ->.
  { rewrite E. unfold is_empty_line. cbn. destruct r as [|d r].
    - destruct Hn as [Hn _]. by destruct n as [|? [|? ?]].
    - by destruct (Ascii.eqb c _). }
  rewrite E. cbn [starts_with]. rewrite E1, E2, <- E. destruct Hn as [_ Hn].
  change (":" +:+ v) with (String ":"%char v).
  rewrite (split_on_n_app (char_eqb ":"%char) 0 n ":"%char v); [| |done].
  - rewrite split_on_n_one. assert (trim_space n = n) as ->; [|done].
    apply trim_trimmed, trimmed_forall. eapply all_bytes_impl, Hn.
    intros d [H _]%andb_true_iff. by rewrite <- white_is_space.
  - eapply all_bytes_impl, Hn. intros d [_ H]%andb_true_iff. apply negb_true_iff in H. cbn in H.
    apply orb_false_iff in H as [H _]. unfold char_eqb. by rewrite H.
Qed.

Lemma more_line_read l ls key vals : more_line l ->
  read_fields (l :: ls) true key vals =
  read_fields ls true key (<[key := continued (default "" (vals !! key)) l]> vals).
Proof.
  intros (_ & c & r & -> & Hc & _). cbn [read_fields].
  assert (char_eqb "#" c = false /\ is_continuation c = true /\ Ascii.eqb c (ascii_of_nat 13) = false) as (E1 & E2 & E3).
  { revert Hc. clear. destruct c as [[] [] [] [] [] [] [] []]; by vm_compute. }
  unfold is_empty_line. cbn [String.eqb orb starts_with]. by rewrite E1, E2, E3.
Qed.

Lemma more_lines_read more ls key vals v : Forall more_line more -> vals !! key = Some v ->
  read_fields (more ++ ls)%list true key vals =
  read_fields ls true key (<[key := fold_left continued more v]> vals).
Proof.
  intros H. revert vals v. induction H as [|l more Hl _ IH]; intros vals v E.
  { cbn. by rewrite insert_id. }
  cbn [app fold_left]. rewrite (more_line_read _ _ _ _ Hl), E.
  rewrite (IH _ (continued v l)) by apply lookup_insert. by rewrite insert_insert.
Qed.

Definition add_fields (fs : list field) (vals : gmap string string) : gmap string string :=
  fold_left (fun m f => <[fd_name f := final_value f]> m) fs vals.

Lemma read_fields_all fs some key vals : Forall field_ok fs -> fs <> [] \/ some = true ->
  read_fields (concat (map field_lines fs)) some key vals = Some (add_fields fs vals).
Proof.
  intros H. revert some key vals. induction H as [|f fs Hf _ IH]; intros some key vals Hs.
  { destruct Hs as [Hs|Hs]; [done|]. by rewrite Hs. }
  destruct Hf as (Hn & _ & Hm).
  assert (concat (map field_lines (f :: fs)) =
    (fd_name f +:+ ":" +:+ fd_first f) :: (fd_more f ++ concat (map field_lines fs))%list) as -> by done.
  rewrite (name_line _ _ _ _ _ _ Hn).
  rewrite (more_lines_read _ _ _ _ (trim_space (fd_first f)) Hm) by apply lookup_insert.
  rewrite insert_insert. rewrite IH by (by right). done.
Qed.

Lemma add_fields_other fs vals k : k ∉ map fd_name fs -> add_fields fs vals !! k = vals !! k.
Proof.
  revert vals. induction fs as [|f fs IH]; intros vals; [done|]. cbn. rewrite not_elem_of_cons.
  intros [H1 H2]. unfold add_fields in IH. rewrite (IH _ H2). by rewrite lookup_insert_ne.
Qed.

Lemma add_fields_in fs vals f : NoDup (map fd_name fs) -> f ∈ fs ->
  add_fields fs vals !! fd_name f = Some (final_value f).
Proof.
  revert vals. induction fs as [|g fs IH]; intros vals; [by intros _ ?%elem_of_nil|]. cbn.
  intros [H1 H2]%NoDup_cons [->|H]%elem_of_cons.
  - pose proof (add_fields_other fs (<[fd_name g := final_value g]> vals) (fd_name g) H1) as E.
    unfold add_fields in E. rewrite E. apply lookup_insert.
  - by apply IH.
Qed.

(** ** The lines of a record *)
Lemma drop_last_keep l : Forall (fun x => x <> "") l -> drop_last_empty l = l.
Proof.
  induction 1 as [|x l Hx _ IH]; [done|]. cbn. destruct l; [by destruct (String.eqb_spec x "")|]. by rewrite IH.
Qed.

Lemma drop_last_one l : drop_last_empty (l ++ [""])%list = l.
Proof.
  induction l as [|x l IH]; [done|]. cbn [app drop_last_empty].
  destruct (l ++ [""])%list eqn:E; [by destruct l|]. by rewrite IH.
Qed.

Lemma split_lines ls t : ls <> [] -> Forall one_line ls ->
  split_char lf (rec_text nl ls +:+ (if t : bool then nl else "")) = (ls ++ (if t then [""] else []))%list.
Proof.
  intros Hne H. unfold split_char. induction H as [|l ls Hl Hls IH]; [done|].
  assert (all_bytes (fun c => negb (char_eqb lf c)) l = true) as Hl'.
  { eapply all_bytes_impl, Hl. intros c. unfold is_lf, char_eqb. by rewrite Ascii.eqb_sym. }
  destruct ls as [|l' ls].
  - cbn [rec_text]. destruct t; [|rewrite app_nil_str; by apply split_on_none].
    rewrite (split_on_app _ _ _ _ Hl') by done. done.
  - cbn [rec_text]. rewrite !app_assoc_str.
    change (nl +:+ ?x) with (String lf x). rewrite (split_on_app _ _ _ _ Hl') by done.
    cbn [rec_text] in IH. rewrite IH by done. done.
Qed.

Lemma field_lines_ok f : field_ok f -> Forall one_line (field_lines f) /\ Forall (fun x => x <> "") (field_lines f).
Proof.
  intros ((Hn1 & Hn2) & Hf & Hm). unfold field_lines. split.
  - constructor.
    + unfold one_line. rewrite !all_bytes_app. apply value_one_line in Hf. unfold one_line in Hf. rewrite Hf.
      cbn. rewrite andb_true_r. eapply all_bytes_impl, Hn2. intros c. destruct c as [[] [] [] [] [] [] [] []]; by vm_compute.
    + eapply Forall_impl; [exact Hm|]. intros l (Hl & _). by apply value_one_line.
  - constructor; [by destruct (fd_name f)|]. eapply Forall_impl; [exact Hm|]. by intros l (_ & c & r & -> & _).
Qed.

Lemma record_lines fs t : record_ok fs -> text_lines (record_text fs t) = concat (map field_lines fs).
Proof.
  intros (Hne & Hok & _). unfold text_lines, record_text.
  assert (Forall one_line (concat (map field_lines fs)) /\ Forall (fun x => x <> "") (concat (map field_lines fs))) as [H1 H2].
  { clear Hne. induction Hok as [|f fs Hf _ [IH1 IH2]]; [by split; constructor|].
    cbn [map concat]. destruct (field_lines_ok f Hf). split; by apply Forall_app. }
  change (ascii_of_nat 10) with lf. rewrite split_lines; [|by destruct fs|done].
  destruct t; [apply drop_last_one|]. rewrite app_nil_r. by apply drop_last_keep.
Qed.

(** ** The values of the fields *)
Lemma shows_value fs k v : record_ok fs -> shows fs k v -> string_field (add_fields fs ∅) k = v.
Proof.
  intros (_ & Hok & Hnd) [(f & Hf & <- & Hm & Hs)|[H ->]]; unfold string_field.
  - rewrite (add_fields_in _ _ _ Hnd Hf). unfold final_value. rewrite Hm. cbn. by apply stripped_trim.
  - by rewrite (add_fields_other _ _ _ H), lookup_empty.
Qed.

Lemma lists_value fs k es : record_ok fs -> lists fs k es -> list_field (add_fields fs ∅) k = es.
Proof.
  intros (_ & Hok & Hnd) [(f & Hf & <- & Hc & Ho)|[H ->]].
  - rewrite Forall_forall in Hok. pose proof (Hok f Hf) as Hfo.
    rewrite (list_field_value _ _ _ (add_fields_in _ _ _ Hnd Hf) (final_good f Hfo)).
    apply comma_list_tp in Hc. rewrite <- Hc. symmetry. apply value_same; [by apply Hfo|]. by rewrite Hc.
  - unfold list_field. by rewrite (add_fields_other _ _ _ H), lookup_empty.
Qed.

(** ** Dependencies *)
Lemma parse_deps_none l m : parse_deps l m = None <-> exists e, e ∈ l /\ parse_dep e = None.
Proof.
  revert m. induction l as [|s l IH]; intros m; cbn.
  { split; [done|]. by intros (e & H%elem_of_nil & _). }
  destruct (parse_dep s) eqn:E.
  - rewrite IH. split; intros (e & H & He); exists e; [split; [by right|done]|].
    apply elem_of_cons in H as [->|H]; [congruence|done].
  - split; [|done]. intros _. exists s. split; [by left|done].
Qed.

Lemma last_such_cons {A} (P : A -> Prop) x l y :
  last_such P (x :: l) y <-> last_such P l y \/ (y = x /\ P x /\ forall z, z ∈ l -> ~ P z).
Proof.
  split.
  - intros (l1 & l2 & E & H1 & H2). destruct l1 as [|a l1]; injection E as -> ->; [by right|].
    left. by exists l1, l2.
  - intros [(l1 & l2 & -> & H1 & H2)|(-> & H1 & H2)]; [by exists (x :: l1), l2|by exists [], l].
Qed.

Lemma parse_deps_lookup l (m m' : gmap string dep) n x : parse_deps l m = Some m' ->
  m' !! n = Some x <->
    (exists e, parse_dep e = Some x /\
      last_such (fun e => exists y, parse_dep e = Some y /\ dep_name y = n) l e) \/
    (m !! n = Some x /\ forall e, e ∈ l -> ~ exists y, parse_dep e = Some y /\ dep_name y = n).
Proof.
  revert m. induction l as [|s l IH]; intros m; cbn.
  { intros [= <-]. split.
    - intros H. right. split; [done|]. by intros e ?%elem_of_nil.
    - intros [(e & _ & (l1 & l2 & E & _))|[H _]]; [by destruct l1|done]. }
  destruct (parse_dep s) as [d|] eqn:E; [|done]. intros H. rewrite (IH _ H). split.
  - intros [(e & H1 & H2)|[H1 H2]].
    + left. exists e. split; [done|]. apply last_such_cons. by left.
    + destruct (decide (dep_name d = n)) as [<-|Hne].
      * rewrite lookup_insert in H1. injection H1 as <-. left. exists s. split; [done|].
        apply last_such_cons. right. split; [done|]. split; [by exists d|done].
      * rewrite lookup_insert_ne in H1 by done. right. split; [done|].
        intros e [->|He]%elem_of_cons; [|by apply H2]. intros (y & Hy & Hn). congruence.
  - intros [(e & H1 & H2)|[H1 H2]].
    + apply last_such_cons in H2 as [H2|(-> & (y & Hy & Hn) & H3)]; [left; by exists e|].
      right. assert (d = x) as -> by congruence. assert (y = x) as -> by congruence. subst n.
      split; [by rewrite lookup_insert|done].
    + right. split; [|intros e He; apply H2; by right]. rewrite lookup_insert_ne; [done|].
      intros Hn. apply (H2 s); [by left|]. by exists d.
Qed.

Lemma parse_deps_spec l m : parse_deps l ∅ = Some m -> dependencies l m.
Proof.
  intros H n x. rewrite (parse_deps_lookup _ _ _ _ _ H), lookup_empty. naive_solver.
Qed.

(** ** Descriptions *)
Lemma record_values fs t w : record_ok fs -> says fs w ->
  parse_desc (record_text fs t) =
  new_desc (RawDesc (w_package w) (w_version w) (w_path w) (w_repository w) (w_compile w)
    (w_imports w) (w_suggests w) (w_depends w) (w_linkingto w)
    (w_pkgr_version w) (w_pkgr_type w) (w_pkgr_url w)).
Proof.
  intros Hok Hs. unfold parse_desc. rewrite (record_lines _ _ Hok).
  destruct Hok as (Hne & Hf & Hnd). rewrite read_fields_all by (auto).
  assert (record_ok fs) as Hok by (by split).
  destruct Hs as (H1 & H2 & H3 & H4 & H5 & H6 & H7 & H8 & H9 & H10 & H11 & H12). unfold decode_desc.
  rewrite (shows_value _ _ _ Hok H1), (shows_value _ _ _ Hok H2), (shows_value _ _ _ Hok H3),
    (shows_value _ _ _ Hok H4), (shows_value _ _ _ Hok H5), (lists_value _ _ _ Hok H6),
    (lists_value _ _ _ Hok H7), (lists_value _ _ _ Hok H8), (lists_value _ _ _ Hok H9),
    (shows_value _ _ _ Hok H10), (shows_value _ _ _ Hok H11), (shows_value _ _ _ Hok H12). done.
Qed.

Lemma record_read fs t w : record_ok fs -> says fs w ->
  (parse_desc (record_text fs t) = None <-> exists e, e ∈ all_entries w /\ parse_dep e = None) /\
  (forall d, parse_desc (record_text fs t) = Some d -> describes w d).
Proof.
  intros Hok Hs. rewrite (record_values _ _ _ Hok Hs). unfold new_desc. cbn. unfold all_entries. split.
  - pose proof (parse_deps_none (w_imports w) ∅) as G1. pose proof (parse_deps_none (w_suggests w) ∅) as G2.
    pose proof (parse_deps_none (w_depends w) ∅) as G3. pose proof (parse_deps_none (w_linkingto w) ∅) as G4.
    transitivity (parse_deps (w_imports w) ∅ = None \/ parse_deps (w_suggests w) ∅ = None \/
      parse_deps (w_depends w) ∅ = None \/ parse_deps (w_linkingto w) ∅ = None).
    { destruct (parse_deps (w_imports w) ∅), (parse_deps (w_suggests w) ∅), (parse_deps (w_depends w) ∅),
        (parse_deps (w_linkingto w) ∅); naive_solver. }
    rewrite G1, G2, G3, G4. split.
    + intros [(e & H & He)|[(e & H & He)|[(e & H & He)|(e & H & He)]]]; exists e; (split; [|done]);
        rewrite !elem_of_app; auto.
    + intros (e & H & He). rewrite !elem_of_app in H. destruct H as [H|[H|[H|H]]]; eauto 6.
  - intros d. destruct (parse_deps (w_imports w) ∅) eqn:E1; [|done].
    destruct (parse_deps (w_suggests w) ∅) eqn:E2; [|done].
    destruct (parse_deps (w_depends w) ∅) eqn:E3; [|done].
    destruct (parse_deps (w_linkingto w) ∅) eqn:E4; [|done].
    intros [= <-]. unfold describes. cbn [d_package d_version d_path d_repository d_needs_compilation d_imports
      d_suggests d_depends d_linkingto d_pkgr_version d_pkgr_type d_pkgr_url].
    split; [done|]. split; [done|]. split; [done|]. split; [done|]. split; [exact (equal_fold_same (w_compile w) "yes")|].
    split; [by apply parse_deps_spec|]. split; [by apply parse_deps_spec|].
    split; [by apply parse_deps_spec|]. split; [by apply parse_deps_spec|]. done.
Qed.

(** ** A whole index *)
Lemma parse_all_none parse l : parse_all parse l = None <-> exists t, t ∈ l /\ parse t = None.
Proof.
  induction l as [|t l IH]; cbn.
  { split; [done|]. by intros (t & H%elem_of_nil & _). }
  destruct (parse t) as [d|] eqn:E.
  - destruct (parse_all parse l) as [ds|].
    + split; [done|]. intros (u & [->|H]%elem_of_cons & Hu); [congruence|].
      assert (Some ds = None :> option (list desc)) as X; [|done]. apply IH. by exists u.
    + split; [|done]. intros _. destruct (proj1 IH eq_refl) as (u & H & Hu). exists u. split; [by right|done].
  - split; [|done]. intros _. exists t. split; [by left|done].
Qed.

Lemma index_record_texts eol rs last trailing : eol = nl \/ eol = String cr nl ->
  Forall index_record_ok (rs ++ [last])%list ->
  record_texts (index_text eol (map record_lines_of rs) (record_lines_of last) trailing) =
  (map (fun fs => record_text fs false) rs ++ [record_text last trailing])%list.
Proof.
  intros He H. rewrite Forall_app, Forall_singleton in H. destruct H as [H (Hl1 & Hl2)].
  assert (forall fs, index_record_ok fs -> record_lines_of fs <> [] /\ Forall line_ok (record_lines_of fs)) as G.
  { intros fs ((Hne & _ & _) & Hfs). split; [|done]. by destruct fs. }
  rewrite record_texts_index; [|done|by apply Forall_map; eapply Forall_impl; [exact H|]|by apply (G last)|done].
  f_equal. rewrite map_map. apply map_ext. intros fs. unfold record_text. cbn. by rewrite app_nil_str.
Qed.

Lemma read_index_says rv eol rs last trailing ws : rv_ok rv -> eol = nl \/ eol = String cr nl ->
  Forall index_record_ok (rs ++ [last])%list -> Forall2 says (rs ++ [last])%list ws ->
  let body := index_text eol (map record_lines_of rs) (record_lines_of last) trailing in
  (read_index parse_desc rv (Some body) = None <->
     exists w e, w ∈ ws /\ e ∈ all_entries w /\ parse_dep e = None) /\
  (forall m, read_index parse_desc rv (Some body) = Some m ->
     exists ds, Forall2 describes ws ds /\
       forall p d, m !! p = Some d <-> last_such (usable_record rv p) ds d).
Proof.
  intros Hrv He Hok Hs body.
  assert (Forall2 (fun w t => (parse_desc t = None <-> exists e, e ∈ all_entries w /\ parse_dep e = None) /\
    (forall d, parse_desc t = Some d -> describes w d)) ws (record_texts body)) as G.
  { unfold body. rewrite (index_record_texts _ _ _ _ He Hok). apply Forall2_app_inv_l in Hs as (ws1 & ws2 & H1 & H2 & ->).
    rewrite Forall_app, Forall_singleton in Hok. destruct Hok as [Hok (Hl & _)].
    apply Forall2_app.
    - clear -H1 Hok. induction H1 as [|fs w rs ws Hw _ IH]; [constructor|].
      apply Forall_cons in Hok as [(Hf & _) Hrs]. cbn. constructor; [by apply record_read|by apply IH].
    - apply Forall2_cons_inv_l in H2 as (w & ws' & Hw & Hnil & ->). apply Forall2_nil_inv_l in Hnil as ->. constructor; [by apply record_read|constructor]. }
  split.
  - unfold read_index. transitivity (parse_all parse_desc (record_texts body) = None).
    { by destruct (parse_all parse_desc (record_texts body)). }
    rewrite parse_all_none. split.
    + intros (t & Ht & E). apply elem_of_list_lookup in Ht as [i Hi].
      destruct (Forall2_lookup_r _ _ _ _ _ G Hi) as (w & Hw & [Hn _]). destruct (proj1 Hn E) as (e & H1 & H2).
      exists w, e. split; [by eapply elem_of_list_lookup_2|done].
    + intros (w & e & Hw & H1 & H2). apply elem_of_list_lookup in Hw as [i Hi].
      destruct (Forall2_lookup_l _ _ _ _ _ G Hi) as (t & Ht & [Hn _]).
      exists t. split; [by eapply elem_of_list_lookup_2|]. apply (proj2 Hn). by exists e.
  - intros m Hm. apply (read_index_spec _ _ _ _ Hrv) in Hm as (b & ds & [= <-] & Hp & Hl).
    exists ds. split; [|done]. clear -G Hp. revert ds Hp. induction G as [|w t ws ts [_ Hd] _ IH]; intros ds Hp.
    + apply Forall2_nil_inv_l in Hp as ->. constructor.
    + apply Forall2_cons_inv_l in Hp as (d & ds' & H1 & H2 & ->). constructor; [by apply Hd|by apply IH].
Qed.

(** Line ends after the last record. *)
Lemma normalise_ends eol n : eol = nl \/ eol = String cr nl -> normalise_newlines (line_ends eol n) = line_ends nl n.
Proof. intros He. induction n as [|n IH]; [done|]. cbn [line_ends]. by rewrite normalise_eol, IH. Qed.

Lemma split_ends k : split_blank_lines (line_ends nl (2 * k)) = replicate (S k) "".
Proof.
  induction k as [|k IH]; [done|]. replace (2 * S k) with (S (S (2 * k))) by lia. cbn [line_ends].
  change (nl +:+ nl +:+ ?x) with (String lf (String lf x)). by rewrite split_blank_two, IH.
Qed.

Lemma normalise_index_tail eol recs last s :
  eol = nl \/ eol = String cr nl ->
  Forall (fun ls => ls <> [] /\ Forall line_ok ls) recs -> Forall line_ok last ->
  normalise_newlines (index_text eol recs last false +:+ s) = index_text nl recs last false +:+ normalise_newlines s.
Proof.
  intros He H Hl. induction recs as [|r recs IH]; cbn [index_text].
  - rewrite !app_nil_str. by rewrite normalise_record.
  - apply Forall_cons in H as [[H1 H2] H]. rewrite !app_assoc_str. rewrite normalise_record by done.
    rewrite !normalise_eol, IH by done. done.
Qed.

Lemma split_index_tail recs last s :
  Forall (fun ls => ls <> [] /\ Forall line_ok ls) recs -> last <> [] -> Forall line_ok last ->
  split_blank_lines (index_text nl recs last false +:+ s) =
  (map (rec_text nl) recs ++ prepend (rec_text nl last) (split_blank_lines s))%list.
Proof.
  intros H Hne Hl. induction recs as [|r recs IH]; cbn [index_text map app].
  - rewrite app_nil_str. by rewrite split_record.
  - apply Forall_cons in H as [[H1 H2] H]. rewrite !app_assoc_str.
    rewrite split_record by done. change (nl +:+ nl +:+ ?x) with (String lf (String lf x)).
    rewrite split_blank_two, IH by done. cbn [prepend]. by rewrite app_nil_str.
Qed.

Lemma record_texts_ends eol recs last k :
  eol = nl \/ eol = String cr nl ->
  Forall (fun ls => ls <> [] /\ Forall line_ok ls) recs -> last <> [] -> Forall line_ok last ->
  record_texts (index_text eol recs last false +:+ line_ends eol (2 * k)) =
  record_texts (index_text eol recs last false).
Proof.
  intros He H Hne Hl. unfold record_texts. rewrite normalise_index_tail, normalise_ends by done.
  rewrite split_index_tail, split_ends by done. rewrite normalise_index, split_index by done.
  rewrite !List.filter_app. f_equal. cbn [replicate prepend]. rewrite app_nil_str.
  assert (List.filter (fun p => negb (p =? "")) (replicate k "") = []) as E by (by induction k).
  cbn [List.filter]. by rewrite E.
Qed.

Lemma split_ends_odd k : split_blank_lines (line_ends nl (2 * k + 1)) = (replicate k "" ++ [nl])%list.
Proof.
  induction k as [|k IH]; [done|]. replace (2 * S k + 1) with (S (S (2 * k + 1))) by lia. cbn [line_ends].
  change (nl +:+ nl +:+ ?x) with (String lf (String lf x)). by rewrite split_blank_two, IH.
Qed.

Lemma record_texts_odd eol recs last k :
  eol = nl \/ eol = String cr nl ->
  Forall (fun ls => ls <> [] /\ Forall line_ok ls) recs -> last <> [] -> Forall line_ok last ->
  record_texts (index_text eol recs last false +:+ line_ends eol (2 * k + 3)) =
  (record_texts (index_text eol recs last false) ++ [nl])%list.
Proof.
  intros He H Hne Hl. unfold record_texts. rewrite normalise_index_tail, normalise_ends by done.
  replace (2 * k + 3) with (2 * S k + 1) by lia.
  rewrite split_index_tail, split_ends_odd by done. rewrite normalise_index, split_index by done.
  rewrite !List.filter_app. cbn [replicate prepend app]. rewrite app_nil_str. cbn [List.filter].
  rewrite List.filter_app.
  assert (List.filter (fun p => negb (p =? "")) (replicate k "") = []) as -> by (by induction k).
  rewrite <- app_assoc. f_equal. by destruct (negb (rec_text nl last =? "")).
Qed.

Lemma trim_stripped p : stripped p (trim is_space p).
Proof.
  split.
  - apply trimmed_bare. destruct (trim_parts is_space p) as (a & b & E & Ha & Hb).
    rewrite E at 2. rewrite (trim_pre _ _ _ Ha), (trim_post _ _ _ Hb). done.
  - destruct (trim_parts is_space p) as (a & b & E & Ha & Hb). exists a, b. by rewrite !all_white.
Qed.

Lemma parse_dep_named e x : parse_dep e = Some x -> named e (dep_name x).
Proof.
  intros H. assert (exists p r, e = p +:+ r /\ all_bytes (fun c => negb (one_of "(" c)) p = true /\
    (r = "" \/ exists r', r = String "("%char r') /\ split_char "("%char e = p :: tl (split_char "("%char e)) as
    (p & r & E & Hp & Hr & Hs).
  { destruct (first_byte_dec (char_eqb "("%char) e) as [Hn|(w & c & r & E & Hc & Hw)].
    - exists e, "". rewrite app_nil_str. split; [done|].
      split; [eapply all_bytes_impl, Hn; intros c; cbn; by rewrite orb_false_r|]. split; [by left|].
      unfold split_char. by rewrite (split_on_none _ _ Hn).
    - apply char_eqb_eq in Hc as <-. exists w, (String "("%char r). split; [done|].
      split; [eapply all_bytes_impl, Hw; intros c; cbn; by rewrite orb_false_r|]. split; [right; by exists r|].
      unfold split_char. rewrite E, (split_on_app _ _ _ _ Hw) by done. done. }
  exists p, r. split; [done|]. split; [done|]. split; [done|].
  assert (dep_name x = trim is_space p) as ->; [|apply trim_stripped].
  revert H. unfold parse_dep. rewrite Hs. cbv zeta.
  destruct (tl (split_char "("%char e)) as [|sp1 rest]; [by intros [= <-]|].
  destruct (contains "==" (replace1 ")" "" sp1)); [by destruct (parse_version _); intros [= <-]|].
  destruct (contains ">=" (replace1 ")" "" sp1)); [by destruct (parse_version _); intros [= <-]|].
  destruct (contains ">" (replace1 ")" "" sp1)); [by destruct (parse_version _); intros [= <-]|].
  destruct (contains "<=" (replace1 ")" "" sp1)); [by destruct (parse_version _); intros [= <-]|].
  destruct (contains "<" (replace1 ")" "" sp1)); [by destruct (parse_version _); intros [= <-]|done].
Qed.

Lemma dependencies_named es m n x : dependencies es m -> m !! n = Some x -> exists e, e ∈ es /\ named e n.
Proof.
  intros H E. apply H in E as (e & He & (l1 & l2 & -> & (y & Hy & <-) & _)).
  exists e. split; [apply elem_of_app; right; by left|]. by apply parse_dep_named.
Qed.

Lemma named_head e n : named e n -> n = trim is_space (hd "" (split_char "("%char e)).
Proof.
  intros (p & r & -> & Hp & Hr & Hs). apply stripped_trim in Hs as <-. f_equal.
  assert (Hp' : all_bytes (fun c => negb (char_eqb "("%char c)) p = true).
  { eapply all_bytes_impl, Hp. intros c. cbn. by rewrite orb_false_r. }
  unfold split_char. destruct Hr as [-> | [r' ->]].
  - by rewrite app_nil_str, (split_on_none _ _ Hp').
  - by rewrite (split_on_app _ _ _ _ Hp').
Qed.

Lemma dependencies_names es m n : dependencies es m -> (forall e, e ∈ es -> parse_dep e <> None) ->
  (exists x, m !! n = Some x) <-> exists e, e ∈ es /\ named e n.
Proof.
  intros H Hs. split.
  - intros [x E]. by eapply dependencies_named.
  - intros (e & He & Hn). destruct (parse_dep e) as [y|] eqn:Ey; [|by destruct (Hs e He)].
    assert (dep_name y = n) as Hy.
    { rewrite (named_head _ _ Hn). apply named_head. by apply parse_dep_named. }
    assert (D : forall e, Decision (exists y, parse_dep e = Some y /\ dep_name y = n)).
    { intros u. destruct (parse_dep u) as [z|]; [|right; by intros (z & Hz & _)].
      destruct (decide (dep_name z = n)) as [Hz|Hz]; [left; by exists z|right; by intros (z' & [= <-] & ?)]. }
    destruct (last_such_dec (fun e => exists y, parse_dep e = Some y /\ dep_name y = n) es) as [(u & Hu)|Hu].
    + destruct (last_such_split _ _ _ Hu) as [_ (z & Hz & _)]. exists z. apply H. by exists u.
    + destruct (Hu e He). by exists y.
Qed.
