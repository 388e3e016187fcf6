(** Reading /etc/os-release. *)
From stdpp Require Import strings list gmap.
From Coq Require Import Ascii ZArith NArith Lia.
From Verif.model Require Import GoStr Install Download Urls OsRelease.
From Verif.spec Require Import StrSpec OsReleaseSpec.
From Verif.proofs Require Import GoStrLemmas.

Local Open Scope string_scope.
Local Arguments Ascii.eqb : simpl never.
Local Arguments char_eqb : simpl never.
Local Arguments line_feed : simpl never.
Local Arguments dquote : simpl never.

Definition no_eq (c : ascii) : bool := negb (Ascii.eqb c "="%char).
Definition no_lf (c : ascii) : bool := negb (Ascii.eqb c line_feed).

(** ** Facts about classes of bytes, checked byte by byte *)

Lemma byte_cases (f : ascii -> bool) : forallb f (map ascii_of_nat (seq 0 256)) = true -> forall c, f c = true.
Proof.
  intros H c. rewrite forallb_forall in H. apply H. apply in_map_iff. exists (nat_of_ascii c).
  split; [apply ascii_nat_embedding|]. apply in_seq. split; [lia|]. pose proof (nat_ascii_bounded c). lia.
Qed.

Lemma byte_impl (f g : ascii -> bool) :
  forallb (fun c => negb (f c) || g c) (map ascii_of_nat (seq 0 256)) = true -> forall c, f c = true -> g c = true.
Proof.
  intros H c Hf. pose proof (byte_cases _ H c) as Hc. cbn in Hc. rewrite Hf in Hc. done.
Qed.

Ltac bytes := apply byte_impl; vm_compute; reflexivity.

Lemma name_bare c : name_byte c = true -> bare_key_char c = true.
Proof. revert c. bytes. Qed.
Lemma name_no_eq c : name_byte c = true -> no_eq c = true.
Proof. revert c. bytes. Qed.
Lemma name_no_lf c : name_byte c = true -> no_lf c = true.
Proof. revert c. bytes. Qed.
Lemma name_no_space c : name_byte c = true -> negb (toml_space c) = true.
Proof. revert c. bytes. Qed.
Lemma plain_basic c : plain_byte c = true -> basic_char c = true.
Proof. revert c. bytes. Qed.
Lemma quoted_basic c : quoted_byte c = true -> basic_char c = true.
Proof. revert c. bytes. Qed.
Lemma basic_no_lf c : basic_char c = true -> no_lf c = true.
Proof. revert c. bytes. Qed.
Lemma basic_no_quote c : basic_char c = true -> negb (char_eqb c dquote) = true.
Proof. revert c. bytes. Qed.
Lemma comment_no_lf c : comment_byte c = true -> no_lf c = true.
Proof. revert c. bytes. Qed.

Lemma all_impl (f g : ascii -> bool) s : (forall c, f c = true -> g c = true) -> all_bytes f s = true -> all_bytes g s = true.
Proof. intros H. apply all_bytes_impl. exact H. Qed.

(** ** The replacement *)

Lemma quote_skip w s : all_bytes no_eq w = true -> quote_values false (w +:+ s) = w +:+ quote_values false s.
Proof.
  induction w as [|c w IH]; intros H; [done|]. cbn in H. apply andb_true_iff in H as [H1 H2].
  cbn. unfold no_eq in H1. apply negb_true_iff in H1. unfold char_eqb. rewrite H1. by rewrite IH.
Qed.

Lemma quote_inside w s : all_bytes no_lf w = true ->
  quote_values true (w +:+ String line_feed s) = w +:+ String dquote (String line_feed (quote_values false s)).
Proof.
  induction w as [|c w IH]; intros H.
  - cbn. by rewrite char_eqb_refl.
  - cbn in H. apply andb_true_iff in H as [H1 H2]. cbn. unfold no_lf in H1. apply negb_true_iff in H1.
    unfold char_eqb at 1. rewrite H1. by rewrite IH.
Qed.

Lemma quote_eq_quote s : quote_values false (String "=" (String dquote s)) = String "=" (quote_values false (String dquote s)).
Proof. reflexivity. Qed.

Lemma quote_eq_other d s : char_eqb d dquote = false ->
  quote_values false (String "=" (String d s)) = String "=" (String dquote (String d (quote_values true s))).
Proof. intros H. cbn [quote_values]. rewrite H. reflexivity. Qed.

Lemma quote_comment t s : all_bytes no_lf t = true -> (forall a, t <> a +:+ "=") ->
  exists t', quote_values false (t +:+ String line_feed s) = t' +:+ String line_feed (quote_values false s) /\
    all_bytes no_lf t' = true.
Proof.
  induction t as [|c t IH]; intros H He.
  - exists "". cbn. split; done.
  - cbn in H. apply andb_true_iff in H as [H1 H2].
    assert (He' : forall a, t <> a +:+ "=") by (intros a ->; by apply (He (String c a))).
    destruct (char_eqb c "="%char) eqn:Ec.
    + apply char_eqb_eq in Ec as ->. destruct t as [|d t]; [exfalso; by apply (He "")|].
      cbn in H2. apply andb_true_iff in H2 as [H2 H3].
      destruct (char_eqb d dquote) eqn:Ed.
      * apply char_eqb_eq in Ed as ->. destruct (IH) as (t' & Ht & Hn); [cbn; by rewrite H3|done|].
        exists (String "=" t'). split.
        -- change (String "=" (String dquote t) +:+ String line_feed s) with (String "=" (String dquote (t +:+ String line_feed s))).
           rewrite quote_eq_quote. cbn in Ht |- *. by rewrite Ht.
        -- cbn. by rewrite Hn.
      * exists (String "=" (String dquote (String d (t +:+ String dquote "")))). split.
        -- change (String "=" (String d t) +:+ String line_feed s) with (String "=" (String d (t +:+ String line_feed s))).
           rewrite quote_eq_other, quote_inside by done. cbn. by rewrite app_assoc_str.
        -- cbn. rewrite H2. cbn. rewrite all_bytes_app, H3. done.
    + destruct IH as (t' & Ht & Hn); [done|done|]. exists (String c t'). split.
      * cbn. rewrite Ec, Ht. done.
      * cbn. by rewrite H1, Hn.
Qed.

(** ** Reading a line *)

Lemma span_app f a b : all_bytes f a = true -> (forall c r, b = String c r -> f c = false) -> span f (a +:+ b) = (a, b).
Proof.
  induction a as [|c a IH]; intros H Hb.
  - cbn. destruct b as [|c b]; [done|]. cbn. by rewrite (Hb c b).
  - cbn in H. apply andb_true_iff in H as [H1 H2]. cbn. rewrite H1, IH by done. done.
Qed.

Lemma trim_left_first f c s : f c = false -> trim_left f (String c s) = String c s.
Proof. cbn. by intros ->. Qed.

Lemma read_pair k v : k <> "" -> all_bytes name_byte k = true -> all_bytes basic_char v = true ->
  read_toml_line (k +:+ String "=" (String dquote (v +:+ String dquote ""))) = TPair k v.
Proof.
  intros Hk Hn Hv. unfold read_toml_line.
  assert (Ht : trim_left toml_space (k +:+ String "=" (String dquote (v +:+ String dquote ""))) =
               k +:+ String "=" (String dquote (v +:+ String dquote ""))).
  { destruct k as [|c k]; [done|]. cbn in Hn. apply andb_true_iff in Hn as [Hn _].
    apply name_no_space, negb_true_iff in Hn. cbn. by rewrite Hn. }
  rewrite Ht, span_app; [|by eapply all_impl; [apply name_bare|]|by intros c r [= <- _]].
  destruct k as [|c k]; [done|].
  rewrite trim_left_first by done. rewrite char_eqb_refl.
  rewrite trim_left_first by done. rewrite char_eqb_refl.
  rewrite span_app; [|done|by intros c' r [= <- _]].
  rewrite char_eqb_refl. done.
Qed.

(** The line as it is after the replacement. *)
Lemma line_read l s : os_line_ok l -> os_line_simple l ->
  exists t, quote_values false (os_line_text l +:+ String line_feed s) = t +:+ String line_feed (quote_values false s) /\
    all_bytes no_lf t = true /\
    read_toml_line t = match l with LPlain k v | LQuoted k v => TPair k v | _ => TNone end.
Proof.
  destruct l as [|c|k v|k v]; cbn [os_line_ok os_line_simple os_line_text].
  - intros _ _. exists "". cbn. split; [done|]. done.
  - intros Hc He. destruct (quote_comment ("#" +:+ c) s) as (t & Ht & Hn).
    + cbn. eapply all_impl; [apply comment_no_lf|done].
    + intros a E. destruct a as [|x a]; cbn in E; [done|]. injection E as _ E. by apply (He a).
    + exists t. split; [done|]. split; [done|]. cbn in Ht. destruct t as [|x t]; cbn in Ht; [done|].
      injection Ht as <- Ht. done.
  - intros (Hk & Hn & Hv) Hne. destruct v as [|c v]; [done|].
    assert (Hb : all_bytes basic_char (String c v) = true) by (eapply all_impl; [apply plain_basic|done]).
    assert (Hl : all_bytes no_lf (String c v) = true) by (eapply all_impl; [apply basic_no_lf|done]).
    exists (k +:+ String "=" (String dquote (String c v +:+ String dquote ""))). split; [|split].
    + rewrite app_assoc_str, quote_skip by (eapply all_impl; [apply name_no_eq|done]).
      cbn in Hb. apply andb_true_iff in Hb as [Hb _]. apply basic_no_quote, negb_true_iff in Hb.
      cbn in Hl. apply andb_true_iff in Hl as [_ Hl].
      change (("=" +:+ String c v) +:+ String line_feed s) with (String "=" (String c (v +:+ String line_feed s))).
      rewrite quote_eq_other, quote_inside by done. rewrite app_assoc_str. cbn. by rewrite app_assoc_str.
    + rewrite all_bytes_app. apply andb_true_iff. split; [by eapply all_impl; [apply name_no_lf|]|].
      cbn. cbn in Hl. rewrite all_bytes_app. apply andb_true_iff in Hl as [H1 H2]. by rewrite H1, H2.
    + by apply read_pair.
  - intros (Hk & Hn & Hv) Hne.
    assert (Hb : all_bytes basic_char v = true) by (eapply all_impl; [apply quoted_basic|done]).
    assert (Hl : all_bytes no_lf v = true) by (eapply all_impl; [apply basic_no_lf|done]).
    exists (k +:+ String "=" (String dquote (v +:+ String dquote ""))). split; [|split].
    + rewrite app_assoc_str, quote_skip by (eapply all_impl; [apply name_no_eq|done]).
      change (("=" +:+ double_quote +:+ v +:+ double_quote) +:+ String line_feed s)
        with (String "=" (String dquote ((v +:+ double_quote) +:+ String line_feed s))).
      rewrite quote_eq_quote.
      change (String dquote ((v +:+ double_quote) +:+ String line_feed s)) with ((String dquote (v +:+ double_quote)) +:+ String line_feed s).
      rewrite quote_skip by (cbn; rewrite all_bytes_app; change (all_bytes no_eq v) with (all_bytes (fun c => negb (Ascii.eqb c "="%char)) v); rewrite Hne; done).
      change double_quote with (String dquote ""). rewrite app_assoc_str. cbn. rewrite !app_assoc_str. done.
    + rewrite all_bytes_app. apply andb_true_iff. split; [by eapply all_impl; [apply name_no_lf|]|].
      cbn. rewrite all_bytes_app. by rewrite Hl.
    + by apply read_pair.
Qed.

(** ** Reading the file *)

Lemma lines_read ls (m : gmap string string) : Forall os_line_ok ls -> Forall os_line_simple ls ->
  NoDup (map fst (assignments ls)) -> (forall k, k ∈ map fst (assignments ls) -> m !! k = None) ->
  read_toml_lines (split_char line_feed (quote_values false (os_text ls))) m =
  Some (foldl (fun m kv => <[kv.1 := kv.2]> m) m (assignments ls)).
Proof.
  revert m. induction ls as [|l ls IH]; intros m H1 H2 H3 H4; [done|].
  inversion H1 as [|? ? Hl1 Hl2]; inversion H2 as [|? ? Hs1 Hs2]; subst.
  destruct (line_read l (os_text ls) Hl1 Hs1) as (t & Ht & Hn & Hr).
  change (os_text (l :: ls)) with (os_line_text l +:+ String line_feed (os_text ls)).
  rewrite Ht. unfold split_char.
  rewrite split_on_app; [|by rewrite <- Hn; apply all_bytes_ext; intros c; unfold no_lf, char_eqb; rewrite Ascii.eqb_sym|apply char_eqb_refl].
  cbn [read_toml_lines]. rewrite Hr. change (split_on (char_eqb line_feed)) with (split_char line_feed).
  destruct l as [|c|k v|k v]; cbn [assignments map] in *.
  - by apply IH.
  - by apply IH.
  - inversion H3 as [|? ? Hk Hd]; subst. rewrite H4 by (cbn; set_solver). cbn [foldl fst snd]. apply IH; [done|done|done|].
    intros k' Hk'. rewrite lookup_insert_ne by (intros ->; done). apply H4. cbn. set_solver.
  - inversion H3 as [|? ? Hk Hd]; subst. rewrite H4 by (cbn; set_solver). cbn [foldl fst snd]. apply IH; [done|done|done|].
    intros k' Hk'. rewrite lookup_insert_ne by (intros ->; done). apply H4. cbn. set_solver.
Qed.

Lemma foldl_lookup (l : list (string * string)) (m : gmap string string) k : NoDup (map fst l) ->
  match foldl (fun m kv => <[kv.1 := kv.2]> m) m l !! k with
  | Some v => (k, v) ∈ l \/ m !! k = Some v /\ ~ k ∈ map fst l
  | None => m !! k = None /\ ~ k ∈ map fst l
  end.
Proof.
  revert m. induction l as [|[k1 v1] l IH]; intros m Hn.
  - cbn. destruct (m !! k); [right|]; split; [done|set_solver|done|set_solver].
  - cbn [map fst] in Hn. inversion Hn as [|? ? Hk Hd]; subst. cbn [foldl fst snd].
    specialize (IH (<[k1 := v1]> m) Hd). destruct (foldl _ _ l !! k) as [v|].
    + destruct IH as [IH|[IH1 IH2]]; [left; set_solver|].
      destruct (decide (k1 = k)) as [->|Hne].
      * rewrite lookup_insert in IH1. injection IH1 as ->. left. set_solver.
      * rewrite lookup_insert_ne in IH1 by done. right. split; [done|]. cbn. set_solver.
    + destruct IH as [IH1 IH2]. destruct (decide (k1 = k)) as [->|Hne].
      * by rewrite lookup_insert in IH1.
      * rewrite lookup_insert_ne in IH1 by done. split; [done|]. cbn. set_solver.
Qed.

Lemma os_value_of ls k : NoDup (map fst (assignments ls)) ->
  os_value ls k (default "" (foldl (fun m kv => <[kv.1 := kv.2]> m) (∅ : gmap string string) (assignments ls) !! k)).
Proof.
  intros Hn. pose proof (foldl_lookup (assignments ls) ∅ k Hn) as H. destruct (foldl _ _ _ !! k) as [v|].
  - destruct H as [H|[H _]]; [by left|]. by rewrite lookup_empty in H.
  - destruct H as [_ H]. right. split; [done|]. intros w Hw. apply H. apply elem_of_list_fmap. by exists (k, w).
Qed.

Lemma os_release_read ls : Forall os_line_ok ls -> Forall os_line_simple ls -> NoDup (map fst (assignments ls)) ->
  exists r, read_os_release (Some (os_text ls)) = Some r /\
    os_value ls "ID" (or_id r) /\ os_value ls "VERSION_ID" (or_version_id r) /\ os_value ls "VERSION_CODENAME" (or_codename r).
Proof.
  intros H1 H2 H3. unfold read_os_release, read_toml. rewrite lines_read; [|done|done|done|by intros; apply lookup_empty].
  eexists. split; [done|]. cbn [or_id or_version_id or_codename].
  split; [|split]; by apply os_value_of.
Qed.
