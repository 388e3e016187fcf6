(** Lemmas for the theorems that say what happens in all cases. *)
From stdpp Require Import strings list gmap relations.
From Coq Require Import Ascii ZArith NArith Lia.
From Verif.model Require Import GoStr Fs Env Logging Install Download Urls OsRelease Start Extract.
From Verif.spec Require Import StrSpec UrlSpec LogSpec OsReleaseSpec LibSpec ExtractSpec StartSpec EnvSpec Exact7Spec.
From Verif.proofs Require UrlProofs.
From Verif.proofs Require Import ConfigProofs GoStrLemmas LogProofs OsReleaseProofs FsProofs ExtractProofs StartProofs.

Local Open Scope string_scope.
Local Arguments Ascii.eqb : simpl never.
Local Arguments char_eqb : simpl never.
Local Arguments line_feed : simpl never.
Local Arguments dquote : simpl never.

(** ** Several log files *)

Definition times (hs : list string) (f : string) : nat := length (List.filter (String.eqb f) hs).

Lemma append_all r hs : forall (m : gmap string (list record)) f, (forall h, h ∈ hs -> is_Some (m !! h)) ->
  fold_left (append_record r) hs m !! f = (fun old => (old ++ repeat r (times hs f))%list) <$> (m !! f).
Proof.
  induction hs as [|h hs IH]; intros m f Hm.
  - cbn. destruct (m !! f); [|done]. cbn. by rewrite app_nil_r.
  - cbn [fold_left]. rewrite IH.
    + unfold append_record, times. cbn [List.filter]. destruct (Hm h) as [old Eh]; [by left|]. rewrite Eh. cbn [default].
      destruct (String.eqb_spec f h) as [-> |Hn].
      * rewrite lookup_insert, Eh. cbn. f_equal. by rewrite <- app_assoc.
      * by rewrite lookup_insert_ne.
    + intros h' Hh'. unfold append_record. destruct (decide (h = h')) as [-> |Hn]; [rewrite lookup_insert; by eexists|].
      rewrite lookup_insert_ne by done. apply Hm. by right.
Qed.

Lemma emit_all_lookup rs : forall g f, (forall h, h ∈ lg_hooks g -> is_Some (lg_files g !! h)) ->
  lg_files (emit_all rs g) !! f =
  (fun old => (old ++ flat_map (fun r => repeat r (times (lg_hooks g) f)) (List.filter (fun r => enabled (lg_level g) r.1) rs))%list)
    <$> (lg_files g !! f).
Proof.
  induction rs as [|r rs IH]; intros g f Hg.
  - cbn. destruct (lg_files g !! f); [|done]. cbn. by rewrite app_nil_r.
  - change (emit_all (r :: rs) g) with (emit_all rs (emit g r)). cbn [List.filter].
    assert (forall h, lg_files (emit g r) !! h = (fun old => (old ++ if enabled (lg_level g) r.1 then repeat r (times (lg_hooks g) h) else [])%list)
      <$> (lg_files g !! h)) as E.
    { intros h. unfold emit. destruct (enabled (lg_level g) r.1).
      - cbn [lg_files]. by apply append_all.
      - destruct (lg_files g !! h); [|done]. cbn. by rewrite app_nil_r. }
    rewrite IH.
    + rewrite emit_level, emit_hooks, E. destruct (lg_files g !! f) as [old|]; [|done]. cbn. f_equal.
      destruct (enabled (lg_level g) r.1); cbn [flat_map]; by rewrite <- ?app_assoc, ?app_nil_r.
    + intros h Hh. rewrite emit_hooks in Hh. rewrite E. destruct (Hg h Hh) as [old ->]. by eexists.
Qed.

Lemma flat_none {A} (l : list A) : flat_map (fun r => repeat r 0) l = [].
Proof. induction l as [|x l IH]; [done|]. cbn. exact IH. Qed.

Lemma flat_one {A} (l : list A) : flat_map (fun r => repeat r 1) l = l.
Proof. induction l as [|x l IH]; [done|]. cbn in *. by rewrite IH. Qed.

(** ** Names in the file system *)

(** Going up and then down. *)
Fixpoint ups_downs (up : nat) (down : list string) (l : list string) : nat * list string :=
  match l with
  | [] => (up, down)
  | c :: l' =>
      if String.eqb c "" || String.eqb c "." then ups_downs up down l'
      else if String.eqb c ".." then
        (if bool_decide (down = []) then ups_downs (S up) [] l' else ups_downs up (removelast down) l')
      else ups_downs up (down ++ [c])%list l'
  end.

Lemma removelast_take (p : list string) n : removelast (take (length p - n) p) = take (length p - S n) p.
Proof.
  destruct (decide (n < length p)) as [H|H].
  - replace (length p - n) with (S (length p - S n)) by lia.
    apply removelast_firstn. lia.
  - replace (length p - n) with 0 by lia. replace (length p - S n) with 0 by lia. done.
Qed.

Lemma ups_downs_spec l : forall up down p,
  add_components (take (length p - up) p ++ down)%list l =
  (take (length p - (ups_downs up down l).1) p ++ (ups_downs up down l).2)%list.
Proof.
  induction l as [|c l IH]; intros up down p; [done|]. cbn [add_components ups_downs].
  destruct (String.eqb c "" || String.eqb c ".") eqn:E1; [apply IH|].
  destruct (String.eqb c "..") eqn:E2.
  - destruct (decide (down = [])) as [-> |Hd].
    + rewrite bool_decide_eq_true_2 by done. rewrite <- IH, !app_nil_r, removelast_take. done.
    + rewrite bool_decide_eq_false_2 by done. rewrite <- IH, removelast_app by done. done.
  - rewrite <- IH, <- app_assoc. done.
Qed.

(** A relative name: so many steps up, then down. *)
Lemma resolve_ups s : has_prefix "/" s = false ->
  exists up down, forall d, resolve d s = (take (length d - up) d ++ down)%list.
Proof.
  intros H. exists (ups_downs 0 [] (split_slash s)).1, (ups_downs 0 [] (split_slash s)).2. intros d.
  unfold resolve. rewrite H. unfold join_path. rewrite <- ups_downs_spec, Nat.sub_0_r, app_nil_r, firstn_all. done.
Qed.

Lemma ups_downs_snoc f l : String.eqb f "" || String.eqb f "." = false -> String.eqb f ".." = false -> forall up down,
  ups_downs up down (l ++ [f])%list = ((ups_downs up down l).1, ((ups_downs up down l).2 ++ [f])%list).
Proof.
  intros H1 H2. induction l as [|c l IH]; intros up down.
  - cbn [app ups_downs]. by rewrite H1, H2.
  - cbn [app ups_downs]. destruct (String.eqb c "" || String.eqb c "."); [apply IH|].
    destruct (String.eqb c ".."); [|apply IH]. destruct (bool_decide (down = [])); apply IH.
Qed.

Lemma names_ups l : forall p q, names_path p l q -> forall p0 up down, p = (take (length p0 - up) p0 ++ down)%list -> up <= length p0 ->
  (ups_downs up down l).1 <= length p0.
Proof.
  induction l as [|c l IH]; intros p q H; [done|]. cbn [ups_downs].
  inversion H as [|? ? ? ? Hc Hl|p1 x ? ? Hl E|? ? ? ? N1 N2 N3 Hl]; subst; intros p0 up down Ep Hu.
  - assert (String.eqb c "" || String.eqb c "." = true) as E by (by destruct Hc as [-> | ->]). rewrite E. by eapply IH.
  - change (String.eqb ".." "" || String.eqb ".." ".") with false. cbv iota. change (String.eqb ".." "..") with true. cbv iota.
    destruct (decide (down = [])) as [-> |Hd].
    + rewrite bool_decide_eq_true_2 by done. rewrite app_nil_r in Ep.
      assert (0 < length p0 - up). { destruct (length p0 - up); [by destruct p1|lia]. }
      eapply IH; [exact Hl| |lia]. rewrite app_nil_r, <- removelast_take, <- Ep, removelast_last. done.
    + rewrite bool_decide_eq_false_2 by done. eapply IH; [exact Hl| |done].
      rewrite <- removelast_app, <- Ep, removelast_last by done. done.
  - destruct (String.eqb_spec c ""); [done|]. destruct (String.eqb_spec c "."); [done|]. cbn [orb].
    destruct (String.eqb_spec c ".."); [done|]. eapply IH; [exact Hl| |done]. rewrite Ep. by rewrite <- app_assoc.
Qed.

(** ** Reading /etc/os-release *)

Lemma eq_or_quote (c : ascii) : c = dquote \/ char_eqb c dquote = false.
Proof. destruct (char_eqb c dquote) eqn:E; [left; by apply char_eqb_eq|by right]. Qed.

Lemma starts_cons c t : value_starts t -> value_starts (String c t).
Proof. intros (a & d & b & -> & H). by exists (String c a), d, b. Qed.

(** A comment that ends with an equals sign and starts no value before. *)
Lemma quote_opens t s : all_bytes no_lf t = true -> (exists a, t = a +:+ "=") -> ~ value_starts t ->
  quote_values false (t +:+ String line_feed s) = t +:+ String dquote (String line_feed (quote_values true s)).
Proof.
  induction t as [|c t IH]; intros H [a Ea] Hv; [by destruct a|].
  cbn in H. apply andb_true_iff in H as [H1 H2].
  destruct t as [|d t].
  - assert (c = "="%char) as ->. { destruct a as [|x a]; cbn in Ea; [by injection Ea|]. injection Ea as _ Ea. by destruct a. }
    change (String "=" "" +:+ String line_feed s) with (String "=" (String line_feed s)). rewrite quote_eq_other by done. done.
  - assert (exists a', String d t = a' +:+ "=") as Ha.
    { destruct a as [|x a]; cbn in Ea; [by injection Ea|]. injection Ea as _ Ea. by exists a. }
    assert (~ value_starts (String d t)) as Hv' by (intros K; apply Hv; by apply starts_cons).
    specialize (IH H2 Ha Hv').
    change (String c (String d t) +:+ String line_feed s) with (String c (String d t +:+ String line_feed s)).
    change (String c (String d t) +:+ String dquote (String line_feed (quote_values true s)))
      with (String c (String d t +:+ String dquote (String line_feed (quote_values true s)))). rewrite <- IH.
    destruct (char_eqb c "="%char) eqn:Ec.
    + apply char_eqb_eq in Ec as ->. destruct (eq_or_quote d) as [-> |Ed]; [apply quote_eq_quote|].
      exfalso. apply Hv. exists "", d, t. split; [done|]. unfold double_quote. change (ascii_of_nat 34) with dquote. intros [= ->].
      by rewrite char_eqb_refl in Ed.
    + cbn [quote_values]. by rewrite Ec.
Qed.

Lemma quote_comment_starts t s : all_bytes no_lf t = true -> value_starts t ->
  exists t', quote_values false (t +:+ String line_feed s) = t' +:+ String line_feed (quote_values false s) /\
    all_bytes no_lf t' = true.
Proof.
  induction t as [|c t IH]; intros H Hv; [by destruct Hv as ([|] & ? & ? & ? & _)|].
  cbn in H. apply andb_true_iff in H as [H1 H2].
  destruct (char_eqb c "="%char) eqn:Ec.
  - apply char_eqb_eq in Ec as ->. destruct t as [|d t].
    { destruct Hv as (a & x & b & E & _). destruct a as [|y a]; [done|]. injection E as _ E. by destruct a. }
    cbn in H2. apply andb_true_iff in H2 as [H2 H3].
    destruct (eq_or_quote d) as [-> |Ed].
    + destruct IH as (t' & Ht & Hn); [cbn; by rewrite H3| |].
      { destruct Hv as (a & x & b & E & Hx). destruct a as [|y a]; [injection E as <- _; by destruct Hx|]. injection E as _ E. by exists a, x, b. }
      exists (String "=" t'). split.
      * change (String "=" (String dquote t) +:+ String line_feed s) with (String "=" (String dquote (t +:+ String line_feed s))).
        rewrite quote_eq_quote. cbn in Ht |- *. by rewrite Ht.
      * cbn. by rewrite Hn.
    + exists (String "=" (String dquote (String d (t +:+ String dquote "")))). split.
      * change (String "=" (String d t) +:+ String line_feed s) with (String "=" (String d (t +:+ String line_feed s))).
        rewrite quote_eq_other, quote_inside by done. cbn. by rewrite app_assoc_str.
      * cbn. rewrite H2. cbn. rewrite all_bytes_app, H3. done.
  - destruct IH as (t' & Ht & Hn); [done| |].
    { destruct Hv as (a & x & b & E & Hx). destruct a as [|y a].
      - injection E as -> _. by rewrite char_eqb_refl in Ec.
      - injection E as _ E. by exists a, x, b. }
    exists (String c t'). split.
    + cbn. rewrite Ec, Ht. done.
    + cbn. by rewrite H1, Hn.
Qed.

Lemma value_starts_dec t : value_starts t \/ ~ value_starts t.
Proof.
  induction t as [|c t IH]; [right; by intros ([|] & ? & ? & ? & _)|].
  destruct IH as [IH|IH]; [left; by apply starts_cons|].
  destruct (char_eqb c "="%char) eqn:Ec.
  - apply char_eqb_eq in Ec as ->. destruct t as [|d t].
    { right. intros (a & x & b & E & _). destruct a as [|y a]; [done|]. injection E as _ E. by destruct a. }
    destruct (eq_or_quote d) as [-> |Ed].
    + right. intros (a & x & b & E & Hx). destruct a as [|y a]; [injection E as <- _; by destruct Hx|].
      injection E as _ E. apply IH. by exists a, x, b.
    + left. exists "", d, t. split; [done|]. intros [= ->]. by rewrite char_eqb_refl in Ed.
  - right. intros (a & x & b & E & Hx). destruct a as [|y a].
    + injection E as -> _. by rewrite char_eqb_refl in Ec.
    + injection E as _ E. apply IH. by exists a, x, b.
Qed.

Lemma ends_eq_dec t : (exists a, t = a +:+ "=") \/ forall a, t <> a +:+ "=".
Proof.
  destruct (trim_suffix_cases "=" t) as [E|E].
  - right. intros a ->. destruct (trim_suffix_self a "=") as [Ea _]. rewrite Ea in E. apply (f_equal String.length) in E.
    rewrite UrlProofs.append_length in E. cbn in E. lia.
  - left. by eexists.
Qed.

(** A comment line, with what it leaves for the next. *)
Lemma comment_read t s : all_bytes comment_byte t = true ->
  ((forall a, t <> a +:+ "=") \/ value_starts t) ->
  exists t', quote_values false (os_line_text (LComment t) +:+ String line_feed s) = t' +:+ String line_feed (quote_values false s) /\
    all_bytes no_lf t' = true /\ read_toml_line t' = TNone.
Proof.
  intros Hc Ht.
  assert (all_bytes no_lf t = true) as Hl by (eapply all_impl; [apply comment_no_lf|done]).
  assert (exists t', quote_values false (t +:+ String line_feed s) = t' +:+ String line_feed (quote_values false s) /\
    all_bytes no_lf t' = true) as (t' & E & Hn).
  { destruct Ht as [Ht|Ht]; [by apply quote_comment|by apply quote_comment_starts]. }
  exists (String "#" t'). split; [|split; [done|done]].
  change (os_line_text (LComment t) +:+ String line_feed s) with (String "#" (t +:+ String line_feed s)).
  change (quote_values false (String "#" (t +:+ String line_feed s))) with (String "#" (quote_values false (t +:+ String line_feed s))).
  by rewrite E.
Qed.

Lemma comment_opens t s : all_bytes comment_byte t = true -> (exists a, t = a +:+ "=") -> ~ value_starts t ->
  quote_values false (os_line_text (LComment t) +:+ String line_feed s) = ("#" +:+ t +:+ String dquote "") +:+ String line_feed (quote_values true s).
Proof.
  intros Hc He Hv. assert (all_bytes no_lf t = true) as Hl by (eapply all_impl; [apply comment_no_lf|done]).
  change (os_line_text (LComment t) +:+ String line_feed s) with (String "#" (t +:+ String line_feed s)).
  change (quote_values false (String "#" (t +:+ String line_feed s))) with (String "#" (quote_values false (t +:+ String line_feed s))).
  rewrite quote_opens by done. cbn. f_equal. by rewrite app_assoc_str.
Qed.

(** Reading a line that ends with a quote too many. *)
Lemma text_no_lf l : os_line_ok l -> all_bytes no_lf (os_line_text l) = true.
Proof.
  destruct l as [|t|k v|k v]; cbn [os_line_ok os_line_text]; [done| | |].
  - intros H. cbn. eapply all_impl; [apply comment_no_lf|done].
  - intros (_ & H1 & H2). rewrite all_bytes_app. apply andb_true_iff. split; [by eapply all_impl; [apply name_no_lf|]|].
    cbn. eapply all_impl; [|exact H2]. intros c Hc. by apply basic_no_lf, plain_basic.
  - intros (_ & H1 & H2). rewrite all_bytes_app. apply andb_true_iff. split; [by eapply all_impl; [apply name_no_lf|]|].
    assert (all_bytes no_lf v = true) as E by (eapply all_impl; [|exact H2]; intros c Hc; by apply basic_no_lf, quoted_basic).
    cbn. rewrite all_bytes_app, E. done.
Qed.

(** The key of a line, and what is after it. *)
Lemma read_key k r : k <> "" -> all_bytes name_byte k = true ->
  read_toml_line (k +:+ String "=" r) =
  match trim_left toml_space r with
  | String q r2 =>
      if char_eqb q dquote then
        let '(v, r3) := span basic_char r2 in
        match r3 with
        | String q' r4 => if char_eqb q' dquote && rest_ok r4 then TPair k v else TError
        | "" => TError
        end
      else TError
  | "" => TError
  end.
Proof.
  intros Hk Hn. unfold read_toml_line.
  assert (Ht : trim_left toml_space (k +:+ String "=" r) = k +:+ String "=" r).
  { destruct k as [|c k]; [done|]. cbn in Hn. apply andb_true_iff in Hn as [Hn _].
    apply name_no_space, negb_true_iff in Hn. cbn. by rewrite Hn. }
  rewrite Ht, span_app; [|by eapply all_impl; [apply name_bare|]|by intros c x [= <- _]].
  destruct k as [|c k]; [done|]. rewrite trim_left_first by done. rewrite char_eqb_refl. done.
Qed.

Lemma read_quoted k v r : k <> "" -> all_bytes name_byte k = true -> all_bytes basic_char v = true ->
  read_toml_line (k +:+ String "=" (String dquote (v +:+ String dquote r))) = if rest_ok r then TPair k v else TError.
Proof.
  intros Hk Hn Hv. rewrite read_key by done. rewrite trim_left_first by done. rewrite char_eqb_refl.
  rewrite span_app; [|done|by intros c' x [= <- _]]. rewrite char_eqb_refl. done.
Qed.

Lemma plain_first c : plain_byte c = true -> toml_space c = false /\ char_eqb c dquote = false.
Proof.
  intros H. split; apply negb_true_iff; revert c H; bytes.
Qed.

Lemma inside_read l : os_line_ok l -> read_toml_line (os_line_text l +:+ String dquote "") =
  match l with LComment _ => TNone | _ => TError end.
Proof.
  destruct l as [|t|k v|k v]; cbn [os_line_ok os_line_text]; intros H; [done|done| |].
  - destruct H as (Hk & Hn & Hv). rewrite app_assoc_str.
    change (("=" +:+ v) +:+ String dquote "") with (String "=" (v +:+ String dquote "")). rewrite read_key by done.
    destruct v as [|c v]; [done|]. cbn in Hv. apply andb_true_iff in Hv as [Hv _]. destruct (plain_first c Hv) as [E1 E2].
    change (String c v +:+ String dquote "") with (String c (v +:+ String dquote "")). rewrite trim_left_first by done. by rewrite E2.
  - destruct H as (Hk & Hn & Hv). rewrite app_assoc_str.
    replace (("=" +:+ double_quote +:+ v +:+ double_quote) +:+ String dquote "")
      with (String "=" (String dquote (v +:+ String dquote (String dquote "")))).
    2: { change double_quote with (String dquote ""). cbn. by rewrite app_assoc_str. }
    rewrite read_quoted; [done|done|done|]. eapply all_impl; [|exact Hv]. apply quoted_basic.
Qed.

(** A quoted value: without an equals sign, with one at the end, or with one before. *)
Lemma quoted_cases v : without "=" v \/ (exists a, without "=" a /\ v = a +:+ "=") \/
  exists a c b, without "=" a /\ v = a +:+ "=" +:+ String c b.
Proof.
  induction v as [|c v IH]; [by left|]. destruct (Ascii.eqb "=" c) eqn:Ec.
  - apply Ascii.eqb_eq in Ec as <-. right. destruct v as [|d v]; [left; by exists ""|right; by exists "", d, v].
  - assert (forall a, without "=" a -> without "=" (String c a)) as K.
    { intros a Ha. unfold without in *. cbn. by rewrite Ec, Ha. }
    destruct IH as [IH|[(a & Ha & ->)|(a & d & b & Ha & ->)]]; [left; by apply K|right; left; exists (String c a); split; [by apply K|done]|].
    right. right. exists (String c a), d, b. split; [by apply K|done].
Qed.

Lemma without_no_eq a : without "=" a -> all_bytes no_eq a = true.
Proof. intros H. unfold without in H. rewrite <- H. apply all_bytes_ext. intros c. unfold no_eq. by rewrite Ascii.eqb_sym. Qed.

Lemma quoted_read k v s : os_line_ok (LQuoted k v) -> without "=" v \/ (exists a, without "=" a /\ v = a +:+ "=") ->
  exists t, quote_values false (os_line_text (LQuoted k v) +:+ String line_feed s) = t +:+ String line_feed (quote_values false s) /\
    all_bytes no_lf t = true /\ read_toml_line t = TPair k v.
Proof.
  intros (Hk & Hn & Hv) Hc. exists (os_line_text (LQuoted k v)). split; [|split].
  - cbn [os_line_text]. rewrite !(app_assoc_str k). rewrite quote_skip by (eapply all_impl; [apply name_no_eq|done]). f_equal.
    replace (("=" +:+ double_quote +:+ v +:+ double_quote) +:+ String line_feed s)
      with (String "=" (String dquote (v +:+ String dquote (String line_feed s)))).
    2: { change double_quote with (String dquote ""). cbn. by rewrite app_assoc_str. }
    replace (("=" +:+ double_quote +:+ v +:+ double_quote) +:+ String line_feed (quote_values false s))
      with (String "=" (String dquote (v +:+ String dquote (String line_feed (quote_values false s))))).
    2: { change double_quote with (String dquote ""). cbn. by rewrite app_assoc_str. }
    rewrite quote_eq_quote. change (String dquote (v +:+ String dquote (String line_feed s))) with (String dquote v +:+ String dquote (String line_feed s)).
    destruct Hc as [Hc|(a & Ha & ->)].
    + rewrite quote_skip by (cbn; by apply without_no_eq). done.
    + change (String dquote (a +:+ "=")) with ((String dquote a) +:+ "="). rewrite app_assoc_str.
      rewrite quote_skip by (cbn; by apply without_no_eq).
      change ("=" +:+ String dquote (String line_feed s)) with (String "=" (String dquote (String line_feed s))). rewrite quote_eq_quote.
      cbn. by rewrite app_assoc_str.
  - by apply text_no_lf.
  - cbn [os_line_text]. change ("=" +:+ double_quote +:+ v +:+ double_quote) with (String "=" (String dquote (v +:+ String dquote ""))).
    rewrite read_quoted; [done|done|done|]. eapply all_impl; [|exact Hv]. apply quoted_basic.
Qed.

Lemma quoted_cut k a c b s : os_line_ok (LQuoted k (a +:+ "=" +:+ String c b)) -> without "=" a ->
  exists t, quote_values false (os_line_text (LQuoted k (a +:+ "=" +:+ String c b)) +:+ String line_feed s) =
    t +:+ String line_feed (quote_values false s) /\ all_bytes no_lf t = true /\
    read_toml_line t = if rest_ok (String c b +:+ String dquote (String dquote "")) then TPair k (a +:+ "=") else TError.
Proof.
  intros (Hk & Hn & Hv) Ha. rewrite all_bytes_app in Hv. apply andb_true_iff in Hv as [Hv1 Hv2].
  change (all_bytes quoted_byte ("=" +:+ String c b)) with (quoted_byte c && all_bytes quoted_byte b) in Hv2.
  apply andb_true_iff in Hv2 as [Hv2 Hv3].
  assert (char_eqb c dquote = false) as Hq. { apply quoted_basic, basic_no_quote, negb_true_iff in Hv2. done. }
  assert (all_bytes no_lf b = true) as Hb. { eapply all_impl; [|exact Hv3]. intros d Hd. by apply basic_no_lf, quoted_basic. }
  exists (k +:+ String "=" (String dquote ((a +:+ "=") +:+ String dquote (String c b +:+ String dquote (String dquote ""))))). split; [|split].
  - cbn [os_line_text]. rewrite !(app_assoc_str k). rewrite quote_skip by (eapply all_impl; [apply name_no_eq|done]). f_equal.
    replace (("=" +:+ double_quote +:+ (a +:+ "=" +:+ String c b) +:+ double_quote) +:+ String line_feed s)
      with (String "=" (String dquote (a +:+ String "=" (String c ((b +:+ String dquote "") +:+ String line_feed s))))).
    2: { change double_quote with (String dquote ""). cbn. by rewrite !app_assoc_str. }
    rewrite quote_eq_quote.
    change (String dquote (a +:+ String "=" (String c ((b +:+ String dquote "") +:+ String line_feed s))))
      with (String dquote a +:+ String "=" (String c ((b +:+ String dquote "") +:+ String line_feed s))).
    rewrite quote_skip by (cbn; by apply without_no_eq). rewrite quote_eq_other by done. rewrite quote_inside.
    + cbn. rewrite !app_assoc_str. cbn. by rewrite !app_assoc_str.
    + rewrite all_bytes_app, Hb. done.
  - assert (all_bytes no_lf k = true) as E1 by (by eapply all_impl; [apply name_no_lf|]).
    assert (all_bytes no_lf a = true) as E2 by (eapply all_impl; [|exact Hv1]; intros d Hd; by apply basic_no_lf, quoted_basic).
    apply quoted_basic, basic_no_lf in Hv2. rewrite all_bytes_app, E1. cbn. rewrite !all_bytes_app, E2. cbn. by rewrite all_bytes_app, Hb, Hv2.
  - rewrite read_quoted; [done|done|done|]. rewrite all_bytes_app. apply andb_true_iff. split; [|done].
    eapply all_impl; [|exact Hv1]. apply quoted_basic.
Qed.

Lemma quoted_space c : quoted_byte c = true -> toml_space c = true -> c = " "%char.
Proof.
  intros H1 H2. assert (Ascii.eqb c " " = true) as E; [|by apply Ascii.eqb_eq].
  enough (negb (quoted_byte c && toml_space c) || Ascii.eqb c " " = true) as K. { rewrite H1, H2 in K. done. }
  revert c H1 H2. intros c _ _. revert c. apply byte_cases. vm_compute. reflexivity.
Qed.

Lemma rest_after v : all_bytes quoted_byte v = true ->
  rest_ok (v +:+ String dquote (String dquote "")) = true <->
  exists spaces b, v = spaces +:+ "#" +:+ b /\ all_chars (fun c => c = " "%char) spaces.
Proof.
  induction v as [|c v IH]; intros H.
  - split; [done|]. intros ([|] & b & E & _); done.
  - cbn in H. apply andb_true_iff in H as [H1 H2]. specialize (IH H2). unfold rest_ok in *.
    change (String c v +:+ String dquote (String dquote "")) with (String c (v +:+ String dquote (String dquote ""))).
    cbn [trim_left]. destruct (toml_space c) eqn:Es.
    + apply quoted_space in Es as ->; [|done]. rewrite IH. split.
      * intros (sp & b & -> & Hs). exists (String " " sp), b. done.
      * intros (sp & b & E & Hs). destruct sp as [|d sp]; [done|]. injection E as <- ->. destruct Hs as [_ Hs]. by exists sp, b.
    + rewrite char_eqb_eq. split.
      * intros ->. by exists "", v.
      * intros (sp & b & E & Hs). destruct sp as [|d sp]; [by injection E|]. injection E as <- _. destruct Hs as [-> _]. done.
Qed.

(** Names and values are added one after the other. *)
Fixpoint add_pairs (kvs : list (string * string)) (m : gmap string string) : option (gmap string string) :=
  match kvs with
  | [] => Some m
  | (k, v) :: r => match m !! k with Some _ => None | None => add_pairs r (<[k := v]> m) end
  end.

Lemma split_line t s : all_bytes no_lf t = true -> split_char line_feed (t +:+ String line_feed s) = t :: split_char line_feed s.
Proof.
  intros Hn. unfold split_char. rewrite split_on_app; [done| |apply char_eqb_refl].
  rewrite <- Hn. apply all_bytes_ext. intros c. unfold no_lf, char_eqb. by rewrite Ascii.eqb_sym.
Qed.

Lemma accepted_read ls kvs : accepted ls kvs -> Forall os_line_ok ls -> forall m,
  read_toml_lines (split_char line_feed (quote_values false (os_text ls))) m = add_pairs kvs m.
Proof.
  intros H. induction H as [|ls kvs H IH|t ls kvs Ht H IH|t u ls kvs Ht Hv H IH|k v ls kvs Hv H IH|k v ls kvs Hv H IH|k a sp b ls kvs Ha Hs H IH];
    intros Hok m; [done|..]; inversion Hok as [|? ? Hl Hr]; subst; specialize (IH);
    try (match goal with |- read_toml_lines (split_char _ (quote_values false (os_text (?l :: ?r)))) _ = _ =>
      change (os_text (l :: r)) with (os_line_text l +:+ String line_feed (os_text r)) end).
  - change (quote_values false (os_line_text LBlank +:+ String line_feed (os_text ls))) with ("" +:+ String line_feed (quote_values false (os_text ls))).
    rewrite split_line by done. cbn [read_toml_lines]. change (read_toml_line "") with TNone. cbv iota. by apply IH.
  - destruct (comment_read t (os_text ls) Hl Ht) as (t' & -> & Hn & Er). rewrite split_line by done. cbn [read_toml_lines]. rewrite Er. by apply IH.
  - rewrite comment_opens by done. inversion Hr as [|? ? Hl2 Hr2]; subst.
    change (os_text (LComment u :: ls)) with (os_line_text (LComment u) +:+ String line_feed (os_text ls)).
    rewrite quote_inside by (by apply text_no_lf). rewrite split_line.
    2: { change ("#" +:+ t +:+ String dquote "") with (String "#" (t +:+ String dquote "")). assert (all_bytes no_lf t = true) as E by (eapply all_impl; [apply comment_no_lf|done]).
         cbn. rewrite all_bytes_app, E. done. }
    cbn [read_toml_lines]. change (read_toml_line ("#" +:+ t +:+ String dquote "")) with TNone. cbv iota.
    replace (os_line_text (LComment u) +:+ String dquote (String line_feed (quote_values false (os_text ls))))
      with ((os_line_text (LComment u) +:+ String dquote "") +:+ String line_feed (quote_values false (os_text ls))) by (by rewrite app_assoc_str).
    rewrite split_line by (rewrite all_bytes_app, text_no_lf; done). cbn [read_toml_lines].
    rewrite (inside_read (LComment u) Hl2). by apply IH.
  - destruct (line_read (LPlain k v) (os_text ls) Hl Hv) as (t' & -> & Hn & Er). rewrite split_line by done. cbn [read_toml_lines]. rewrite Er.
    cbn [add_pairs]. destruct (m !! k); [done|]. by apply IH.
  - destruct (quoted_read k v (os_text ls) Hl Hv) as (t' & -> & Hn & Er). rewrite split_line by done. cbn [read_toml_lines]. rewrite Er.
    cbn [add_pairs]. destruct (m !! k); [done|]. by apply IH.
  - assert (exists c b', sp +:+ "#" +:+ b = String c b') as (c & b' & E). { destruct sp as [|c sp]; [by exists "#"%char, b|by exists c, (sp +:+ "#" +:+ b)]. }
    clear Hl. apply Forall_cons in Hok as [Hl _]. rewrite E in Hl |- *. destruct (quoted_cut k a c b' (os_text ls) Hl Ha) as (t' & -> & Hn & Er). rewrite split_line by done. cbn [read_toml_lines].
    assert (rest_ok (String c b' +:+ String dquote (String dquote "")) = true) as Ek.
    { apply rest_after; [|by exists sp, b]. destruct Hl as (_ & _ & Hl). rewrite all_bytes_app in Hl. by apply andb_true_iff in Hl as [_ Hl]. }
    rewrite Ek in Er. rewrite Er. cbn [add_pairs]. destruct (m !! k); [done|]. by apply IH.
Qed.

Lemma read_accepted ls : Forall os_line_ok ls -> forall m m',
  read_toml_lines (split_char line_feed (quote_values false (os_text ls))) m = Some m' -> exists kvs, accepted ls kvs.
Proof.
  remember (length ls) as n eqn:En. revert ls En. induction (lt_wf n) as [n _ IHn]. intros ls ->.
  destruct ls as [|l ls]; intros Hok m m' Hr; [exists []; constructor|].
  inversion Hok as [|? ? Hl Hls]; subst.
  change (os_text (l :: ls)) with (os_line_text l +:+ String line_feed (os_text ls)) in Hr.
  assert (forall m m', read_toml_lines (split_char line_feed (quote_values false (os_text ls))) m = Some m' -> exists kvs, accepted ls kvs) as IH.
  { intros x y Hx. by eapply (IHn (length ls)); [cbn; lia|..]. }
  destruct l as [|t|k v|k v].
  - change (quote_values false (os_line_text LBlank +:+ String line_feed (os_text ls))) with ("" +:+ String line_feed (quote_values false (os_text ls))) in Hr.
    rewrite split_line in Hr by done. cbn [read_toml_lines] in Hr. change (read_toml_line "") with TNone in Hr. cbv iota in Hr.
    destruct (IH _ _ Hr) as [kvs ?]. exists kvs. by constructor.
  - destruct (value_starts_dec t) as [Hv|Hv]; [|destruct (ends_eq_dec t) as [He|He]].
    1,3: destruct (comment_read t (os_text ls) Hl) as (t' & E & Hn & Er); [by (left + right)|]; rewrite E, split_line in Hr by done;
      cbn [read_toml_lines] in Hr; rewrite Er in Hr; destruct (IH _ _ Hr) as [kvs ?]; exists kvs; by constructor; [(left + right)|].
    rewrite comment_opens in Hr by done. rewrite split_line in Hr.
    2: { change ("#" +:+ t +:+ String dquote "") with (String "#" (t +:+ String dquote "")). assert (all_bytes no_lf t = true) as E by (eapply all_impl; [apply comment_no_lf|done]).
         cbn. rewrite all_bytes_app, E. done. }
    cbn [read_toml_lines] in Hr. change (read_toml_line ("#" +:+ t +:+ String dquote "")) with TNone in Hr. cbv iota in Hr.
    destruct ls as [|l2 ls]; [done|]. inversion Hls as [|? ? Hl2 Hr2]; subst.
    change (os_text (l2 :: ls)) with (os_line_text l2 +:+ String line_feed (os_text ls)) in Hr.
    rewrite quote_inside in Hr by (by apply text_no_lf).
    replace (os_line_text l2 +:+ String dquote (String line_feed (quote_values false (os_text ls))))
      with ((os_line_text l2 +:+ String dquote "") +:+ String line_feed (quote_values false (os_text ls))) in Hr by (by rewrite app_assoc_str).
    rewrite split_line in Hr by (rewrite all_bytes_app, text_no_lf; done). cbn [read_toml_lines] in Hr.
    rewrite (inside_read l2 Hl2) in Hr. destruct l2 as [|u|? ?|? ?]; [done| |done|done].
    destruct (IHn (length ls)) with (ls := ls) (m := m) (m' := m') as [kvs ?]; [cbn; lia|done|done|done|]. exists kvs. by constructor.
  - destruct (decide (v = "")) as [-> |Hv].
    + exfalso. cbn [os_line_text] in Hr. destruct Hl as (Hk & Hn & _). rewrite app_assoc_str, quote_skip in Hr by (eapply all_impl; [apply name_no_eq|done]).
      change (("=" +:+ "") +:+ String line_feed (os_text ls)) with (String "=" (String line_feed (os_text ls))) in Hr. rewrite quote_eq_other in Hr by done.
      replace (k +:+ String "=" (String dquote (String line_feed (quote_values true (os_text ls)))))
        with ((k +:+ String "=" (String dquote "")) +:+ String line_feed (quote_values true (os_text ls))) in Hr by (by rewrite app_assoc_str).
      rewrite split_line in Hr. 2: { rewrite all_bytes_app. apply andb_true_iff. split; [by eapply all_impl; [apply name_no_lf|]|done]. }
      cbn [read_toml_lines] in Hr. rewrite read_key in Hr by done. done.
    + destruct (line_read (LPlain k v) (os_text ls) Hl Hv) as (t' & E & Hn & Er). rewrite E, split_line in Hr by done. cbn [read_toml_lines] in Hr. rewrite Er in Hr.
      destruct (m !! k); [done|]. destruct (IH _ _ Hr) as [kvs ?]. exists ((k, v) :: kvs). by constructor.
  - assert (without "=" v \/ (exists a, without "=" a /\ v = a +:+ "=") -> exists kvs, accepted (LQuoted k v :: ls) kvs) as K.
    { intros Hv. destruct (quoted_read k v (os_text ls) Hl Hv) as (t' & E & Hn & Er). rewrite E, split_line in Hr by done.
      cbn [read_toml_lines] in Hr. rewrite Er in Hr. destruct (m !! k); [done|]. destruct (IH _ _ Hr) as [kvs ?]. exists ((k, v) :: kvs). by constructor. }
    destruct (quoted_cases v) as [Hv|[Hv|(a & c & b & Ha & ->)]]; [apply K; by left|apply K; by right|].
    destruct (quoted_cut k a c b (os_text ls) Hl Ha) as (t' & E & Hn & Er). rewrite E, split_line in Hr by done. cbn [read_toml_lines] in Hr. rewrite Er in Hr.
    destruct (rest_ok (String c b +:+ String dquote (String dquote ""))) eqn:Ek; [|done].
    apply rest_after in Ek as (sp & b' & Eb & Hs).
    2: { destruct Hl as (_ & _ & Hl). rewrite all_bytes_app in Hl. by apply andb_true_iff in Hl as [_ Hl]. }
    destruct (m !! k); [done|]. destruct (IH _ _ Hr) as [kvs ?]. exists ((k, a +:+ "=") :: kvs). rewrite Eb. by constructor.
Qed.

Lemma add_pairs_some kvs : forall m, add_pairs kvs m <> None <-> NoDup kvs.*1 /\ forall k, k ∈ kvs.*1 -> m !! k = None.
Proof.
  induction kvs as [|[k v] kvs IH]; intros m; cbn [add_pairs fmap list_fmap fst].
  - split; [|done]. intros _. split; [constructor|]. by intros k ?%elem_of_nil.
  - destruct (m !! k) as [x|] eqn:E.
    + split; [done|]. intros [_ H]. specialize (H k). rewrite E in H. discriminate H. by left.
    + rewrite IH, NoDup_cons. split.
      * intros [H1 H2]. split.
        { split; [|done]. intros Hk. specialize (H2 k Hk). by rewrite lookup_insert in H2. }
        intros k' [-> |Hk]%elem_of_cons; [done|]. specialize (H2 k' Hk). destruct (decide (k = k')) as [-> |Hn]; [by rewrite lookup_insert in H2|].
        by rewrite lookup_insert_ne in H2.
      * intros [[H1 H2] H3]. split; [done|]. intros k' Hk. rewrite lookup_insert_ne; [apply H3; by right|]. by intros ->.
Qed.

Lemma add_pairs_value kvs : forall m m', add_pairs kvs m = Some m' -> forall k v, m' !! k = Some v <-> (k, v) ∈ kvs \/ m !! k = Some v.
Proof.
  induction kvs as [|[k0 v0] kvs IH]; intros m m'; cbn [add_pairs].
  - intros [= <-] k v. rewrite elem_of_nil. tauto.
  - destruct (m !! k0) eqn:E; [done|]. intros H k v. rewrite (IH _ _ H), elem_of_cons. destruct (decide (k0 = k)) as [-> |Hn].
    + rewrite lookup_insert, E. split.
      * intros [?|[= ->]]; [left; by right|left; by left].
      * intros [[[= ->]|?]|?]; [by right|by left|done].
    + rewrite lookup_insert_ne by done. split; [intros [?|?]; [left; by right|by right]|]. intros [[[= -> _]|?]|?]; [done|by left|by right].
Qed.
