(** Environment variables in any text. *)
From stdpp Require Import strings list gmap.
From Coq Require Import Ascii ZArith Lia.
From Verif.model Require Import GoStr Fs Env Start.
From Verif.spec Require Import StrSpec LibSpec StartSpec ExpandSpec.
From Verif.proofs Require Import GoStrLemmas UrlProofs StartProofs.

Local Open Scope string_scope.
Local Arguments Ascii.eqb : simpl never.
Local Arguments char_eqb : simpl never.

Lemma special_alone c : special_var c = true <-> alone_name c.
Proof.
  unfold special_var, alone_name. rewrite orb_true_iff, andb_true_iff, !Nat.leb_le. cbn [existsb]. rewrite !orb_true_iff, !Nat.eqb_eq.
  split.
  - intros [H|H]; [|do 7 right; exists (nat_of_ascii c - 48); split; [lia|]; apply byte_num; lia].
    rewrite <- (ascii_nat_embedding c). destruct H as [->|[->|[->|[->|[->|[->|[->|H]]]]]]]; try done; tauto.
  - intros [->|[->|[->|[->|[->|[->|[->|(n & Hn & ->)]]]]]]]; try (left; vm_compute; tauto).
    right. rewrite nat_ascii_embedding; lia.
Qed.

Lemma to_brace_some s n : to_brace s = Some n <-> all_chars (fun c => c <> "}"%char) n /\ exists r, s = n +:+ "}" +:+ r.
Proof.
  revert n. induction s as [|c s IH]; intros n; cbn [to_brace].
  - split; [done|]. intros (_ & r & H). by destruct n.
  - destruct (char_eqb c "}") eqn:E.
    + apply char_eqb_eq in E as ->. split.
      * intros [= <-]. split; [done|]. by exists s.
      * intros (H & r & Hr). destruct n as [|d n]; [done|]. injection Hr as <- _. by destruct H.
    + apply char_eqb_neq in E. destruct (to_brace s) as [t|] eqn:Et.
      * destruct (proj1 (IH t) eq_refl) as (H1 & r & ->). split.
        -- intros [= <-]. split; [done|]. by exists r.
        -- intros (H2 & r2 & Hr). destruct n as [|d n]; [injection Hr as -> _; done|]. destruct H2 as [_ H2]. injection Hr as <- Hr.
           assert (Some t = Some n) as [= ->]; [|done]. apply IH. split; [done|]. by exists r2.
      * split; [done|]. intros (H2 & r2 & Hr). destruct n as [|d n]; [injection Hr as -> _; done|]. destruct H2 as [_ H2]. injection Hr as <- Hr.
        assert (None = Some n) as K; [|done]. apply IH. split; [done|]. by exists r2.
Qed.

Lemma to_brace_none s : to_brace s = None <-> all_chars (fun c => c <> "}"%char) s.
Proof.
  induction s as [|c s IH]; [done|]. cbn [to_brace]. destruct (char_eqb c "}") eqn:E.
  - apply char_eqb_eq in E as ->. split; [done|]. by intros [H _].
  - apply char_eqb_neq in E. destruct (to_brace s) as [t|]; split; try done.
    + intros [_ H]. by apply IH in H.
    + intros _. split; [done|]. by apply IH.
Qed.

Lemma word_of_split s : exists r, s = word_of s +:+ r /\ all_chars word_char (word_of s) /\ (forall c t, r = String c t -> ~ word_char c).
Proof.
  induction s as [|c s (r & E & H1 & H2)]; [by exists ""|]. cbn [word_of]. destruct (alnum c) eqn:Ea.
  - exists r. split; [cbn; by rewrite <- E|]. split; [|done]. split; [by apply alnum_word|done].
  - exists (String c s). split; [done|]. split; [done|]. intros c' t [= <- <-] H. apply alnum_word in H. congruence.
Qed.

Lemma word_start_or c : word_char c -> ~ alone_name c -> word_start c.
Proof. intros [H|(n & Hn & ->)] Ha; [done|]. destruct Ha. do 7 right. by exists n. Qed.

Lemma drop_braced n s : drop_bytes (String.length n + 2) ("{" +:+ n +:+ "}" +:+ s) = s.
Proof.
  replace (String.length n + 2) with (S (String.length (n +:+ "}"))) by (rewrite append_length; cbn [String.length]; lia).
  change (drop_bytes (String.length (n +:+ "}")) (n +:+ "}" +:+ s) = s). rewrite <- app_assoc_str. apply drop_bytes_app.
Qed.

Lemma expand_sound env fuel : forall s, String.length s <= fuel -> expands env s (expand_loop fuel env s).
Proof.
  induction fuel as [|fuel IH]; intros s Hs; [destruct s; [constructor|cbn in Hs; lia]|].
  destruct s as [|c s]; [constructor|]. cbn [String.length] in Hs. cbn [expand_loop].
  destruct (char_eqb c "$") eqn:Ec; cbn [andb].
  2:{ apply char_eqb_neq in Ec. constructor; [done|]. apply IH. lia. }
  apply char_eqb_eq in Ec as ->. destruct s as [|c s].
  { cbn [String.eqb negb]. destruct fuel; apply ex_last. }
  change (String.eqb (String c s) "") with false. cbn [negb]. unfold shell_name.
  destruct (char_eqb c "{") eqn:Eb.
  - apply char_eqb_eq in Eb as ->. destruct (to_brace s) as [n|] eqn:En.
    + apply to_brace_some in En as (H1 & r & ->). cbn [String.length append] in Hs. rewrite !append_length in Hs. cbn [String.length] in Hs. destruct n as [|d n].
      * change (String.eqb "" "") with true. cbn [Nat.ltb Nat.leb append drop_bytes]. apply ex_empty. apply IH. cbn in Hs. lia.
      * change (String.eqb (String d n) "") with false.
        change (String "$" (String "{" (String d n +:+ "}" +:+ r))) with ("${" +:+ String d n +:+ "}" +:+ r).
        replace (drop_bytes (String.length (String d n) + 2) (String "{" (String d n +:+ "}" +:+ r))) with r.
        2:{ symmetry. apply (drop_braced (String d n) r). }
        apply ex_braced; [done|done|]. apply IH. cbn [String.length] in Hs. lia.
    + apply to_brace_none in En. change (String.eqb "" "") with true. cbn [Nat.ltb Nat.leb append drop_bytes].
      apply (ex_open env s); [done|]. apply IH. cbn in Hs. lia.
  - apply char_eqb_neq in Eb. destruct (special_var c) eqn:Es.
    + change (String.eqb (String c "") "") with false. cbn [drop_bytes]. apply ex_alone; [by apply special_alone|]. apply IH. cbn in Hs. lia.
    + assert (~ alone_name c) as Ha by (intros K; apply special_alone in K; congruence).
      destruct (word_of_split (String c s)) as (r & E & H1 & H2). cbv zeta. set (n := word_of (String c s)) in *. destruct n as [|d n].
      * change (String.eqb "" "") with true. cbn [String.length Nat.ltb Nat.leb drop_bytes]. cbn [append] in E. subst r.
        apply ex_dollar; [by apply (H2 c s)|done|done|]. apply IH. cbn in *. lia.
      * change (String.eqb (String d n) "") with false. rewrite E. rewrite drop_bytes_app.
        change (String "$" (String d n +:+ r)) with ("$" +:+ String d n +:+ r).
        injection E as <- E. apply ex_word; [|done|].
        -- exists c, n. split; [done|]. destruct H1 as [H1 H3]. split; [by apply word_start_or|done].
        -- apply IH. rewrite E in Hs. cbn [String.length] in Hs. rewrite append_length in Hs. lia.
Qed.

Lemma dollar_step env fuel s : s <> "" ->
  expand_loop (S fuel) env (String "$" s) =
  (let '(name, w) := shell_name s in
   (if String.eqb name "" then (if (0 <? w)%nat then "" else "$") else env name) +:+ expand_loop fuel env (drop_bytes w s)).
Proof. intros H. cbn [expand_loop]. change (char_eqb "$" "$") with true. destruct s; [done|]. done. Qed.

Lemma expand_complete env s t : expands env s t -> forall fuel, String.length s <= fuel -> expand_loop fuel env s = t.
Proof.
  induction 1 as [|c s t Hc _ IH| |n s t Hn Hs _ IH|c s t Hc _ IH|n s t Hn1 Hn2 _ IH|s t _ IH|s t Ho _ IH|c s t H1 H2 H3 _ IH]; intros fuel Hf.
  - by destruct fuel.
  - destruct fuel as [|fuel]; cbn [String.length] in Hf; [lia|]. cbn [expand_loop]. apply char_eqb_neq in Hc as ->. cbn [andb]. rewrite IH; [done|lia].
  - destruct fuel as [|[|fuel]]; [cbn in Hf; lia|done|done].
  - cbn [append String.length] in Hf |- *. rewrite append_length in Hf. destruct fuel as [|fuel]; [lia|].
    rewrite dollar_step by (by destruct Hn as (c & r & -> & _)). rewrite shell_name_word by done. rewrite drop_bytes_app.
    assert (String.eqb n "" = false) as -> by (apply String.eqb_neq; by destruct Hn as (c & r & -> & _)). f_equal. apply IH. lia.
  - cbn [String.length] in Hf. destruct fuel as [|fuel]; [lia|]. rewrite dollar_step by done. unfold shell_name.
    assert (special_var c = true) as -> by (by apply special_alone).
    destruct (char_eqb c "{") eqn:Eb.
    { apply char_eqb_eq in Eb as ->. apply special_alone in Hc. done. }
    change (String.eqb (String c "") "") with false. cbn [drop_bytes]. f_equal. apply IH. lia.
  - cbn [append String.length] in Hf |- *. rewrite append_length in Hf. cbn [String.length] in Hf. destruct fuel as [|fuel]; [lia|].
    rewrite dollar_step by done. unfold shell_name. change (char_eqb "{" "{") with true. cbv iota.
    assert (to_brace (n +:+ String "}" s) = Some n) as -> by (apply to_brace_some; split; [done|by exists s]).
    destruct n as [|d n]; [done|]. change (String.eqb (String d n) "") with false. f_equal.
    change (String "{" (String d n +:+ String "}" s)) with ("{" +:+ String d n +:+ "}" +:+ s). rewrite drop_braced. apply IH. lia.
  - cbn [append String.length] in Hf |- *. destruct fuel as [|fuel]; [lia|]. rewrite dollar_step by done. unfold shell_name.
    change (char_eqb "{" "{") with true. cbn [to_brace]. change (char_eqb "}" "}") with true. cbv iota.
    change (String.eqb "" "") with true. cbn [Nat.ltb Nat.leb drop_bytes append]. apply IH. lia.
  - cbn [append String.length] in Hf |- *. destruct fuel as [|fuel]; [lia|]. rewrite dollar_step by done. unfold shell_name.
    change (char_eqb "{" "{") with true. apply to_brace_none in Ho as ->. cbv iota.
    change (String.eqb "" "") with true. cbn [Nat.ltb Nat.leb drop_bytes append]. apply IH. lia.
  - cbn [String.length] in Hf. destruct fuel as [|fuel]; [lia|]. rewrite dollar_step by done. unfold shell_name.
    apply char_eqb_neq in H3 as ->. destruct (special_var c) eqn:Es; [by apply special_alone in Es|].
    cbn [word_of]. destruct (alnum c) eqn:Ea; [by apply alnum_word in Ea|].
    cbv zeta. change (String.eqb "" "") with true. cbn [String.length Nat.ltb Nat.leb drop_bytes append]. f_equal. apply IH. cbn [String.length]. lia.
Qed.

Lemma expand_exact env s t : os_expand env s = t <-> expands env s t.
Proof.
  split; [intros <-; by apply expand_sound|]. intros H. by apply (expand_complete env s t H).
Qed.
