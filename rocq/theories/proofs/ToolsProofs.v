(** Proofs about the arguments of the tools. *)
From stdpp Require Import strings list.
From Coq Require Import Ascii ZArith Lia.
From Verif.model Require Import GoStr Customs Urls Cli Tools.
From Verif.spec Require Import CliSpec ToolsSpec.
From Verif.proofs Require Import GoStrLemmas CliProofs.

Local Open Scope string_scope.

Lemma assoc_found (fl : list (string * bool)) n b : NoDup (map fst fl) -> (n, b) ∈ fl -> assoc n fl = Some b.
Proof.
  induction fl as [|[k v] fl IH]; intros Hn H; [by apply elem_of_nil in H|]. cbn [assoc map fst] in *.
  apply NoDup_cons in Hn as [Hk Hn]. apply elem_of_cons in H as [[= -> ->]|H]; [by rewrite String.eqb_refl|].
  destruct (String.eqb_spec k n) as [->|_]; [|by apply IH]. destruct Hk. apply elem_of_list_fmap. by exists (n, b).
Qed.

Lemma assoc_in (fl : list (string * bool)) n b : assoc n fl = Some b -> (n, b) ∈ fl.
Proof.
  induction fl as [|[k v] fl IH]; cbn [assoc]; [done|]. destruct (String.eqb_spec k n) as [->|_].
  - intros [= ->]. by left.
  - intros H. right. by apply IH.
Qed.

Lemma no_equals_without n : without_equals n -> no_equals n = true.
Proof.
  induction n as [|c r IH]; [done|]. intros [H1 H2]. cbn [no_equals]. apply char_eqb_false in H1. rewrite H1. by apply IH.
Qed.

Lemma char_eqb_is a b : char_eqb a b = true -> a = b.
Proof. intros H. destruct (decide (a = b)) as [|Hn]; [done|]. apply char_eqb_false in Hn. congruence. Qed.

(** A name behind dashes. *)
Lemma flag_text_name b c r : c <> "-"%char -> flag_text (dashes b +:+ String c r) = Some (String c r) /\
  String.eqb (dashes b +:+ String c r) "--" = false.
Proof.
  intros H. apply char_eqb_false in H. destruct b; cbn.
  - split; [done|]. by destruct r.
  - rewrite H. split; [done|]. destruct (Ascii.eqb_spec c "-") as [->|_]; [by rewrite char_eqb_refl in H|done].
Qed.

Lemma parse_flag fl t rest : flag_names fl -> flag_fits fl t ->
  go_parse fl (flag_args t ++ rest)%list = add_given (flag_given t).1 (flag_given t).2 (go_parse fl rest).
Proof.
  intros [Hnd Hn] Ht.
  assert (forall n b, (n, b) ∈ fl -> exists c r, n = String c r /\ char_eqb c "-" = false /\ char_eqb c "=" = false /\ c <> "-"%char /\ no_equals n = true) as Hname.
  { intros n b Hin. destruct (Hn n b Hin) as (He & c & r & -> & Hc). exists c, r. destruct He as [E1 E2].
    split; [done|]. split; [by apply char_eqb_false|]. split; [by apply char_eqb_false|]. split; [done|]. by apply no_equals_without. }
  destruct t as [b n v|b n|b n v]; cbn [flag_args flag_given fst snd app flag_fits] in *.
  - assert (exists k, (n, k) ∈ fl /\ (k = true -> is_Some (parse_bool v))) as (k & Hk & Hv).
    { destruct Ht as [[H1 H2]|H]; [by exists true|by exists false]. }
    destruct (Hname n k Hk) as (c & r & -> & N1 & N2 & N3 & N4).
    destruct (flag_text_name b c (r +:+ "=" +:+ v) N3) as [T1 T2].
    change (dashes b +:+ String c r +:+ "=" +:+ v) with (dashes b +:+ String c (r +:+ "=" +:+ v)). cbn [go_parse].
    rewrite T1, T2, N1, N2. cbn [orb].
    change (split_equals (String c (r +:+ "=" +:+ v))) with (split_equals (String c r +:+ "=" +:+ v)). rewrite split_value by done.
    rewrite (assoc_found fl _ k Hnd Hk). destruct k; [|done]. cbn [default]. destruct (Hv eq_refl) as [x Hx]. cbn. by rewrite Hx.
  - destruct (Hname n true Ht) as (c & r & -> & N1 & N2 & N3 & N4). destruct (flag_text_name b c r N3) as [T1 T2]. cbn [go_parse].
    rewrite T1, T2, N1, N2. cbn [orb]. rewrite split_name by done. by rewrite (assoc_found fl _ true Hnd Ht).
  - destruct (Hname n false Ht) as (c & r & -> & N1 & N2 & N3 & N4). destruct (flag_text_name b c r N3) as [T1 T2]. cbn [go_parse].
    rewrite T1, T2, N1, N2. cbn [orb]. rewrite split_name by done. by rewrite (assoc_found fl _ false Hnd Ht).
Qed.

Lemma parse_words fl args ws : words_behind args ws -> go_parse fl args = PRead [] ws.
Proof.
  intros [-> | [-> H]]; [done|]. destruct ws as [|s ws]; [done|]. specialize (H s eq_refl). cbn [go_parse].
  destruct H as [-> | [-> | (c & r & -> & Hc)]]; [done|done|]. apply char_eqb_false in Hc as Hc'.
  assert (String.eqb (String c r) "--" = false) as ->.
  { apply String.eqb_neq. intros [= -> _]. done. }
  unfold flag_text. destruct r as [|d r]; [done|]. by rewrite Hc'.
Qed.

Lemma parse_line_read fl ts args ws : flag_names fl -> Forall (flag_fits fl) ts -> words_behind args ws ->
  go_parse fl (flag_line ts ++ args)%list = PRead (map flag_given ts) ws.
Proof.
  intros Hn Ht Hw. induction Ht as [|t ts H1 H2 IH]; [by apply parse_words|]. unfold flag_line in *. cbn [map concat].
  rewrite <- app_assoc, parse_flag by done. rewrite IH. cbn. by destruct (flag_given t).
Qed.

(** What is read has been written. *)
Lemma split_equals_join s n v : split_equals s = (n, v) -> s = match v with Some v => n +:+ "=" +:+ v | None => n end.
Proof.
  revert n. induction s as [|c r IH]; intros n; cbn [split_equals]; [by intros [= <- <-]|].
  destruct (char_eqb c "=") eqn:E.
  - intros [= <- <-]. apply char_eqb_is in E as ->. done.
  - destruct (split_equals r) as [a b]. intros [= <- <-]. specialize (IH a eq_refl). rewrite IH. by destruct b.
Qed.

Lemma flag_text_some s r : flag_text s = Some r -> exists b, s = dashes b +:+ r /\ (b = false -> r <> "").
Proof.
  unfold flag_text. destruct s as [|a [|b s]]; try done. destruct (char_eqb a "-") eqn:Ea; [|done]. apply char_eqb_is in Ea as ->.
  destruct (char_eqb b "-") eqn:Eb.
  - apply char_eqb_is in Eb as ->. intros [= <-]. by exists true.
  - intros [= <-]. by exists false.
Qed.

Lemma flag_text_none s : flag_text s = None -> no_flag s.
Proof.
  unfold flag_text. destruct s as [|a s]; [by left|]. destruct (char_eqb a "-") eqn:Ea.
  - apply char_eqb_is in Ea as ->. destruct s as [|b s]; [by right; left|]. by destruct (char_eqb b "-").
  - intros _. right. right. exists a, s. split; [done|]. intros ->. by rewrite char_eqb_refl in Ea.
Qed.

Lemma parse_sound_tools fl args given ws : go_parse fl args = PRead given ws ->
  exists ts rest, args = (flag_line ts ++ rest)%list /\ Forall (flag_fits fl) ts /\ map flag_given ts = given /\ words_behind rest ws.
Proof.
  remember (length args) as k eqn:Hk. assert (length args <= k) as Hle by lia. clear Hk. revert args given Hle.
  induction k as [|k IH]; intros args given Hle H.
  { destruct args; [|cbn in Hle; lia]. injection H as <- <-. exists [], []. split; [done|]. split; [done|]. split; [done|]. by right. }
  destruct args as [|s rest]; [injection H as <- <-; exists [], []; split; [done|]; split; [done|]; split; [done|]; by right|].
  cbn [length] in Hle. cbn [go_parse] in H. destruct (String.eqb_spec s "--") as [->|Hs].
  { injection H as <- <-. exists [], ("--" :: rest). split; [done|]. split; [done|]. split; [done|]. by left. }
  destruct (flag_text s) as [[|c r]|] eqn:E; [done| |].
  2:{ injection H as <- <-. exists [], (s :: rest). split; [done|]. split; [done|]. split; [done|]. right. split; [done|].
      intros x [= <-]. by apply flag_text_none. }
  destruct (char_eqb c "-" || char_eqb c "="); [done|]. apply flag_text_some in E as (b & -> & _).
  destruct (split_equals (String c r)) as [n v] eqn:Sp. apply split_equals_join in Sp. rewrite Sp in *.
  assert (forall t rest', rest' = rest \/ (exists x, rest = x :: rest') ->
    (dashes b +:+ match v with Some v => n +:+ "=" +:+ v | None => n end) :: rest = (flag_args t ++ rest')%list -> flag_fits fl t ->
    add_given (flag_given t).1 (flag_given t).2 (go_parse fl rest') = PRead given ws ->
    exists ts tail, (dashes b +:+ match v with Some v => n +:+ "=" +:+ v | None => n end) :: rest = (flag_line ts ++ tail)%list /\
      Forall (flag_fits fl) ts /\ map flag_given ts = given /\ words_behind tail ws) as G.
  { intros t rest' Hr Ea Hf Hp. destruct (go_parse fl rest') as [|g w] eqn:Ep; [done|]. injection Hp as <- <-.
    destruct (IH rest' g) as (ts & tail & E1 & E2 & E3 & E4); [|done|].
    { destruct Hr as [-> | [x ->]]; cbn in *; lia. }
    exists (t :: ts), tail. split; [|split; [|split; [|done]]].
    - rewrite Ea, E1. unfold flag_line. cbn [map concat]. by rewrite app_assoc.
    - by constructor.
    - cbn [map]. rewrite E3. by destruct (flag_given t). }
  destruct (assoc n fl) as [[|]|] eqn:Ef; [| |done]; apply assoc_in in Ef.
  - destruct v as [v|]; cbn [default] in H.
    + destruct (parse_bool v) eqn:Ev; cbn in H; rewrite Ev in H; [|done]. apply (G (FSet b n v) rest); [by left|done| |done]. left. split; [done|]. by rewrite Ev.
    + apply (G (FAlone b n) rest); [by left|done|done|]. exact H.
  - destruct v as [v|].
    + apply (G (FSet b n v) rest); [by left|done|by right|done].
    + destruct rest as [|v rest]; [done|]. apply (G (FNext b n v) rest); [right; by exists v|done|done|done].
Qed.
