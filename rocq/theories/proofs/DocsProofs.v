(** The documentation of the commands and the cache directory. *)
From stdpp Require Import strings list.
From Coq Require Import Ascii Lia.
From Verif.model Require Import GoStr Fs Install Valtools Docs.
From Verif.spec Require Import StrSpec ConfigSpec LibSpec ValSpec DocsSpec.
From Verif.proofs Require Import GoStrLemmas UrlProofs FsProofs ExtractProofs ValProofs.

Local Open Scope string_scope.

Lemma command_induction (P : command -> Prop) :
  (forall name av text below, (forall d, d ∈ below -> P d) -> P (Command name av text below)) -> forall c, P c.
Proof.
  intros H. fix IH 1. intros [name av text below]. apply H. apply Forall_forall.
  induction below as [|d l IHl]; [apply Forall_nil_2|apply Forall_cons_2; [apply IH|exact IHl]].
Qed.

Definition under (above : string) (words : list string) : string :=
  if String.eqb above "" then call words else above +:+ " " +:+ call words.

Lemma visible_cons c words t : visible c words t -> exists w l, words = w :: l.
Proof. destruct 1; eauto. Qed.

Lemma under_cons above name w l : name <> "" ->
  under above (name :: w :: l) = under (command_path above name) (w :: l).
Proof.
  intros N. unfold under, command_path. destruct (String.eqb_spec above "") as [->|Na].
  - destruct (String.eqb_spec name ""); [done|]. done.
  - destruct (String.eqb_spec (above +:+ " " +:+ name) "") as [E|_].
    + destruct above; done.
    + change (call (name :: w :: l)) with (name +:+ " " +:+ call (w :: l)). by rewrite !app_assoc_str.
Qed.

Lemma documented_spec c : named c -> forall above p t,
  (p, t) ∈ documented above c <-> exists words, visible c words t /\ p = under above words.
Proof.
  induction c as [name av text below IH] using command_induction. intros Hn above p t.
  inversion Hn as [n av' t' l Hne _ _ Hl]; subst. cbn [documented]. rewrite elem_of_app, elem_of_list_singleton, elem_of_list_In, in_flat_map. split.
  - intros [(d & Hd & Hp)|[= -> ->]].
    + apply elem_of_list_In in Hd. destruct d as [n' av' t' l'] eqn:Ed. destruct av'; [|done]. rewrite <- Ed in *.
      apply elem_of_list_In in Hp. apply (IH d Hd (Hl d Hd)) in Hp as (words & Hv & ->). exists (name :: words). split.
      * econstructor; [exact Hd| |exact Hv]. eauto.
      * destruct (visible_cons _ _ _ Hv) as (w & k & ->). by rewrite under_cons.
    + exists [name]. split; [constructor|]. unfold under, command_path. cbn [call]. by destruct (String.eqb above "").
  - intros (words & Hv & ->). inversion Hv as [|? ? ? ? d words' ? Hd (n' & t' & l' & ->) Hv']; subst.
    + right. unfold under, command_path. cbn [call]. by destruct (String.eqb above "").
    + left. exists (Command n' true t' l'). split; [by apply elem_of_list_In|]. apply elem_of_list_In.
      apply (IH _ Hd (Hl _ Hd)). exists words'. split; [done|]. destruct (visible_cons _ _ _ Hv') as (w & k & ->). by rewrite under_cons.
Qed.

Lemma written dir l : forall f q,
  (exists cmd t, (cmd, t) ∈ l /\ q = (dir ++ [doc_name cmd])%list /\ write_docs dir l f q = Some (File t)) \/
  ((forall cmd t, (cmd, t) ∈ l -> q <> (dir ++ [doc_name cmd])%list) /\ write_docs dir l f q = f q).
Proof.
  induction l as [|[cmd t] l IH]; intros f q; cbn [write_docs].
  - right. split; [|done]. intros ? ? H. by apply elem_of_nil in H.
  - match goal with |- context [write_docs dir l ?g q] => destruct (IH g q) as [(cmd' & t' & Hin & Hq & ->)|(Hn & ->)] end.
    + left. exists cmd', t'. split; [by right|]. done.
    + destruct (decide (q = (dir ++ [doc_name cmd])%list)) as [E|E].
      * left. exists cmd, t. split; [by left|]. done.
      * right. split; [|done]. intros cmd' t' H. apply elem_of_cons in H as [[= -> ->]|H]; [done|]. by eapply Hn.
Qed.

Lemma replace_back s : (forall u v, s <> u +:+ "_" +:+ v) -> replace_byte "_" " " (replace_byte " " "_" s) = s.
Proof.
  induction s as [|c s IH]; intros H; [done|]. cbn [replace_byte].
  rewrite IH; [|intros u v ->; by apply (H (String c u) v)]. f_equal. destruct (char_eqb c " ") eqn:E.
  - apply char_eqb_eq in E as ->. by rewrite char_eqb_refl.
  - destruct (char_eqb c "_") eqn:E'; [|done]. apply char_eqb_eq in E' as ->. exfalso. by apply (H "" s).
Qed.

Lemma doc_name_documents cmd : (forall u v, cmd <> u +:+ "_" +:+ v) -> documents (doc_name cmd) cmd.
Proof.
  intros H. exists (replace_byte " " "_" cmd), ".md". split; [done|]. split.
  - right. exists "md". split; [done|]. intros a b E. destruct a as [|c1 [|c2 [|c3 a]]]; cbn in E; congruence.
  - apply spelled_replace. by apply replace_back.
Qed.

Lemma app_mid_char (c : ascii) a b u v : a +:+ b = u +:+ String c v ->
  (exists w, a = u +:+ String c w) \/ (exists w, b = w +:+ String c v).
Proof.
  revert u. induction a as [|x a IH]; intros u E.
  - right. by exists u.
  - destruct u as [|y u]; cbn in E.
    + injection E as -> _. left. by exists a.
    + injection E as -> E. destruct (IH u E) as [[w ->]|[w ->]]; [left|right]; by exists w.
Qed.

Lemma call_without (c : ascii) root words t : c <> " "%char ->
  (forall d, visible root words t -> d ∈ words -> forall u v, d <> u +:+ String c v) -> visible root words t ->
  forall u v, call words <> u +:+ String c v.
Proof.
  intros Nc H Hv. specialize (fun d => H d Hv). clear Hv. induction words as [|w l IH]; intros u v E.
  - by destruct u.
  - destruct l as [|w' l].
    + cbn [call] in E. by eapply (H w); [left|].
    + change (call (w :: w' :: l)) with (w +:+ (" " +:+ call (w' :: l))) in E. apply app_mid_char in E as [[x E]|[x E]].
      * by eapply (H w); [left|].
      * destruct x as [|y x]; cbn in E; [congruence|]. injection E as _ E. revert E. apply IH. intros d Hd. apply H. by right.
Qed.

Lemma visible_plain root words t : named root -> visible root words t ->
  forall d, d ∈ words -> (forall u v, d <> u +:+ "_" +:+ v) /\ (forall u v, d <> u +:+ "/" +:+ v).
Proof.
  intros Hn Hv. revert Hn. induction Hv as [name av text l|name av text l d words text' Hd _ _ IH]; intros Hn e He;
    inversion Hn as [? ? ? ? _ H1 H2 Hl]; subst.
  - apply elem_of_list_singleton in He as ->. done.
  - apply elem_of_cons in He as [->|He]; [done|]. by apply IH; [apply Hl|].
Qed.

Lemma call_plain root words t : named root -> visible root words t -> forall u v, call words <> u +:+ "_" +:+ v.
Proof.
  intros Hn Hv. apply (call_without "_" root words t); [done| |done]. intros d _ Hd.
  exact (proj1 (visible_plain root words t Hn Hv d Hd)).
Qed.

Lemma documents_unique x p q : documents x p -> documents x q -> p = q.
Proof. intros H1 H2. apply documents_point in H1, H2. congruence. Qed.

Lemma root_documented root p t : named root -> (p, t) ∈ documented "" root <-> exists words, visible root words t /\ p = call words.
Proof. intros Hn. exact (documented_spec root Hn "" p t). Qed.

Lemma gen_inv root dir f f' : gen root dir f = Some f' ->
  exists f1, f' = write_docs dir (documented "" root) f1 /\
    (forall q, in_dir q dir -> f1 q = Some Dir) /\ (forall q, ~ in_dir q dir -> in_dir dir q -> f1 q = None) /\
    (forall q, ~ in_dir q dir -> ~ in_dir dir q -> f1 q = f q).
Proof.
  unfold gen. destruct (mkdir_all dir (remove_all dir f)) as [f1|] eqn:E; [|done]. intros [= <-]. exists f1. split; [done|].
  destruct (mkdir_spec _ _ _ E) as (H1 & H2 & _). split; [done|]. split.
  - intros q Hq Hd. rewrite H2 by done. unfold remove_all. apply below_spec in Hd. by rewrite Hd.
  - intros q Hq Hd. rewrite H2 by done. unfold remove_all. destruct (below dir q) eqn:Eb; [|done]. by apply below_spec in Eb.
Qed.

Lemma longer_not_prefix (dir : path) x r : ~ in_dir (dir ++ x :: r)%list dir.
Proof. intros [s E]. apply (f_equal length) in E. rewrite !app_length in E. cbn [length] in E. lia. Qed.
