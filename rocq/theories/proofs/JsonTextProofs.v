(** Which characters are in the JSON that is written. *)
From stdpp Require Import strings list gmap sorting.
From Coq Require Import Ascii NArith Lia.
From Verif.model Require Import GoStr Json Records.
From Verif.spec Require Import JsonSpec RecordsSpec.
From Verif.proofs Require Import GoStrLemmas JsonProofs RecordsProofs.

Local Open Scope string_scope.

Lemma each_app P a b : each_char P (a +:+ b) <-> each_char P a /\ each_char P b.
Proof. induction a as [|c a IH]; cbn [String.append each_char]; [tauto|]. rewrite IH. tauto. Qed.

Lemma escape_low_html b : (N_of_ascii b < 128)%N -> each_char no_html_char (escape_low true b).
Proof.
  intros H. destruct b as [[] [] [] [] [] [] [] []]; try (exfalso; vm_compute in H; discriminate);
    vm_compute; repeat split; discriminate.
Qed.

Lemma high_html b r : (128 <= N_of_ascii b)%N -> each_char no_html_char r -> each_char no_html_char (String b r).
Proof. intros H1 H2. split; [unfold no_html_char; lia|done]. Qed.

Ltac now_html := by (vm_compute; repeat split; discriminate).

Lemma hex_html n : (n < 16)%N -> no_html_char (N_of_ascii (hex_char n)).
Proof. intros H. unfold hex_char, no_html_char. destruct (n <? 10)%N eqn:E; [apply N.ltb_lt in E|apply N.ltb_ge in E]; rewrite ascii_N by lia; lia. Qed.

Lemma escape_html s : each_char no_html_char (escape true s).
Proof.
  induction s as [s IH] using string_len_ind.
  destruct (begin_of s) as [|b s H|b1 b2 s H R2|b1 b2 b3 s H R2 R3|b1 b2 b3 b4 s H R2 R3 R4|b s H B].
  - done.
  - cbn [escape]. rewrite low_ltb by done. apply each_app. split; [by apply escape_low_html|]. apply IH. cbn. lia.
  - cbn [escape]. rewrite high_ltb, R2 by done. apply high_html; [done|]. apply high_html; [by eapply rune2_high|]. apply IH. cbn. lia.
  - cbn [escape]. rewrite high_ltb, R2, R3 by done. destruct (rune3_high _ _ _ R3) as [H2 H3].
    destruct (line_sep b1 b2 b3) eqn:L.
    + apply (each_app _ "\u202"). split; [now_html|]. split; [|apply IH; cbn; lia]. apply hex_html.
      destruct (divmod_ex (N_of_ascii b3) 16 ltac:(lia)) as (q & r & Q & R & D1 & D2). rewrite R. lia.
    + apply high_html; [done|]. apply high_html; [done|]. apply high_html; [done|]. apply IH. cbn. lia.
  - cbn [escape]. rewrite high_ltb, R2, R3, R4 by done. destruct (rune4_high _ _ _ _ R4) as (H2 & H3 & H4).
    apply high_html; [done|]. apply high_html; [done|]. apply high_html; [done|]. apply high_html; [done|]. apply IH. cbn. lia.
  - rewrite escape_bad by done. apply each_app. split; [now_html|]. apply IH. cbn. lia.
Qed.

Lemma quoted_html s : each_char no_html_char (quoted true s).
Proof. unfold quoted. rewrite !each_app. split; [now_html|]. split; [apply escape_html|now_html]. Qed.

Lemma itoa_aux_html fuel n t : each_char no_html_char t -> each_char no_html_char (itoa_aux fuel n t).
Proof.
  revert n t. induction fuel as [|fuel IH]; intros n t H; [done|]. cbn [itoa_aux].
  destruct (divmod_ex n 10 ltac:(lia)) as (q & r & Q & R & D1 & D2). rewrite Q, R.
  assert (each_char no_html_char (String (digit_char r) t)) as H'. { split; [|done]. unfold digit_char, no_html_char. rewrite ascii_N by lia. lia. }
  destruct (n <? 10)%N; [done|]. by apply IH.
Qed.

Lemma itoa_html n : each_char no_html_char (itoa n).
Proof. by apply itoa_aux_html. Qed.

Lemma line_html ind d : each_char no_html_char ind -> each_char no_html_char (line ind d).
Proof.
  intros H. unfold line. apply each_app. split; [now_html|]. induction d as [|d IH]; [done|]. cbn [levels]. by apply each_app.
Qed.

Lemma encode_html ind d v : each_char no_html_char ind -> each_char no_html_char (encode true ind d v).
Proof.
  intros Hi. revert d. induction v as [|b|n|p|s|l IH|l IH] using json_ind'; intros d.
  - now_html.
  - destruct b; now_html.
  - apply itoa_html.
  - cbn [encode]. apply each_app. split; [now_html|apply itoa_html].
  - apply quoted_html.
  - destruct l as [|x l]; [now_html|]. apply Forall_cons in IH as [Hx Hl]. rewrite encode_arr, !each_app.
    split; [now_html|]. split; [by apply line_html|]. split; [done|]. induction Hl as [|y l Hy _ IH]; cbn [more_items].
    + rewrite !each_app. split; [by apply line_html|now_html].
    + rewrite !each_app. split; [now_html|]. split; [by apply line_html|]. done.
  - destruct l as [|[k x] l]; [now_html|]. apply Forall_cons in IH as [Hx Hl]. rewrite encode_obj, !each_app.
    split; [now_html|]. split; [by apply line_html|]. split; [apply quoted_html|]. split; [now_html|]. split; [apply Hx|].
    induction Hl as [|[k' y] l Hy _ IH]; cbn [more_members].
    + rewrite !each_app. split; [by apply line_html|now_html].
    + rewrite !each_app. split; [now_html|]. split; [by apply line_html|]. split; [apply quoted_html|]. split; [now_html|]. split; [apply Hy|done].
Qed.

Lemma flat_html v : each_char no_html_char (flat true v).
Proof.
  induction v as [|b|n|p|s|l IH|l IH] using json_ind'.
  - now_html.
  - destruct b; now_html.
  - apply itoa_html.
  - cbn [flat]. apply each_app. split; [now_html|apply itoa_html].
  - apply quoted_html.
  - destruct l as [|x l]; [now_html|]. apply Forall_cons in IH as [Hx Hl]. rewrite flat_arr, !each_app.
    split; [now_html|]. split; [done|]. induction Hl as [|y l Hy _ IH]; cbn [flat_items]; [now_html|].
    rewrite !each_app. split; [now_html|]. done.
  - destruct l as [|[k x] l]; [now_html|]. apply Forall_cons in IH as [Hx Hl]. rewrite flat_obj, !each_app.
    split; [now_html|]. split; [apply quoted_html|]. split; [now_html|]. split; [done|].
    induction Hl as [|[k' y] l Hy _ IH]; cbn [flat_members]; [now_html|].
    rewrite !each_app. split; [now_html|]. split; [apply quoted_html|]. split; [now_html|]. done.
Qed.

Lemma escape_simple html s : each_char simple_char s -> (html = true -> each_char no_html_char s) -> escape html s = s.
Proof.
  induction s as [|b s IH]; [done|]. intros [[H1 H2] H3] H4. cbn [escape]. rewrite low_ltb by lia. rewrite IH; [|done|intros E; by apply H4].
  assert (escape_low html b = String b "") as ->; [|done].
  assert (html = true -> no_html_char (N_of_ascii b)) as H5 by (intros E; by apply H4). clear H4 H3 IH. unfold escape_low.
  rewrite !(proj2 (N.eqb_neq _ _)) by lia. rewrite (proj2 (N.ltb_ge _ _)) by lia. cbn [orb].
  destruct html; [|done]. specialize (H5 eq_refl). unfold no_html_char in H5. by rewrite !(proj2 (N.eqb_neq _ _)) by lia.
Qed.
