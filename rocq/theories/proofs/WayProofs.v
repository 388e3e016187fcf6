(** How indexes and packages are reached. *)
From stdpp Require Import strings list gmap.
From Coq Require Import Ascii ZArith NArith Lia.
From Verif.model Require Import GoStr Desc Nexus RepoDb Fs Install Download Urls.
From Verif.proofs Require Import GoStrLemmas StartProofs.

Local Open Scope string_scope.

Lemma http_of_app b x : is_http (b +:+ String "/" x) = is_http b.
Proof.
  unfold is_http, has_prefix.
  destruct b as [|c1 [|c2 [|c3 [|c4 b]]]]; cbn [append cut_prefix];
    repeat (match goal with |- context [char_eqb ?a ?c] =>
      first [change (char_eqb a c) with false | destruct (char_eqb a c)] end; cbv iota; try done); done.
Qed.

Lemma http_of_trimmed a x : is_http (trim_suffix "/" a +:+ String "/" x) = is_http a.
Proof.
  rewrite http_of_app. destruct (trim_suffix_cases "/" a) as [-> | E]; [done|].
  rewrite E at 2. by rewrite http_of_app.
Qed.

Lemma index_same_way os rel rv db st i : index_url os rel rv db st = Some i -> is_http i = is_http (ru_url (db_repo db)).
Proof.
  unfold index_url. intros H. case_bool_decide; [simplify_eq; apply http_of_trimmed|].
  destruct (cran_binary_url os rel rv) as [u|]; [|done].
  destruct (negb (db_suffix db =? "") && bool_decide (os = Linux)); simplify_eq; apply http_of_trimmed.
Qed.

Lemma package_same_way os rel rv r st file u : package_url os rel rv r st file = Some u -> is_http u = is_http (ru_url r).
Proof.
  unfold package_url. intros H. case_bool_decide; [simplify_eq; apply http_of_trimmed|].
  destruct (cran_binary_url os rel rv) as [v|]; [|done].
  destruct (negb (ru_suffix r =? "")); simplify_eq; apply http_of_trimmed.
Qed.

Lemma is_http_true a : is_http a = true <-> exists r, a = "http" +:+ r.
Proof. apply has_prefix_true. Qed.
