(** Lemmas for props/P_Exact6.v. *)
From stdpp Require Import strings list gmap relations.
From Coq Require Import Ascii ZArith Lia.
From Verif.model Require Import GoStr Version Desc Nexus Pacman Graph RepoDb Plan Fs Env Install Download Urls Report.
From Verif.spec Require Import StrSpec EnvSpec PlanSpec ReportSpec UrlSpec Exact4Spec.
From Verif.proofs Require Import GoStrLemmas UrlProofs FetchProofs EnvProofs DerivedProofs ReportProofs Exact5Proofs.

Local Open Scope string_scope.
Local Arguments Ascii.eqb : simpl never.
Local Arguments char_eqb : simpl never.

(** ** Names in the environment *)

Lemma trim_again s : trim_blank (trim_blank s) = trim_blank s.
Proof.
  pose proof (proj1 (trim_stripped s (trim_blank s)) eq_refl) as (a & b & _ & _ & _ & H). by apply unpadded_trim.
Qed.

Definition bare_names (l : list nvp) : Prop := forall p, p ∈ l -> trim_blank (n_name p) = n_name p.

Lemma bare_append l k v : bare_names l -> bare_names (nvp_append l k v).
Proof.
  intros H p. unfold nvp_append. rewrite elem_of_app, elem_of_list_singleton. intros [Hp| ->]; [by apply H|]. apply trim_again.
Qed.

Lemma bare_system rpath l ev : bare_names l -> bare_names (add_system rpath l ev).
Proof.
  intros H. unfold add_system. destruct (split_on_n (char_eqb "=") 2 ev) as [|k [|v [|]]]; try done.
  destruct (String.eqb v ""); [done|]. destruct (String.eqb k "R_LIBS_USER" || String.eqb k "R_LIBS_SITE"); [done|].
  destruct (nvp_get l k); [done|]. by apply bare_append.
Qed.

Lemma bare_globals g : forall l, bare_names l -> bare_names (add_globals l g).
Proof.
  induction g as [|p g IH]; intros l H; [done|]. cbn [add_globals]. destruct (nvp_get l (n_name p)); apply IH; [done|].
  by apply bare_append.
Qed.

Lemma globals_keep g : forall l p, p ∈ l -> p ∈ add_globals l g.
Proof.
  intros l p H. destruct (globals_ext l g) as (e & -> & _). apply elem_of_app. by left.
Qed.

Lemma globals_named g : forall l p, p ∈ g -> trim_blank (n_name p) = n_name p -> n_name p ∈ map n_name (add_globals l g).
Proof.
  induction g as [|q g IH]; intros l p Hp Ht; [by apply elem_of_nil in Hp|]. cbn [add_globals].
  apply elem_of_cons in Hp as [<-|Hp].
  - destruct (nvp_get l (n_name p)) as [v|] eqn:E.
    + apply get_some in E. apply elem_of_list_fmap in E as (x & Ex & Hx). rewrite Ex. apply elem_of_list_fmap_1. by apply globals_keep.
    + apply elem_of_list_fmap. exists {| n_name := trim_blank (n_name p); n_value := trim_blank (n_value p) |}.
      split; [by rewrite Ht|]. apply globals_keep. unfold nvp_append. apply elem_of_app. right. by left.
  - destruct (nvp_get l (n_name q)); by apply IH.
Qed.

Lemma system_keep rpath sys l p : p ∈ l -> p ∈ fold_left (add_system rpath) sys l.
Proof. intros H. destruct (system_ext rpath sys l) as (e & -> & _). apply elem_of_app. by left. Qed.

Lemma system_named rpath k v name : without "=" k -> v <> "" -> trim_blank k = name ->
  name <> "R_LIBS_USER" -> name <> "R_LIBS_SITE" ->
  forall sys l, bare_names l -> (k +:+ "=" +:+ v) ∈ sys -> name ∈ map n_name (fold_left (add_system rpath) sys l).
Proof.
  intros Hk Hv Ht N1 N2. assert (k <> "R_LIBS_USER") as M1 by (intros ->; by apply N1).
  assert (k <> "R_LIBS_SITE") as M2 by (intros ->; by apply N2).
  induction sys as [|ev sys IH]; intros l Hl Hin; [by apply elem_of_nil in Hin|]. cbn [fold_left].
  apply elem_of_cons in Hin as [<-|Hin].
  - assert (exists p, p ∈ add_system rpath l (k +:+ "=" +:+ v) /\ n_name p = name) as (p & Hp & En).
    { unfold add_system. rewrite (split_pair k v Hk). destruct (String.eqb_spec v ""); [done|].
      destruct (String.eqb_spec k "R_LIBS_USER"); [done|]. destruct (String.eqb_spec k "R_LIBS_SITE"); [done|]. cbn [orb].
      destruct (nvp_get l k) eqn:E.
      - apply get_some in E. apply elem_of_list_fmap in E as (x & Ex & Hx). exists x. split; [done|].
        pose proof (Hl x Hx) as Hb. rewrite <- Ex in Hb. congruence.
      - eexists. split; [unfold nvp_append; apply elem_of_app; right; by left|]. done. }
    rewrite <- En. apply elem_of_list_fmap_1. by apply system_keep.
  - apply IH; [by apply bare_system|done].
Qed.

(** ** Addresses *)

Lemma beside_exact os rel rv db st file u : package_url os rel rv (db_repo db) st file = Some u ->
  (exists i, index_url os rel rv db st = Some i /\ beside i u file) <->
  st = STSource \/ (if bool_decide (os = Linux) then db_suffix db else "") = ru_suffix (db_repo db).
Proof.
  unfold package_url, index_url. destruct (decide (st = STSource)) as [Es|Es].
  { rewrite bool_decide_eq_true_2 by done. intros [= <-]. split; [by left|]. intros _. eexists. split; [done|].
    exists (trim_suffix "/" (ru_url (db_repo db)) +:+ "/src/contrib"). by rewrite !app_assoc_str. }
  rewrite bool_decide_eq_false_2 by done. destruct (cran_binary_url os rel rv) as [b|]; [|done].
  set (base := trim_suffix "/" (ru_url (db_repo db))). set (s := ru_suffix (db_repo db)).
  set (t := if bool_decide (os = Linux) then db_suffix db else "").
  assert ((if negb (String.eqb (db_suffix db) "") && bool_decide (os = Linux) then
      Some (base +:+ "/bin/" +:+ b +:+ "/" +:+ db_suffix db +:+ "/contrib/" +:+ rv_short rv +:+ "/PACKAGES")
    else Some (base +:+ "/bin/" +:+ b +:+ "/contrib/" +:+ rv_short rv +:+ "/PACKAGES")) =
    Some ((base +:+ "/bin/" +:+ b +:+ (if String.eqb t "" then "" else "/" +:+ t) +:+ "/contrib/" +:+ rv_short rv) +:+ "/PACKAGES")) as ->.
  { unfold t. destruct (bool_decide (os = Linux)); rewrite ?andb_true_r, ?andb_false_r.
    - destruct (String.eqb_spec (db_suffix db) "") as [E|E]; cbn [negb]; by rewrite !app_assoc_str.
    - cbn [String.eqb]. by rewrite !app_assoc_str. }
  intros Hu.
  assert (u = (base +:+ "/bin/" +:+ b +:+ (if String.eqb s "" then "" else "/" +:+ s) +:+ "/contrib/" +:+ rv_short rv) +:+ "/" +:+ file) as ->.
  { destruct (String.eqb s ""); cbn [negb] in Hu; injection Hu as <-; by rewrite !app_assoc_str. }
  clear Hu. split.
  - intros (i & [= <-] & dir & E1 & E2). right. apply app_inj_end in E1. rewrite <- E1 in E2. apply app_inj_end in E2.
    apply (app_inj_left base) in E2. apply (app_inj_left "/bin/") in E2. apply (app_inj_left b) in E2.
    apply (app_inj_end _ _ ("/contrib/" +:+ rv_short rv)) in E2.
    destruct (String.eqb_spec s "") as [E|E], (String.eqb_spec t "") as [E'|E']; try discriminate E2; [congruence|].
    by injection E2 as ->.
  - intros [?|E]; [done|]. eexists. split; [done|]. eexists. split; [reflexivity|]. by rewrite E.
Qed.

(** ** The numbers of packages *)

Lemma total_replace (m : gmap string nat) k n : total (<[k := n]> m) + default 0 (m !! k) = n + total m.
Proof.
  destruct (m !! k) as [x|] eqn:E; cbn [default].
  - rewrite <- (insert_delete_insert m k n), total_insert by apply lookup_delete. rewrite (total_delete m k x E). cbn [id]. lia.
  - rewrite total_insert by done. cbn. lia.
Qed.

Lemma sources_total_exact ip additional n : count (comes_from "tarballs") (ip_downloads ip) n ->
  total (sources_of ip additional) + n = length (ip_downloads ip) + length additional.
Proof.
  intros Hn. unfold sources_of. set (m := fold_left _ _ _).
  assert (default 0 (m !! "tarballs") = n) as En.
  { unfold m. rewrite count_up_lookup, lookup_empty. cbn [default].
    assert (length (List.filter (String.eqb "tarballs") (map (fun dl => ru_name (pc_repo (dl_config dl))) (ip_downloads ip))) =
      length (List.filter (fun dl => String.eqb "tarballs" (ru_name (pc_repo (dl_config dl)))) (ip_downloads ip))) as ->.
    { clear. induction (ip_downloads ip) as [|d l IH]; [done|]. cbn [map List.filter]. destruct (String.eqb "tarballs" _); cbn [length]; by rewrite IH. }
    cbn [Nat.add]. eapply count_fun; [|exact Hn]. apply count_filter. intros dl _. unfold comes_from. rewrite String.eqb_eq. naive_solver. }
  rewrite <- En, total_replace. unfold m. rewrite count_up_total, map_length. unfold total. rewrite map_to_list_empty. cbn. lia.
Qed.
