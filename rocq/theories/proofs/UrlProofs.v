(** Repository settings and addresses. *)
From stdpp Require Import strings list gmap.
From Coq Require Import Ascii ZArith NArith Lia.
From Verif.model Require Import GoStr Desc Nexus RepoDb Fs Install Download Urls.
From Verif.spec Require Import StrSpec UrlSpec.
From Verif.proofs Require Import GoStrLemmas.

Local Open Scope string_scope.
Local Arguments Ascii.eqb : simpl never.
Local Arguments char_eqb : simpl never.

Lemma append_length a b : String.length (a +:+ b) = String.length a + String.length b.
Proof. induction a as [|x a IH]; [done|]. cbn. by rewrite IH. Qed.

Lemma app_inj_end a b c : a +:+ c = b +:+ c -> a = b.
Proof.
  revert b. induction a as [|x a IH]; intros [|y b] H; [done| | |].
  - apply (f_equal String.length) in H. cbn in H. rewrite append_length in H. lia.
  - apply (f_equal String.length) in H. cbn in H. rewrite append_length in H. lia.
  - cbn in H. injection H as -> H. f_equal. by apply IH.
Qed.

(** ** Words up to the case of letters *)

Definition letter_pairs : list (ascii * ascii) :=
  map (fun n => (ascii_of_nat (65 + n), ascii_of_nat (97 + n))) (seq 0 26).

Definition lower_testb (a b : ascii) : bool :=
  Bool.eqb (Ascii.eqb (lower_char a) (lower_char b))
    (Ascii.eqb a b ||
     existsb (fun '(u, l) => (Ascii.eqb a u && Ascii.eqb b l) || (Ascii.eqb a l && Ascii.eqb b u)) letter_pairs).

Definition every_byte : list ascii := map ascii_of_nat (seq 0 256).

Lemma every_byte_complete a : In a every_byte.
Proof.
  unfold every_byte. apply in_map_iff. exists (nat_of_ascii a). split; [apply ascii_nat_embedding|].
  apply in_seq. split; [lia|]. pose proof (nat_ascii_bounded a). lia.
Qed.

Lemma lower_test_all : forallb (fun a => forallb (lower_testb a) every_byte) every_byte = true.
Proof. vm_compute. reflexivity. Qed.

Lemma lower_char_same a b : lower_char a = lower_char b <-> same_letter a b.
Proof.
  pose proof lower_test_all as H. rewrite forallb_forall in H.
  specialize (H a (every_byte_complete a)). rewrite forallb_forall in H.
  specialize (H b (every_byte_complete b)). unfold lower_testb in H. apply Bool.eqb_prop in H.
  rewrite <- Ascii.eqb_eq, H, orb_true_iff, Ascii.eqb_eq, existsb_exists. unfold same_letter.
  apply or_iff_compat_l. split.
  - intros ([u l] & Hn & E). apply in_map_iff in Hn as (n & [= <- <-] & Hn). apply in_seq in Hn.
    exists n. split; [lia|].
    rewrite orb_true_iff, !andb_true_iff, !Ascii.eqb_eq in E. exact E.
  - intros (n & Hn & E). exists (ascii_of_nat (65 + n), ascii_of_nat (97 + n)). split.
    { apply in_map_iff. exists n. split; [done|]. apply in_seq. lia. }
    rewrite orb_true_iff, !andb_true_iff, !Ascii.eqb_eq. exact E.
Qed.

Lemma equal_fold_same a b : equal_fold a b = true <-> same_word a b.
Proof.
  unfold equal_fold. rewrite String.eqb_eq. revert b. induction a as [|x a IH]; intros [|y b]; cbn.
  - split; [constructor|done].
  - split; [done|inversion 1].
  - split; [done|inversion 1].
  - split.
    + intros E. injection E as E1 E2. constructor; [by apply lower_char_same|by apply IH].
    + inversion 1 as [|? ? ? ? H1 H2]; subst. apply lower_char_same in H1. apply IH in H2. by rewrite H1, H2.
Qed.

Lemma equal_fold_not a b : equal_fold a b = false <-> ~ same_word a b.
Proof. rewrite <- equal_fold_same. by destruct (equal_fold a b). Qed.

(** ** The settings of a repository *)

Lemma assoc_filter nm (l : list (string * repo_custom)) :
  assoc nm l = head (map snd (List.filter (fun nv => String.eqb nm nv.1) l)).
Proof.
  induction l as [|[k v] l IH]; [done|]. cbn. rewrite String.eqb_sym.
  by destruct (String.eqb nm k).
Qed.

Lemma list_filter_app {A} (f : A -> bool) l1 l2 : List.filter f (l1 ++ l2) = (List.filter f l1 ++ List.filter f l2)%list.
Proof. induction l1 as [|x l1 IH]; [done|]. cbn. destruct (f x); cbn; by rewrite IH. Qed.

Lemma custom_by_name nm cs vs : entries_for nm cs vs ->
  repo_custom_by_name nm cs = default empty_repo_custom (head vs).
Proof.
  unfold entries_for. intros ->. induction cs as [|m cs IH]; [done|].
  cbn. rewrite assoc_filter, list_filter_app, map_app.
  destruct (map snd (List.filter (fun nv => String.eqb nm nv.1) m)); [exact IH|done].
Qed.

Lemma install_config_foldl nm (l : list (string * repo_custom)) (m0 : gmap string repo_config) :
  foldl (fun m nv => <[nv.1 := make_repo_config nv.2]> m) m0 l !! nm =
  match last (map snd (List.filter (fun nv => String.eqb nm nv.1) l)) with
  | Some v => Some (make_repo_config v)
  | None => m0 !! nm
  end.
Proof.
  revert m0. induction l as [|[k v] l IH]; intros m0; [done|].
  cbn [foldl]. rewrite IH. cbn [List.filter fst snd].
  destruct (String.eqb_spec nm k) as [->|Hk]; cbn [map snd].
  - rewrite lookup_insert, last_cons. by destruct (last (map snd (List.filter _ l))).
  - destruct (last _); [done|]. by rewrite lookup_insert_ne.
Qed.

Lemma install_config_lookup nm cs vs : entries_for nm cs vs ->
  install_config cs !! nm = match last vs with Some v => Some (make_repo_config v) | None => None end.
Proof.
  unfold entries_for. intros ->. unfold install_config. rewrite install_config_foldl, lookup_empty. done.
Qed.

Lemma configured_repos_in nm url repos cs : (nm, url) ∈ concat repos ->
  RepoURL url nm (rq_suffix (repo_custom_by_name nm cs)) ∈ configured_repos repos cs.
Proof.
  intros H. unfold configured_repos. induction repos as [|r repos IH]; [by apply elem_of_nil in H|].
  cbn [flat_map concat] in *. rewrite elem_of_app. rewrite elem_of_app in H. destruct H as [H|H]; [left|right; by apply IH].
  apply elem_of_list_fmap. exists (nm, url). done.
Qed.

Lemma configured_repos_inv r repos cs : r ∈ configured_repos repos cs ->
  (ru_name r, ru_url r) ∈ concat repos /\ ru_suffix r = rq_suffix (repo_custom_by_name (ru_name r) cs).
Proof.
  intros H. unfold configured_repos in H. induction repos as [|l repos IH]; [by apply elem_of_nil in H|].
  cbn [flat_map concat] in *. rewrite elem_of_app. rewrite elem_of_app in H. destruct H as [H|H].
  - apply elem_of_list_fmap in H as ([n u] & -> & H). cbn. split; [by left|done].
  - destruct (IH H) as [H1 H2]. split; [by right|done].
Qed.

(** One entry or none: both views agree. *)
Lemma suffix_agree os rel repos cs db vs : db ∈ configured_dbs os rel repos cs ->
  entries_for (ru_name (db_repo db)) cs vs -> (length vs <= 1)%nat ->
  db_suffix db = ru_suffix (db_repo db).
Proof.
  unfold configured_dbs. intros H Hv Hl. apply elem_of_list_fmap in H as (r & -> & Hr).
  cbn in *. apply configured_repos_inv in Hr as [_ ->].
  rewrite (install_config_lookup _ _ _ Hv), (custom_by_name _ _ _ Hv).
  destruct vs as [|v [|]]; [done|done|cbn in Hl; lia].
Qed.

(** ** The type of package a repository is asked for *)

Lemma make_default os v :
  os <> OtherOs ->
  repo_asks os v (if bool_decide (rc_default (make_repo_config v) = STDefault) then default_type os
                  else rc_default (make_repo_config v)).
Proof.
  intros Hos. unfold make_repo_config; cbn [rc_default].
  destruct (equal_fold (rq_type v) "source") eqn:E1.
  { apply equal_fold_same in E1. cbn. by apply asks_source. }
  apply equal_fold_not in E1.
  destruct (equal_fold (rq_type v) "binary") eqn:E2.
  { apply equal_fold_same in E2. cbn. by apply asks_binary. }
  apply equal_fold_not in E2.
  destruct (equal_fold (rq_repo_type v) "MPN") eqn:E3.
  { apply equal_fold_same in E3. cbn. by apply asks_mpn. }
  apply equal_fold_not in E3. cbn.
  destruct os; [by apply asks_macos|by apply asks_linux|by apply asks_windows|done].
Qed.

Lemma default_entry : make_repo_config empty_repo_custom = empty_repo_config.
Proof. reflexivity. Qed.

Lemma db_default_asks os rel repos cs db v : os <> OtherOs -> db ∈ configured_dbs os rel repos cs ->
  entries_for (ru_name (db_repo db)) cs [v] -> repo_asks os v (db_default db).
Proof.
  unfold configured_dbs. intros Hos H Hv. apply elem_of_list_fmap in H as (r & -> & Hr). cbn in *.
  rewrite (install_config_lookup _ _ _ Hv). cbn. by apply make_default.
Qed.

Lemma db_default_none os rel repos cs db : os <> OtherOs -> db ∈ configured_dbs os rel repos cs ->
  entries_for (ru_name (db_repo db)) cs [] -> repo_asks os empty_repo_custom (db_default db).
Proof.
  unfold configured_dbs. intros Hos H Hv. apply elem_of_list_fmap in H as (r & -> & Hr). cbn in *.
  rewrite (install_config_lookup _ _ _ Hv). cbn [last]. rewrite <- default_entry. cbn [default]. by apply make_default.
Qed.

Lemma rc_type_mpn v : rc_type (make_repo_config v) = MPN <-> same_word (rq_repo_type v) "MPN".
Proof.
  rewrite <- equal_fold_same. unfold make_repo_config; cbn [rc_type].
  destruct (equal_fold (rq_repo_type v) "MPN") eqn:E1; destruct (equal_fold (rq_repo_type v) "RSPM") eqn:E2; split; try done.
  unfold equal_fold in *. apply String.eqb_eq in E1, E2. rewrite E1 in E2. vm_compute in E2. congruence.
Qed.

Lemma reads_source os rel repos cs db : db ∈ configured_dbs os rel repos cs -> reads_index db STSource.
Proof.
  unfold configured_dbs. intros H. apply elem_of_list_fmap in H as (r & -> & Hr). exists ∅. cbn. unfold initial_types.
  destruct (supports_binary _ _ _); set_solver.
Qed.

Lemma reads_binary os rel repos cs db vs : db ∈ configured_dbs os rel repos cs ->
  entries_for (ru_name (db_repo db)) cs vs ->
  reads_index db STBinary <->
  (os = Darwin \/ os = Windows \/
   os = Linux /\ (exists r, rel = Some r /\ or_id r <> "") /\ exists v, last vs = Some v /\ same_word (rq_repo_type v) "MPN").
Proof.
  unfold configured_dbs. intros H Hv. apply elem_of_list_fmap in H as (r & -> & Hr). cbn in Hv.
  assert (Hb : reads_index (new_repo_db os rel (install_config cs) r) STBinary <->
    supports_binary os rel (rc_type (default empty_repo_config (install_config cs !! ru_name r))) = true).
  { unfold reads_index. cbn. unfold initial_types. destruct (supports_binary _ _ _).
    - split; [done|]. intros _. exists ∅. set_solver.
    - split; [|done]. intros (m & H). apply elem_of_list_singleton in H. done. }
  rewrite Hb, (install_config_lookup _ _ _ Hv). clear Hb.
  unfold supports_binary, linux_supports_binary. destruct os.
  - split; [by left|done].
  - rewrite andb_true_iff, bool_decide_eq_true. split.
    + intros [H1 H2]. right; right. split; [done|]. destruct rel as [o|]; [|done]. split.
      * exists o. split; [done|]. intros E. rewrite E in H1. done.
      * destruct (last vs) as [v|]; [|done]. exists v. split; [done|]. by apply rc_type_mpn.
    + intros [H1|[H1|(_ & (o & -> & Ho) & v & -> & Hm)]]; [done|done|]. split.
      * apply negb_true_iff, String.eqb_neq. done.
      * cbn. by apply rc_type_mpn.
  - split; [by right; left|done].
  - split; [done|]. intros [H1|[H1|[H1 _]]]; done.
Qed.

(** ** The addresses *)

Lemma urls_beside os rel rv db st file u : db_suffix db = ru_suffix (db_repo db) ->
  os = Linux \/ ru_suffix (db_repo db) = "" \/ st = STSource ->
  package_url os rel rv (db_repo db) st file = Some u ->
  exists i, index_url os rel rv db st = Some i /\ beside i u file.
Proof.
  intros Hs Hc. unfold package_url, index_url. rewrite Hs.
  destruct (bool_decide (st = STSource)) eqn:Est.
  { intros E. injection E as <-. eexists. split; [done|].
    exists (trim_suffix "/" (ru_url (db_repo db)) +:+ "/src/contrib"). rewrite !app_assoc_str. done. }
  apply bool_decide_eq_false in Est.
  destruct (cran_binary_url os rel rv) as [b|]; [|done].
  destruct (String.eqb_spec (ru_suffix (db_repo db)) "") as [E0|E0]; cbn [negb andb].
  - intros E. injection E as <-. eexists. split; [done|].
    exists (trim_suffix "/" (ru_url (db_repo db)) +:+ "/bin/" +:+ b +:+ "/contrib/" +:+ rv_short rv).
    rewrite !app_assoc_str. done.
  - destruct Hc as [->|[Hc|Hc]]; [|done|done].
    rewrite bool_decide_eq_true_2 by done. cbn [andb].
    intros E. injection E as <-. eexists. split; [done|].
    exists (trim_suffix "/" (ru_url (db_repo db)) +:+ "/bin/" +:+ b +:+ "/" +:+ ru_suffix (db_repo db) +:+
            "/contrib/" +:+ rv_short rv).
    rewrite !app_assoc_str. done.
Qed.

(** The package has an address exactly when the index has one. *)
Lemma urls_defined os rel rv db st file : package_url os rel rv (db_repo db) st file = None <-> index_url os rel rv db st = None.
Proof.
  unfold package_url, index_url. destruct (bool_decide (st = STSource)); [done|].
  destruct (cran_binary_url os rel rv); [|done]. by repeat destruct (negb _ && _); destruct (negb _).
Qed.

(** ** The directory of binaries on Linux *)

Lemma linux_uri_ok r u : linux_dir r u ->
  (or_id r = "centos" \/ or_id r = "rhel" -> exists c rest, or_version_id r = String c rest /\
     (rest = "" \/ exists minor, rest = "." +:+ minor)) ->
  linux_binary_uri (Some r) = Some u.
Proof.
  intros Hd Hv. unfold linux_binary_uri. destruct Hd as [r Hi|r major rest Hi Hver Hne Hdig Hr|r H1 H2 H3 H4].
  - rewrite Hi. done.
  - destruct (Hv Hi) as (c & rest' & Hv1 & Hv2).
    replace (or_id r =? "")%string with false by (destruct Hi as [Hi|Hi]; rewrite Hi; done).
    replace (or_id r =? "ubuntu")%string with false by (destruct Hi as [Hi|Hi]; rewrite Hi; done).
    replace ((or_id r =? "centos")%string || (or_id r =? "rhel")%string) with true by (destruct Hi as [Hi|Hi]; rewrite Hi; done).
    rewrite Hv1. f_equal. destruct major as [|c0 major]; [done|].
    rewrite Hver in Hv1. cbn in Hv1. injection Hv1 as -> E.
    destruct major as [|c1 major]; [done|]. exfalso.
    assert (Hc1 : (48 <= nat_of_ascii c1 <= 57)%nat) by (cbn [all_bytes] in Hdig; apply andb_true_iff in Hdig as [_ Hdig]; apply andb_true_iff in Hdig as [Hdig _]; apply andb_true_iff in Hdig as [H1 H2]; apply Nat.leb_le in H1, H2; done).
    destruct Hv2 as [->|[minor ->]]; [done|]. cbn in E. injection E as -> _. cbn in Hc1. vm_compute in Hc1. lia.
  - apply String.eqb_neq in H1, H2, H3, H4. rewrite H1, H2, H3, H4. done.
Qed.
