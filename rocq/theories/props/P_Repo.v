(** C08-C15, C17-C19: repository indexes and package selection. *)
From stdpp Require Import strings list gmap sorting.
From Coq Require Import Ascii ZArith Lia.
From Verif.model Require Import GoStr Version Desc Nexus RepoDb.
From Verif.spec Require Import StrSpec VersionSpec RepoSpec FetchSpec UrlSpec.
From Verif.proofs Require Import GoStrLemmas VersionProofs RepoProofs FetchProofs CustomProofs.

Local Open Scope string_scope.

(** Descriptions for the examples. *)
Definition mk_desc (name ver : string) (depends : list (string * dep)) : desc :=
  Desc name ver "" "" false ∅ ∅ (list_to_map depends) ∅ "" "" "".

Definition r_ge_36 : dep := Dep "R" (Version 3 6 0 0 0 "3.6") CGTE.
Definition r_lt_36 : dep := Dep "R" (Version 3 6 0 0 0 "3.6") CLT.
Definition r_any : dep := Dep "R" zero_version CNone.

(** C08 *)
Theorem C08_r_filter : forall d rv, rv_ok rv ->
  (is_r_compatible d rv = true <-> r_satisfied rv d) /\
  (d_depends d !! "R" = None -> is_r_compatible d rv = true) /\
  (forall op v c, vtext_ok v -> 2 <= length (vtext_numerals v) <= 4 ->
     word_without "()<>=" (vtext_text v) ->
     parse_dep ("R (" +:+ relop_text op +:+ " " +:+ vtext_text v +:+ ")") = Some c ->
     d_depends d !! "R" = Some c ->
     is_r_compatible d rv = true <-> relop_holds op (lex_compare (rv_values rv) (vtext_values v))).
Proof.
  intros d rv H. split; [by apply is_r_compatible_spec|]. split.
  - intros E. unfold is_r_compatible. by rewrite E.
  - intros op v c H1 H2 H3 H4 H5. by eapply r_constraint_text.
Qed.
Print Assumptions C08_r_filter.

Example C08_example :
  rv_ok (RVersion 3 6 1) /\
  is_r_compatible (mk_desc "a" "1.0" [("R", r_ge_36)]) (RVersion 3 6 1) = true /\
  is_r_compatible (mk_desc "a" "1.0" [("R", r_lt_36)]) (RVersion 3 6 1) = false /\
  is_r_compatible (mk_desc "a" "1.0" []) (RVersion 3 6 1) = true.
Proof.
  split; [repeat (constructor; [reflexivity|]); constructor|].
  split; [vm_compute; reflexivity|]. split; vm_compute; reflexivity.
Qed.

(** C09: records of an index. *)
Theorem C09_index_entries : forall parse rv body m, rv_ok rv ->
  read_index parse rv body = Some m ->
  exists b ds, body = Some b /\ Forall2 (fun t d => parse t = Some d) (record_texts b) ds /\
    forall p d, m !! p = Some d <-> last_such (usable_record rv p) ds d.
Proof. exact read_index_spec. Qed.
Print Assumptions C09_index_entries.

(** The records seen by the parser are the records of the file, for Unix and
    Windows line ends. *)
Theorem C09_index_records : forall eol recs last trailing,
  eol = String lf "" \/ eol = String cr (String lf "") ->
  Forall (fun ls => ls <> [] /\ Forall line_ok ls) recs -> last <> [] -> Forall line_ok last ->
  record_texts (index_text eol recs last trailing) =
  (map (rec_text (String lf "")) recs ++
   [rec_text (String lf "") last +:+ (if trailing then String lf "" else "")])%list.
Proof. exact record_texts_index. Qed.
Print Assumptions C09_index_records.

Example C09_example :
  let d1 := mk_desc "a" "1.0" [("R", r_lt_36)] in
  let d2 := mk_desc "a" "2.0" [("R", r_ge_36)] in
  let m := add_records (RVersion 3 6 1) [d2; d1] ∅ in
  d_version <$> m !! "a" = Some "2.0" /\
  record_texts (index_text (String cr (String lf "")) [["Package: a"; "Version: 1.0"]] ["Package: b"] true)
  = ["Package: a" +:+ String lf "Version: 1.0"; "Package: b" +:+ String lf ""].
Proof. split; vm_compute; reflexivity. Qed.

(** C10: false in general, the last usable record wins. *)
Theorem C10_newest_offered_refuted :
  let d1 := mk_desc "a" "2.0" [] in
  let d2 := mk_desc "a" "1.0" [] in
  let rv := RVersion 3 6 1 in
  keep_record rv d1 = true /\ keep_record rv d2 = true /\
  compare_version_strings (d_version d1) (d_version d2) = Some 1%Z /\
  d_version <$> add_records rv [d1; d2] ∅ !! "a" = Some "1.0".
Proof. split; [|split; [|split]]; vm_compute; reflexivity. Qed.
Print Assumptions C10_newest_offered_refuted.

(** It holds for indexes that list the versions of a package in ascending
    order.  Missing: indexes in any other order. *)
Theorem C10_newest_offered_partial : forall rv ds p d (le : desc -> desc -> Prop), rv_ok rv ->
  (forall a, le a a) -> StronglySorted le ds ->
  add_records rv ds ∅ !! p = Some d ->
  forall d', d' ∈ ds -> usable_record rv p d' -> le d' d.
Proof.
  intros rv ds p d le Hrv Hr Hs H d' Hin Hu.
  eapply last_such_max; [exact Hr|exact Hs| |exact Hin|exact Hu]. by apply add_records_spec.
Qed.
Print Assumptions C10_newest_offered_partial.

Example C10_example :
  d_version <$> add_records (RVersion 3 6 1) [mk_desc "a" "1.0" []; mk_desc "a" "2.0" []] ∅ !! "a"
  = Some "2.0".
Proof. vm_compute. reflexivity. Qed.

(** C11: false for a repository with only one kind of index: the failure is not
    reported and an empty index is cached. *)
Theorem C11_unreadable_reported_refuted :
  arrivals_of (fun _ => None) (initial_types false) [(STSource, None)] /\
  fetch_packages 100 None None (initial_types false) [(STSource, None)] =
  (FetchOk [(STSource, ∅)], Some (CacheFile 100 [(STSource, ∅)])).
Proof. split; [unfold arrivals_of; cbn; reflexivity|]. vm_compute. reflexivity. Qed.
Print Assumptions C11_unreadable_reported_refuted.

(** It holds for repositories with a source and a binary index, for any arrival
    order; and a failing repository fails the whole database.  Missing:
    repositories with one index (source only). *)
Theorem C11_unreadable_reported_partial :
  (forall now env cache arr, arrivals_of (fun _ => None) (initial_types true) arr ->
     ~ fresh now env cache ->
     fetch_packages now env cache (initial_types true) arr = (FetchError, None)) /\
  (forall (outcomes : list (repo_db + string)) arr, outcomes <> [] -> arr ≡ₚ imap pair outcomes ->
     (exists e, inr e ∈ outcomes) -> (new_pkg_db (length outcomes) arr).2 <> None).
Proof.
  split.
  - intros now env cache arr H Hf.
    apply (fetch_stale now env cache (initial_types true) arr (fun _ => None)); try done.
    + repeat constructor; set_solver.
    + simpl. lia.
  - intros outcomes arr Hne H [e He] E. destruct (new_pkg_db_spec outcomes arr Hne H) as (_ & Hn & _).
    by apply (proj1 Hn E e).
Qed.
Print Assumptions C11_unreadable_reported_partial.

Example C11_example :
  fetch_packages 100 None None (initial_types true) [(STBinary, None); (STSource, None)] = (FetchError, None) /\
  exists l, fetch_packages 100 None None (initial_types true)
    [(STSource, Some {["a" := mk_desc "a" "1.0" []]}); (STBinary, None)] = (FetchOk l, Some (CacheFile 100 l)).
Proof. split; [vm_compute; reflexivity|]. eexists. vm_compute. reflexivity. Qed.

(** C12 *)
Theorem C12_first_offering_repo : forall nx pkg,
  (forall d c, get_package nx pkg = Some (d, c) <->
     exists l1 db l2, nx_db nx = (l1 ++ db :: l2)%list /\ offers nx pkg db d (pc_type c) /\
       pc_repo c = db_repo db /\ (forall db' d' st, db' ∈ l1 -> ~ offers nx pkg db' d' st)) /\
  (get_package nx pkg = None <-> forall db d st, db ∈ nx_db nx -> ~ offers nx pkg db d st).
Proof. intros nx pkg. split; [apply get_package_spec|apply get_package_none]. Qed.
Print Assumptions C12_first_offering_repo.

Definition ex_db (name : string) (dflt : source_type) (src bin : list desc) : repo_db :=
  let m l := list_to_map (map (fun d => (d_package d, d)) l) in
  RepoDb [(STBinary, m bin); (STSource, m src)] (RepoURL ("http://" +:+ name) name "") dflt "".

Definition ex_nexus : nexus :=
  Nexus [ex_db "one" STSource [mk_desc "a" "1.0" []] [];
         ex_db "two" STBinary [mk_desc "a" "1.1" []; mk_desc "b" "1.1" []]
                              [mk_desc "a" "1.2" []; mk_desc "b" "1.2" []]] ∅ STSource.

Definition chosen (o : option (desc * pkg_config)) : option (string * string * source_type) :=
  match o with
  | Some (d, c) => Some (d_version d, ru_name (pc_repo c), pc_type c)
  | None => None
  end.

Example C12_example :
  chosen (get_package ex_nexus "a") = Some ("1.0", "one", STSource) /\
  chosen (get_package ex_nexus "b") = Some ("1.2", "two", STBinary) /\
  chosen (get_package ex_nexus "c") = None.
Proof. split; [|split]; vm_compute; reflexivity. Qed.

(** C13 *)
Theorem C13_customizations_local :
  (forall nx pkg repo nx', set_package_repo nx pkg repo = Some nx' ->
     (forall q, q <> pkg -> get_package nx' q = get_package nx q) /\
     (repo <> "" -> forall d c, get_package nx' pkg = Some (d, c) -> ru_name (pc_repo c) = repo)) /\
  (forall nx pkg repo, set_package_repo nx pkg repo = None <->
     forall db, db ∈ nx_db nx -> ru_name (db_repo db) <> repo) /\
  (forall nx pkg t nx', set_package_type nx pkg t = Some nx' ->
     (forall q, q <> pkg -> get_package nx' q = get_package nx q) /\
     forall d c, get_package nx' pkg = Some (d, c) ->
       same_word t "source" /\ pc_type c = STSource \/ same_word t "binary" /\ pc_type c = STBinary) /\
  (forall nx pkg t, set_package_type nx pkg t = None <->
     ~ same_word t "source" /\ ~ same_word t "binary").
Proof.
  split; [exact set_package_repo_spec|]. split; [exact set_package_repo_error|].
  split; [exact set_package_type_words|exact set_package_type_error].
Qed.
Print Assumptions C13_customizations_local.

(** The two settings of one package do not disturb each other. *)
Theorem C13_settings_kept : forall nx pkg c0, nx_packages nx !! pkg = Some c0 ->
  (forall t nx' d c, set_package_type nx pkg t = Some nx' -> get_package nx' pkg = Some (d, c) ->
     ru_name (pc_repo c0) <> "" -> ru_name (pc_repo c) = ru_name (pc_repo c0)) /\
  (forall repo nx' d c, set_package_repo nx pkg repo = Some nx' -> get_package nx' pkg = Some (d, c) ->
     pc_type c0 <> STDefault -> pc_type c = pc_type c0).
Proof.
  intros nx pkg c0 H. split.
  - intros t nx' d c. by eapply set_type_keeps_repo.
  - intros repo nx' d c. by eapply set_repo_keeps_type.
Qed.
Print Assumptions C13_settings_kept.

Example C13_example :
  (nx' ← set_package_repo ex_nexus "a" "two"; chosen (get_package nx' "a")) = Some ("1.1", "two", STSource) /\
  (nx' ← set_package_type ex_nexus "a" "Binary"; chosen (get_package nx' "a")) = Some ("1.2", "two", STBinary) /\
  (nx' ← set_package_repo ex_nexus "a" "one"; nx'' ← set_package_type nx' "a" "BINARY"; chosen (get_package nx'' "a")) = None /\
  set_package_type ex_nexus "a" "sources" = None /\
  set_package_repo ex_nexus "a" "three" = None.
Proof. split; [|split; [|split; [|split]]]; vm_compute; reflexivity. Qed.

(** C14: false, pinning "b" to the repository it comes from anyway changes the
    source type from the repository's default (binary) to source. *)
Theorem C14_pin_keeps_type_refuted :
  chosen (get_package ex_nexus "b") = Some ("1.2", "two", STBinary) /\
  (nx' ← set_package_repo ex_nexus "b" "two"; chosen (get_package nx' "b")) = Some ("1.1", "two", STSource).
Proof. split; vm_compute; reflexivity. Qed.
Print Assumptions C14_pin_keeps_type_refuted.

(** It holds if the package was customized before or the repository has no
    default type of its own. *)
Theorem C14_pin_keeps_type_partial : forall nx pkg d c nx',
  get_package nx pkg = Some (d, c) -> ru_name (pc_repo c) <> "" ->
  (forall db db', db ∈ nx_db nx -> db' ∈ nx_db nx ->
     ru_name (db_repo db) = ru_name (db_repo db') -> db = db') ->
  (forall db, db ∈ nx_db nx -> db_repo db = pc_repo c -> is_Some (nx_packages nx !! pkg) \/
     db_default db = STDefault \/ db_default db = nx_default nx) ->
  set_package_repo nx pkg (ru_name (pc_repo c)) = Some nx' ->
  get_package nx' pkg = Some (d, c).
Proof. exact pin_keeps. Qed.
Print Assumptions C14_pin_keeps_type_partial.

Example C14_example :
  (nx' ← set_package_repo ex_nexus "a" "one"; chosen (get_package nx' "a")) = chosen (get_package ex_nexus "a").
Proof. vm_compute. reflexivity. Qed.

(** C15 *)
Theorem C15_repo_order : forall (outcomes : list (repo_db + string)) arr,
  outcomes <> [] -> arr ≡ₚ imap pair outcomes ->
  (new_pkg_db (length outcomes) arr).1 =
    map (fun o => match o with inl db => Some db | inr _ => None end) outcomes /\
  ((new_pkg_db (length outcomes) arr).2 = None <-> forall e, inr e ∉ outcomes) /\
  (forall e, (new_pkg_db (length outcomes) arr).2 = Some e -> inr e ∈ outcomes).
Proof. exact new_pkg_db_spec. Qed.
Print Assumptions C15_repo_order.

(** With no repository there is no database: an error, whatever arrives. *)
Theorem C15_no_repositories : forall arr : list (nat * (repo_db + string)),
  (new_pkg_db 0 arr).1 = [] /\ (new_pkg_db 0 arr).2 <> None.
Proof. intros arr. split; [reflexivity|discriminate]. Qed.
Print Assumptions C15_no_repositories.

Example C15_example :
  let a := ex_db "one" STSource [] [] in let b := ex_db "two" STSource [] [] in
  new_pkg_db 3 [(2, inl b); (1, inr "404"); (0, inl a)] = ([Some a; None; Some b], Some "404").
Proof. reflexivity. Qed.

(** C17 *)
Theorem C17_missing_exact : forall nx pkgs,
  ap_missing (get_packages nx pkgs) =
    List.filter (fun p => match get_package nx p with Some _ => false | None => true end) pkgs /\
  (check_all_available nx pkgs = true <-> forall p, p ∈ pkgs -> is_Some (get_package nx p)) /\
  (check_all_available nx pkgs = true <-> ap_missing (get_packages nx pkgs) = []).
Proof.
  intros nx pkgs. split; [apply missing_spec|]. split; [apply check_all_available_spec|].
  unfold check_all_available. destruct (ap_missing _); split; done.
Qed.
Print Assumptions C17_missing_exact.

Example C17_example :
  ap_missing (get_packages ex_nexus ["z"; "a"; "c"]) = ["z"; "c"] /\
  check_all_available ex_nexus ["a"; "b"] = true.
Proof. split; vm_compute; reflexivity. Qed.

(** C18: false.  Source-only and source+binary configurations share the cache
    (as do different suffixes, which are not part of the key), and name and URL
    are concatenated without separator. *)
Theorem C18_cache_keys_distinct_refuted :
  hash_text false (RepoURL "http://x" "MPN" "") (initial_types true) "3.6.1" =
  hash_text false (RepoURL "http://x" "MPN" "") (initial_types false) "3.6.1" /\
  hash_text false (RepoURL "/repo" "a" "") (initial_types true) "3.6.1" =
  hash_text false (RepoURL "repo" "a/" "") (initial_types true) "3.6.1" /\
  hash_text false (RepoURL "http://x" "MPN" "s1") (initial_types true) "3.6.1" =
  hash_text false (RepoURL "http://x" "MPN" "s2") (initial_types true) "3.6.1".
Proof. split; [|split]; vm_compute; reflexivity. Qed.
Print Assumptions C18_cache_keys_distinct_refuted.

(** Under the same name and kinds of index, different URLs and different R
    versions have different keys.  Missing: different names, kinds, suffixes. *)
Theorem C18_cache_keys_distinct_partial : forall b r r' t rv rv', rv_ok rv -> rv_ok rv' ->
  ru_name r = ru_name r' ->
  hash_text b r t (rv_full rv) = hash_text b r' t (rv_full rv') ->
  ru_url r = ru_url r' /\ rv = rv'.
Proof.
  intros b r r' t rv rv' H H' Hn E. apply hash_text_inj in E as [E1 E2]; [|done].
  split; [done|]. by apply rv_full_inj.
Qed.
Print Assumptions C18_cache_keys_distinct_partial.

Example C18_example :
  hash_text false (RepoURL "http://x" "MPN" "") (initial_types true) (rv_full (RVersion 3 6 1))
  = "MPNhttp://xsource3.6.1".
Proof. vm_compute. reflexivity. Qed.

(** C19 *)
Theorem C19_cache_freshness :
  (forall now env cf types arr, fresh now env (Some cf) ->
     exists l, fetch_packages now env (Some cf) types arr = (FetchOk l, Some cf) /\
       (NoDup (cf_types cf).*1 -> forall st m, (st, m) ∈ cf_types cf -> index_for l st m) /\
       (forall st, st ∉ (cf_types cf).*1 -> forall m, index_for l st m <-> index_for types st m)) /\
  (forall now env cache types arr outcome,
     NoDup types.*1 -> arrivals_of outcome types arr -> ~ fresh now env cache ->
     (1 < length types -> (forall st, st ∈ types.*1 -> outcome st = None) ->
        fetch_packages now env cache types arr = (FetchError, None)) /\
     (length types <= 1 \/ (exists st, st ∈ types.*1 /\ outcome st <> None) ->
        exists l, fetch_packages now env cache types arr = (FetchOk l, Some (CacheFile now l)) /\
          l.*1 = types.*1 /\
          forall st, st ∈ types.*1 ->
            match outcome st with
            | Some m => index_for l st m
            | None => forall m, index_for l st m <-> index_for types st m
            end)).
Proof. split; [exact fetch_fresh|exact fetch_stale]. Qed.
Print Assumptions C19_cache_freshness.

(** The limit is that which is set, up to 292 years. *)
Theorem C19_limit env s n : env = Some s -> int_text s n -> (-9223372036 <= n <= 9223372036)%Z -> forall m, age_limit env m <-> m = n.
Proof.
  intros -> Hs Hn m. split.
  - intros [(s' & k & [= <-] & Hk & ns & q & E & B & N)|[H _]]; [|by destruct (H s n)].
    assert (k = n) as -> by (apply atoi_spec in Hs, Hk; congruence). lia.
  - intros ->. left. exists s, n. split; [done|]. split; [done|]. exists (n * 1000000000)%Z, 0%Z. lia.
Qed.
Print Assumptions C19_limit.

(** With more than that a cached index is not used, however young it is. *)
Theorem C19_limit_refuted : exists cf types arr,
  int_text "10000000000" 10000000000 /\ (forall now, now = cf_mtime cf -> fetch_packages now (Some "10000000000") (Some cf) types arr = (FetchError, None)).
Proof.
  exists (CacheFile 1700000000 [(STSource, ∅)]), (initial_types true), [(STSource, None); (STBinary, None)].
  split; [apply atoi_spec; by vm_compute|]. intros now ->. by vm_compute.
Qed.
Print Assumptions C19_limit_refuted.

Example C19_example :
  let a := {["a" := mk_desc "a" "1.0" []]} in
  let cf := CacheFile 100 [(STBinary, ∅); (STSource, a)] in
  fetch_packages 3699 None (Some cf) (initial_types true) [] = (FetchOk [(STBinary, ∅); (STSource, a)], Some cf) /\
  fetch_packages 3700 None (Some cf) (initial_types true) [(STSource, None); (STBinary, None)] = (FetchError, None) /\
  fetch_packages 3700 (Some "7200") (Some cf) (initial_types true) [] = (FetchOk [(STBinary, ∅); (STSource, a)], Some cf).
Proof. split; [|split]; vm_compute; reflexivity. Qed.
