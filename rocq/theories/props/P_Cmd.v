(** C114 to C116: removing several packages, cleaning everything, and planning from the
    text of DESCRIPTION files. *)
From stdpp Require Import strings list gmap relations.
From Coq Require Import Ascii Lia.
From Verif.model Require Import GoStr Version Desc Nexus RepoDb Graph Plan Control Yml Fs Extract Install Tarballs Clean Commands.
From Verif.spec Require Import StrSpec LibSpec EnvSpec YmlSpec RepoSpec GraphSpec PlanSpec ControlSpec InstallSpec CleanSpec TarballSpec.
From Verif.proofs Require Import GoStrLemmas YmlProofs ControlProofs FsProofs CleanProofs TarballProofs PlanProofs SettingsProofs
  CommandProofs.
From Verif.props Require Import P_Tarball P_Control.

Local Open Scope string_scope.

(** * C114: pkgr remove with several packages *)

(** Order and repetition of the arguments do not matter. *)
Theorem C114_order : forall content names names', (forall n, n ∈ names <-> n ∈ names') ->
  remove_packages content names = remove_packages content names'.
Proof.
  intros content names names' H. destruct (text_split content) as (lines & last & -> & H1 & H2). rewrite !remove_several by done.
  assert (K : forall l, existsb (fun n => removed n l) names = existsb (fun n => removed n l) names').
  { intros l. apply eq_true_iff_eq. rewrite !existsb_exists. split; intros (n & Hn & E); exists n; (split; [|done]);
      apply elem_of_list_In; apply elem_of_list_In in Hn; by apply H. }
  rewrite K. f_equal. f_equal. clear -K. induction lines as [|l lines IH]; [done|]. cbn. by rewrite K, IH.
Qed.
Print Assumptions C114_order.

(** Removing what has been removed changes nothing. *)
Theorem C114_again : forall content names, remove_packages (remove_packages content names) names = remove_packages content names.
Proof.
  intros content names. change (remove_packages (remove_packages content names) names) with (fold_left remove_package names (fold_left remove_package names content)).
  rewrite <- fold_left_app. apply (C114_order content (names ++ names)%list names). intros n. rewrite elem_of_app. tauto.
Qed.
Print Assumptions C114_again.

(** In full: exactly the items of the section Packages that name one of the packages are
    removed.  Missing: as in C62. *)
Theorem C114_lines_partial : forall lines last names,
  (forall l, l ∈ lines -> is_line l) -> is_line last ->
  (forall name i l, name ∈ names -> (lines ++ [last])%list !! i = Some l ->
     (item_like name l <-> item name l /\ in_packages (lines ++ [last])%list i)) ->
  exists kept last',
    deletes (fun i l => exists name, name ∈ names /\ item name l /\ in_packages (lines ++ [last])%list i) 0 lines kept /\
    remove_packages (text lines +:+ last) names = text kept +:+ last' /\
    ((exists name, name ∈ names /\ item name last /\ in_packages (lines ++ [last])%list (length lines)) -> last' = "") /\
    (~ (exists name, name ∈ names /\ item name last /\ in_packages (lines ++ [last])%list (length lines)) -> last' = last).
Proof.
  intros lines last names H1 H2 H3. rewrite remove_several by done.
  assert (K : forall i l, (lines ++ [last])%list !! i = Some l -> existsb (fun n => removed n l) names = true <->
    exists name, name ∈ names /\ item name l /\ in_packages (lines ++ [last])%list i).
  { intros i l Hi. rewrite existsb_exists. split.
    - intros (n & Hn & E). apply elem_of_list_In in Hn. exists n. split; [done|]. apply (H3 n i l Hn Hi). by apply removed_spec.
    - intros (n & Hn & E). exists n. split; [by apply elem_of_list_In|]. apply removed_spec. by apply (H3 n i l Hn Hi). }
  eexists. eexists. split; [|split; [reflexivity|]].
  - assert (G : forall i ls, (forall k l, ls !! k = Some l -> existsb (fun n => removed n l) names = true <->
        exists name, name ∈ names /\ item name l /\ in_packages (lines ++ [last])%list (i + k)) ->
      deletes (fun i l => exists name, name ∈ names /\ item name l /\ in_packages (lines ++ [last])%list i) i ls
        (List.filter (fun l => negb (existsb (fun n => removed n l) names)) ls)).
    { intros i ls. revert i. induction ls as [|l ls IH]; intros i G; [constructor|]. cbn [List.filter].
      assert (IH' := IH (S i)). specialize (G 0 l eq_refl) as G0. rewrite Nat.add_0_r in G0.
      destruct (existsb (fun n => removed n l) names); cbn [negb].
      - apply del_drop; [by apply G0|]. apply IH'. intros k x Hx. replace (S i + k) with (i + S k) by lia. by apply (G (S k)).
      - apply del_keep; [intros E; by apply G0 in E|]. apply IH'. intros k x Hx. replace (S i + k) with (i + S k) by lia. by apply (G (S k)). }
    apply G. intros k l Hk. cbn [Nat.add]. apply K. by apply lookup_app_l_Some.
  - assert (Hl : (lines ++ [last])%list !! length lines = Some last).
    { rewrite lookup_app_r by lia. by rewrite Nat.sub_diag. }
    rewrite <- (K _ _ Hl). by destruct (existsb (fun n => removed n last) names).
Qed.
Print Assumptions C114_lines_partial.

Example C114_example : remove_packages (text ["Packages:"; "- dplyr"; "- R6"; "- rlang"; "Repos:"; "  - CRAN: u"]) ["rlang"; "dplyr"] =
  text ["Packages:"; "- R6"; "Repos:"; "  - CRAN: u"].
Proof. reflexivity. Qed.

(** Removing data removes data.table as well. *)
Theorem C114_prefix_refuted : exists lines names other, (forall l, l ∈ lines -> is_line l) /\
  ~ other ∈ names /\ in_packages lines 2 /\ lines !! 2 = Some ("- " +:+ other) /\
  remove_packages (text lines) names = text ["Packages:"].
Proof.
  exists ["Packages:"; "- data"; "- data.table"], ["data"], "data.table". split.
  - intros l H. repeat (apply elem_of_cons in H as [-> | H]; [done|]). by apply elem_of_nil in H.
  - split; [set_solver|]. split; [|done].
    exists 0, "Packages:". split; [lia|]. split; [done|]. split; [done|].
    intros [|[|[|k]]] m [Hk Hk2]; [lia| | |lia]; intros [= <-]; done.
Qed.
Print Assumptions C114_prefix_refuted.

(** * C115: pkgr clean

    In full: clean --all removes the source and binary packages in the cache, the
    unpacked tarballs and the databases of all configured repositories, and nothing
    else; clean without --all removes nothing. *)

(** Missing: configurations with tarballs; a cache directory that does not exist. *)
Theorem C115_all_partial : forall c d u fetch md5 b dir configured dbs rv f f',
  cache_of c d -> tree_ok f -> cc_repos c = "ALL" -> cc_src_only c = false -> cc_binaries_only c = false ->
  cc_hashes c = [] -> (forall g q, ~ in_dir dir q -> fetch g q = g q) ->
  clean_command true c u [] fetch md5 b dir configured dbs rv f (Done f') ->
  (forall x sub q, sub = "src" \/ sub = "binary" -> in_dir (d ++ [x; sub])%list q -> ~ in_dir dir q -> f' q = None) /\
  (forall db, db ∈ dbs -> ru_name (db_repo db) ∈ configured ->
     f' (dir ++ [md5 (hash_text b (db_repo db) (db_types db) (rv_full rv))])%list = None) /\
  (forall q, ~ in_dir dir q -> f' q = f q \/
     (f' q = None /\ ((exists x sub, (sub = "src" \/ sub = "binary") /\ in_dir (d ++ [x; sub])%list q) \/ exists x, q = (d ++ [x])%list))).
Proof.
  intros c d u fetch md5 b dir configured dbs rv f f' Hd Ht Hr Hs Hb Hh Hf (r & Hc & H).
  destruct r as [|f1 []]; [done|done|]. cbn [unpack_tarballs] in H. injection H as ->.
  destruct (clean_cache_spec c d f f1 Hd Ht Hc) as (G1 & G2 & _).
  assert (Fr : forall q, ~ in_dir dir q -> clean_pkgdbs md5 b dir "ALL" configured dbs rv (fetch f1) q = f1 q).
  { intros q Hq. rewrite clean_pkgdbs_frame.
    - by apply Hf.
    - intros db _ (s & E). apply Hq. eexists. by rewrite E, <- app_assoc. }
  assert (Ch : forall q, chosen c d q <-> exists x sub, (sub = "src" \/ sub = "binary") /\ in_dir (d ++ [x; sub])%list q).
  { intros q. unfold chosen, chosen_folder, chosen_sub. rewrite Hs, Hb. split.
    - intros (x & sub & _ & Hsub & K). exists x, sub. split; [tauto|done].
    - intros (x & sub & Hsub & K). exists x, sub. split; [by left|]. split; [tauto|done]. }
  split; [|split].
  - intros x sub q Hsub Hq Hn. rewrite Fr by done. apply G1, Ch. by exists x, sub.
  - intros db Hdb Hn. unfold clean_pkgdbs, dbs_to_clear. cbn [String.eqb]. by apply (remove_dbs_removes md5 b dir).
  - intros q Hq. rewrite Fr by done. destruct (G2 q) as [|(E & [K|[(x & _ & K & _)|(h & K & _)]])]; [by left| | |].
    + right. split; [done|]. left. by apply Ch.
    + right. split; [done|]. right. by exists x.
    + rewrite Hh in K. by apply elem_of_nil in K.
Qed.
Print Assumptions C115_all_partial.

Theorem C115_without_all : forall c u ts fetch md5 b dir configured dbs rv f e,
  clean_command false c u ts fetch md5 b dir configured dbs rv f e <-> e = Done f.
Proof. done. Qed.
Print Assumptions C115_without_all.

Definition cmd_clean (hashes : list string) : clean_config :=
  {| cc_cwd := ["w"]; cc_default := ["u"; "pkgr"]; cc_cache := "/cache"; cc_repos := "ALL";
     cc_src_only := false; cc_binaries_only := false; cc_hashes := hashes |}.

Lemma cmd_lists : lists_dirs tb_fs ["cache"] [].
Proof.
  split; [constructor|]. intros x. rewrite elem_of_nil. split; [done|]. unfold tb_fs. rewrite bool_decide_eq_false_2; [done|].
  intros H. repeat (apply elem_of_cons in H as [H|H]; [discriminate H|]). by apply elem_of_nil in H.
Qed.

Lemma cmd_cleaned hashes : clean_cache (cmd_clean hashes) tb_fs (Cleaned (clean_tarballs (cmd_clean hashes) tb_fs) false).
Proof.
  eexists (Cleaned tb_fs false). split; [|reflexivity].
  change (delete_both ["cache"] None tb_fs (Cleaned tb_fs false)). exists (Cleaned tb_fs false). split.
  - exists [], tb_fs. split; [apply cmd_lists|]. by split.
  - exists [], tb_fs. split; [apply cmd_lists|]. by split.
Qed.

Example C115_example :
  let db := RepoDb [] (RepoURL "http://x" "MPN" "") STSource "" in
  let fetch (g : fsys) : fsys := fun q => if bool_decide (q = ["p"; "MPNhttp://xsource3.6.1"]) then Some (File "index") else g q in
  exists f', clean_command true (cmd_clean []) tb_unpacking [] fetch id false ["p"] ["MPN"] [db] (RVersion 3 6 1) tb_fs (Done f') /\
    f' ["p"; "MPNhttp://xsource3.6.1"] = None /\ f' ["lib"] = Some Dir.
Proof.
  cbv zeta. eexists. split; [|split].
  - exists (Cleaned (clean_tarballs (cmd_clean []) tb_fs) false). split; [apply cmd_cleaned|]. reflexivity.
  - vm_compute. reflexivity.
  - vm_compute. reflexivity.
Qed.

(** The tarballs of the configuration are unpacked again by the plan that is made to
    find the databases: their directories are always there after clean --all. *)
Theorem C115_tarballs_refuted : forall c u ts fetch md5 b dir configured dbs rv f f' t,
  clean_command true c u ts fetch md5 b dir configured dbs rv f (Done f') -> t ∈ ts ->
  (forall db, db ∈ dbs -> ~ in_dir (dir ++ [md5 (hash_text b (db_repo db) (db_types db) (rv_full rv))])%list
     (user_cache (cc_cwd c) (cc_default c) (cc_cache c) ++ [tarball_name u t])%list) ->
  f' (user_cache (cc_cwd c) (cc_default c) (cc_cache c) ++ [tarball_name u t])%list = Some Dir.
Proof.
  intros c u ts fetch md5 b dir configured dbs rv f f' t (r & _ & H) Ht Hn. destruct r as [|f1 []]; [done|done|].
  destruct (unpack_tarballs u _ ts (fetch f1)) as [[[f2 ds] m]|] eqn:E; [|by destruct H]. injection H as ->.
  rewrite clean_pkgdbs_frame by done. by eapply unpacked_dirs.
Qed.
Print Assumptions C115_tarballs_refuted.

Example C115_tarballs_example : exists f',
  clean_command true (cmd_clean ["one0000000000000"]) tb_unpacking [tb_of "a.tar.gz" "one" "alpha" "alpha"] (fun g => g)
    id false ["p"] [] [] (RVersion 3 6 1) tb_fs (Done f') /\
  f' ["cache"; "one0000000000000"; "alpha"; "DESCRIPTION"] = Some (File "alpha").
Proof.
  eexists. split.
  - exists (Cleaned (clean_tarballs (cmd_clean ["one0000000000000"]) tb_fs) false). split; [apply cmd_cleaned|]. reflexivity.
  - vm_compute. reflexivity.
Qed.

(** * C116: the packages named in DESCRIPTION files

    In full: every package that a DESCRIPTION file of the configuration names in
    Imports, LinkingTo, Suggests or Depends is planned, but for base packages; a file
    that cannot be read or understood ends the run. *)

Theorem C116_unreadable : forall o cfg nx tarballs read paths installed le,
  plan_from_files o cfg nx tarballs read paths installed le = None <->
  exists p, p ∈ paths /\ (read p = None \/ exists text, read p = Some text /\ parse_desc text = None).
Proof.
  intros o cfg nx tarballs read paths installed le. unfold plan_from_files. rewrite <- unpack_descriptions_none.
  by destruct (unpack_descriptions read paths).
Qed.
Print Assumptions C116_unreadable.

(** Missing: the field Depends (C69). *)
Theorem C116_planned_partial : forall o cfg nx read paths fss ws trailing installed le nx' ip,
  oracle_ok o -> nexus_ok nx -> no_record nx "R" ->
  Forall2 (fun p fs => read p = Some (record_text fs trailing) /\ record_ok fs) paths fss ->
  Forall2 says fss ws ->
  plan_from_files o cfg nx [] read paths installed le = Some (PIPlan nx' ip) ->
  let asked p := p ∈ cf_packages cfg \/
    exists w e, w ∈ ws /\ e ∈ (w_imports w ++ w_linkingto w ++ w_suggests w)%list /\ named e p in
  (forall p, asked p -> p ∉ r_base -> planned ip p) /\
  exists deps, forall q, planned ip q <-> exists p, asked p /\ p ∉ r_base /\ rtc (pulls deps nx') p q.
Proof.
  intros o cfg nx read paths fss ws trailing installed le nx' ip Ho Hnx HR Hread Hsays H asked.
  unfold plan_from_files in H. destruct (unpack_descriptions read paths) as [ds|] eqn:Eu; [|done]. injection H as H.
  apply unpack_descriptions_some in Eu.
  assert (D : Forall2 (fun w d => describes w d /\ forall e, e ∈ all_entries w -> is_Some (parse_dep e)) ws ds).
  { clear -Hread Hsays Eu. revert ws ds Hsays Eu. induction Hread as [|p fs paths fss [Hr Hok] _ IH]; intros ws ds Hsays Eu.
    - inversion Hsays; subst. inversion Eu; subst. constructor.
    - inversion Hsays as [|? w ? ws' Hw Hws]; subst. inversion Eu as [|? d ? ds' (text & Et & Ed) Eds]; subst.
      constructor; [|by apply IH]. rewrite Hr in Et. injection Et as <-.
      destruct (record_read fs trailing w Hok Hw) as [N S]. split; [by apply S|].
      intros e He. destruct (parse_dep e) as [x|] eqn:Ep; [by exists x|]. exfalso.
      assert (parse_desc (record_text fs trailing) = None) as K by (apply N; by exists e). congruence. }
  assert (Hok : Forall desc_deps_ok ds).
  { apply Forall_forall. intros d Hd. apply elem_of_list_lookup in Hd as [i Hi].
    destruct (Forall2_lookup_r _ _ _ _ _ D Hi) as (w & _ & (_ & _ & _ & _ & _ & K1 & K2 & K3 & K4 & _) & _).
    repeat split; by eapply dependencies_filed. }
  assert (W : forall p, wanted cfg [] ds p <-> asked p).
  { intros p. unfold wanted, asked, listed_in. split.
    - intros [Hp|[(d & Hd & _)|(d & Hd & K)]]; [by left|by apply elem_of_nil in Hd|]. right.
      apply elem_of_list_lookup in Hd as [i Hi]. destruct (Forall2_lookup_r _ _ _ _ _ D Hi) as (w & Hw & (_ & _ & _ & _ & _ & K1 & K2 & K3 & K4 & _) & _).
      apply elem_of_list_lookup_2 in Hw. exists w.
      destruct K as [[[x K]|[x K]]|[x K]].
      + destruct (dependencies_named _ _ _ _ K1 K) as (e & He & Hn). exists e. split; [done|]. split; [|done]. rewrite !elem_of_app. tauto.
      + destruct (dependencies_named _ _ _ _ K4 K) as (e & He & Hn). exists e. split; [done|]. split; [|done]. rewrite !elem_of_app. tauto.
      + destruct (dependencies_named _ _ _ _ K2 K) as (e & He & Hn). exists e. split; [done|]. split; [|done]. rewrite !elem_of_app. tauto.
    - intros [Hp|(w & e & Hw & He & Hn)]; [by left|]. right. right.
      apply elem_of_list_lookup in Hw as [i Hi]. destruct (Forall2_lookup_l _ _ _ _ _ D Hi) as (d & Hd & (_ & _ & _ & _ & _ & K1 & K2 & K3 & K4 & _) & Hp).
      apply elem_of_list_lookup_2 in Hd. exists d. split; [done|]. unfold all_entries in Hp.
      rewrite !elem_of_app in He. destruct He as [He|[He|He]].
      + left. left. apply (dependencies_are _ _ p K1); [|by exists e]. intros e' He'. apply Hp. rewrite !elem_of_app. tauto.
      + left. right. apply (dependencies_are _ _ p K4); [|by exists e]. intros e' He'. apply Hp. rewrite !elem_of_app. tauto.
      + right. apply (dependencies_are _ _ p K2); [|by exists e]. intros e' He'. apply Hp. rewrite !elem_of_app. tauto. }
  destruct (plan_install_spec o cfg nx [] ds installed le Ho Hnx HR nx' ip H (Forall_nil_2 _) Hok) as (deps & _ & K & _).
  split.
  - intros p Hp Hb. apply K. exists p. split; [by apply W|]. split; [done|]. apply rtc_refl.
  - exists deps. intros q. rewrite K. split; intros (p & Hp & R); exists p; (split; [by apply W|done]).
Qed.
Print Assumptions C116_planned_partial.

Definition cmd_description : string := "Package: app" +:+ String lf "Imports: core (>= 1.0)" +:+ String lf "".

Example C116_example : exists nx' ip,
  plan_from_files (fun _ l => l) (PlanConfig [] [] false false false []) tb_repo []
    (fun p => if String.eqb p "DESCRIPTION" then Some cmd_description else None) ["DESCRIPTION"] ∅ true = Some (PIPlan nx' ip) /\
  planned_names ip = ["core"].
Proof. eexists _, _. split; [vm_compute; reflexivity|]. vm_compute. reflexivity. Qed.

Definition cmd_repo : nexus :=
  Nexus [RepoDb [(STSource, {["core" := tb_desc "core" []; "other" := tb_desc "other" []]}); (STBinary, ∅)]
    (RepoURL "https://a.org" "CRAN" "") STSource ""] ∅ STSource.

(** A package in the field Depends is not planned. *)
Theorem C116_depends_refuted : exists nx' ip,
  plan_from_files (fun _ l => l) (PlanConfig [] [] false false false []) cmd_repo []
    (fun p => Some ("Package: app" +:+ String lf "Depends: other" +:+ String lf "Imports: core")) ["DESCRIPTION"] ∅ true = Some (PIPlan nx' ip) /\
  planned ip "core" /\ ~ planned ip "other".
Proof.
  eexists _, _. split; [vm_compute; reflexivity|]. split.
  - left. by left.
  - intros H. vm_compute in H. set_unfold in H. destruct H as [H|H]; [by destruct H|]. destruct H; try done.
Qed.
Print Assumptions C116_depends_refuted.
