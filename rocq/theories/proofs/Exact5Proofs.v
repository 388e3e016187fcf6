(** Lemmas for props/P_Exact5.v. *)
From stdpp Require Import strings list gmap.
From Coq Require Import Ascii ZArith Lia.
From Verif.model Require Import GoStr Version Desc Nexus RepoDb Graph Pacman Plan Fs Env Stamp Clean.
From Verif.spec Require Import StrSpec StampSpec LibSpec EnvSpec CleanSpec Exact4Spec.
From Verif.proofs Require Import GoStrLemmas ControlProofs FetchProofs StampProofs FsProofs EnvProofs CleanProofs PlanProofs PlanProps.

Local Open Scope string_scope.
Local Arguments Ascii.eqb : simpl never.
Local Arguments char_eqb : simpl never.

(** ** C18 *)

Lemma initial_sum b b' : source_type_string b (source_type_sum (initial_types b')) = "source".
Proof. by destruct b, b'. Qed.

(** ** C29 *)

Lemma get_outdated_defined pre l r : get_outdated pre l = Some r ->
  forall dl d, dl ∈ l -> pre !! d_package (dl_package dl) = Some d ->
    compare_version_strings (d_version (dl_package dl)) (d_version d) <> None.
Proof.
  revert r. induction l as [|x l IH]; intros r E dl d Hdl Hd; [by apply elem_of_nil in Hdl|].
  cbn [get_outdated] in E. apply elem_of_cons in Hdl as [->|Hdl].
  - rewrite Hd in E. by destruct (compare_version_strings _ _).
  - destruct (pre !! _) eqn:Ex; [|by eapply IH].
    destruct (compare_version_strings _ _); [|done]. destruct (get_outdated pre l) as [r'|] eqn:El; [|done]. by eapply IH.
Qed.

(** ** C59 *)

Lemma loop_again repo lines : mentions_own repo ->
  stamp_loop repo (stamp_loop repo lines) =
  List.filter (fun l => negb (String.eqb l ("Repository: " +:+ repo))) (stamp_loop repo lines).
Proof.
  intros Hr.
  assert (stamp_line ("Repository: " +:+ repo) = true) as Hs.
  { apply stamp_line_spec in Hr. pose proof (stamp_line_sub "Repository: " repo "" Hr) as H. by rewrite app_nil_str in H. }
  assert (forall x, x ∈ stamp_loop repo lines ->
    if String.eqb x ("Repository: " +:+ repo) then stamp_line x = true
    else stamp_line x = false /\ wrong_repository repo x = false) as Hx.
  { intros x Hx. destruct (String.eqb_spec x ("Repository: " +:+ repo)) as [->|N]; [done|].
    apply loop_in in Hx as [H|(l & _ & Hl & _ & [->| ->])]; [tauto| |done].
    split; [by apply original_clean|done]. }
  induction (stamp_loop repo lines) as [|x l IH]; [done|]. cbn [stamp_loop List.filter].
  pose proof (Hx x ltac:(by left)) as H. rewrite IH by (intros y Hy; apply Hx; by right).
  destruct (String.eqb x _); cbn [negb]; [by rewrite H|]. by destruct H as [-> ->].
Qed.

Lemma loop_own repo version ty url :
  stamp_loop repo ["PkgrVersion: " +:+ version; "PkgrInstallType: " +:+ ty; "PkgrRepositoryURL: " +:+ url] = [].
Proof.
  cbn [stamp_loop].
  rewrite (own_stamp ("PkgrVersion: " +:+ version)) by done.
  rewrite (own_stamp ("PkgrInstallType: " +:+ ty)) by done.
  by rewrite (own_stamp ("PkgrRepositoryURL: " +:+ url)) by done.
Qed.

Lemma stamp_again lines version ty url repo : mentions_own repo ->
  stamp (stamp lines version ty url repo) version ty url repo =
  List.filter (fun l => negb (String.eqb l ("Repository: " +:+ repo))) (stamp lines version ty url repo).
Proof.
  intros Hr. unfold stamp at 1. rewrite stamp_body, loop_app, List.filter_app, loop_own, loop_again by done.
  rewrite app_nil_r. f_equal.
Qed.

(** ** C55, C56 *)

Lemma trim_stripped s t : trim_blank s = t <-> stripped s t.
Proof.
  split.
  - intros <-. destruct (trim_parts is_blank s) as (a & b & E & H1 & H2). exists a, b. split; [done|].
    split; [done|]. split; [done|]. intros r. split; intros Ht.
    + assert (trim_left is_blank (trim_blank s) = trim_blank s) as Hl.
      { unfold trim_blank, trim.
        assert (trim_left is_blank s = "" \/ exists c y, trim_left is_blank s = String c y /\ is_blank c = false) as Hy.
        { clear. induction s as [|c s IH]; [by left|]. cbn [trim_left]. destruct (is_blank c) eqn:E; [done|]. right. by exists c, s. }
        destruct Hy as [->|(c & y & -> & Hc)]; [done|]. cbn [trim_right].
        destruct (trim_right is_blank y); rewrite ?Hc; cbn [trim_left]; by rewrite Hc. }
      rewrite Ht in Hl. change (trim_left is_blank (" " +:+ r)) with (trim_left is_blank r) in Hl.
      destruct (trim_left_parts is_blank r) as (x & Ex & _). apply (f_equal String.length) in Hl. rewrite Ex in Hl at 2.
      change (" " +:+ (x +:+ trim_left is_blank r)) with (String " " (x +:+ trim_left is_blank r)) in Hl.
      cbn [String.length] in Hl. rewrite UrlProofs.append_length in Hl. lia.
    + assert (forall y, trim_right is_blank (trim_right is_blank y) = trim_right is_blank y) as Hi.
      { intros y. destruct (trim_right_parts is_blank y) as (b' & Eb & Hb). rewrite Eb at 2. by rewrite trim_right_app. }
      assert (trim_right is_blank (trim_blank s) = trim_blank s) as Hl by apply Hi.
      rewrite Ht in Hl. rewrite trim_right_app in Hl by done.
      destruct (trim_right_parts is_blank r) as (x & Ex & _). apply (f_equal String.length) in Hl. rewrite Ex in Hl at 2.
      rewrite !UrlProofs.append_length in Hl. cbn [String.length] in Hl. lia.
  - intros (a & b & -> & Ha & Hb & Hu). unfold trim_blank. rewrite trim_pre, trim_post by done. by apply unpadded_trim.
Qed.

(** The value appended for [k] by an entry with a padded name. *)
Definition padded_value (k ev : string) : option string :=
  match split_on_n (char_eqb "=") 2 ev with
  | [n; raw] => if String.eqb raw "" then None else if String.eqb n k then None
                else if String.eqb (trim_blank n) k then Some (trim_blank raw) else None
  | _ => None
  end.

Lemma padded_value_spec k ev w : padded_value k ev = Some w <-> padded_entry k ev w.
Proof.
  unfold padded_value. split.
  - destruct (split_on_n (char_eqb "=") 2 ev) as [|n [|raw [|]]] eqn:E; try done.
    apply split_pair_inv in E as [-> Hn]. destruct (String.eqb_spec raw ""); [done|]. destruct (String.eqb_spec n k); [done|].
    destruct (String.eqb_spec (trim_blank n) k); [|done]. intros [= <-]. exists n, raw. split; [done|]. split; [done|].
    split; [done|]. split; [by apply trim_stripped|]. split; [done|]. by apply trim_stripped.
  - intros (n & raw & -> & Hn & N & Hs & Hr & Hw). rewrite split_pair by done.
    destruct (String.eqb_spec raw ""); [done|]. destruct (String.eqb_spec n k); [done|].
    apply trim_stripped in Hs, Hw. rewrite Hs, Hw. by rewrite String.eqb_refl.
Qed.

Lemma censored_unpadded n : to_upper n ∈ censored -> trim_blank n = n.
Proof.
  intros H. apply unpadded_trim. intros r.
  assert (forall x, x ∈ censored -> without " " x) as Hw.
  { intros x Hx. unfold censored in Hx. repeat (apply elem_of_cons in Hx as [->|Hx]; [done|]). by apply elem_of_nil in Hx. }
  pose proof (Hw _ H) as Hb. assert (forall a b, to_upper (a +:+ b) = to_upper a +:+ to_upper b) as Ha.
  { intros a b. induction a as [|c a IH]; [done|]. change (String c a +:+ b) with (String c (a +:+ b)). cbn [to_upper]. by rewrite IH. }
  unfold without in Hb. split; intros ->; rewrite Ha, all_bytes_app in Hb; apply andb_true_iff in Hb as [H1 H2]; done.
Qed.

(** One variable of the caller. *)
Lemma system_one rpath l ev k : k <> "R_LIBS_USER" -> k <> "R_LIBS_SITE" ->
  (forall n, n ∈ map n_name l -> trim_blank n = n) ->
  match padded_value k ev with
  | Some w => add_system rpath l ev = (l ++ [{| n_name := k; n_value := w |}])%list
  | None => k ∈ map n_name l -> add_system rpath l ev = l \/
      exists p, add_system rpath l ev = (l ++ [p])%list /\ n_name p <> k /\ trim_blank (n_name p) = n_name p
  end.
Proof.
  intros N1 N2 Hl. unfold padded_value, add_system.
  destruct (split_on_n (char_eqb "=") 2 ev) as [|n [|raw [|]]] eqn:E; try (by left).
  destruct (String.eqb_spec raw ""); [by left|].
  assert (forall s, trim_blank (trim_blank s) = trim_blank s) as Hi.
  { intros s. apply unpadded_trim. by destruct (proj1 (trim_stripped s (trim_blank s)) eq_refl) as (_ & _ & _ & _ & _ & Hu). }
  destruct (String.eqb_spec n k) as [->|Nk].
  { intros Hk. destruct (String.eqb k "R_LIBS_USER" || String.eqb k "R_LIBS_SITE"); [by left|].
    destruct (nvp_get l k) eqn:Eg; [by left|]. apply get_none in Eg. done. }
  destruct (String.eqb_spec (trim_blank n) k) as [Et|Et].
  - assert (trim_blank n <> n) as Np by congruence.
    destruct (String.eqb_spec n "R_LIBS_USER") as [->|]; [by destruct Np|].
    destruct (String.eqb_spec n "R_LIBS_SITE") as [->|]; [by destruct Np|]. cbn [orb].
    destruct (nvp_get l n) eqn:Eg; [exfalso; apply Np, Hl; by eapply get_some|].
    rewrite bool_decide_eq_false_2 by (intros H; by apply censored_unpadded in H).
    destruct (String.eqb_spec n "PATH") as [->|]; [by destruct Np|].
    unfold nvp_append. by rewrite Et.
  - intros _. destruct (String.eqb n "R_LIBS_USER" || String.eqb n "R_LIBS_SITE"); [by left|].
    destruct (nvp_get l n); [by left|]. right. eexists. split; [reflexivity|]. cbn [n_name]. split; [done|]. apply Hi.
Qed.

Definition of_name (k : string) (p : nvp) : bool := String.eqb (n_name p) k.

Lemma system_padded rpath k sys : forall l, k <> "R_LIBS_USER" -> k <> "R_LIBS_SITE" ->
  (forall n, n ∈ map n_name l -> trim_blank n = n) -> k ∈ map n_name l ->
  exists e, fold_left (add_system rpath) sys l = (l ++ e)%list /\
    map n_value (List.filter (of_name k) e) = omap (padded_value k) sys.
Proof.
  induction sys as [|ev sys IH]; intros l N1 N2 Hl Hk; cbn [fold_left].
  { exists []. by rewrite app_nil_r. }
  assert (forall p, trim_blank (n_name p) = n_name p -> forall n, n ∈ map n_name (l ++ [p])%list -> trim_blank n = n) as Hl'.
  { intros p Hp n. rewrite map_app, elem_of_app. intros [H|H]; [by apply Hl|]. by apply elem_of_list_singleton in H as ->. }
  pose proof (system_one rpath l ev k N1 N2 Hl) as S. change (omap (padded_value k) (ev :: sys)) with
    (match padded_value k ev with Some y => y :: omap (padded_value k) sys | None => omap (padded_value k) sys end).
  destruct (padded_value k ev) as [w|] eqn:Ew.
  - rewrite S. destruct (IH (l ++ [{| n_name := k; n_value := w |}])%list N1 N2) as (e & E1 & E2).
    + apply Hl'. cbn [n_name]. by apply Hl.
    + rewrite map_app. apply elem_of_app. by left.
    + eexists. split; [rewrite E1, <- app_assoc; reflexivity|]. cbn [app List.filter]. unfold of_name at 1. cbn [n_name].
      rewrite String.eqb_refl. cbn [map n_value]. by rewrite E2.
  - destruct (S Hk) as [->|(p & -> & Hp & Ht)]; [by apply IH|].
    destruct (IH (l ++ [p])%list N1 N2) as (e & E1 & E2); [by apply Hl'|rewrite map_app; apply elem_of_app; by left|].
    eexists. split; [rewrite E1, <- app_assoc; reflexivity|]. cbn [app List.filter]. unfold of_name at 1.
    by destruct (String.eqb_spec (n_name p) k).
Qed.

(** The same for a single entry, whatever is in the list. *)
Lemma system_padded_in rpath k w ev sys l : k <> "R_LIBS_USER" -> k <> "R_LIBS_SITE" ->
  (forall n, n ∈ map n_name l -> trim_blank n = n) -> ev ∈ sys -> padded_entry k ev w ->
  {| n_name := k; n_value := w |} ∈ fold_left (add_system rpath) sys l.
Proof.
  intros N1 N2 Hl Hev Hp. apply elem_of_list_split in Hev as (a & b & ->). rewrite fold_left_app. cbn [fold_left].
  destruct (system_ext rpath a l) as (e & E & He). rewrite E.
  pose proof (system_one rpath (l ++ e)%list ev k N1 N2) as S. rewrite (proj2 (padded_value_spec k ev w) Hp) in S.
  rewrite S.
  - destruct (system_ext rpath b ((l ++ e) ++ [{| n_name := k; n_value := w |}])%list) as (e2 & -> & _).
    apply elem_of_app. left. apply elem_of_app. right. by left.
  - intros n. rewrite map_app, elem_of_app. intros [H|H]; [by apply Hl|].
    apply elem_of_list_fmap in H as (p & -> & H). destruct (He p H) as (k' & v' & _ & _ & _ & _ & _ & _ & -> & _).
    apply unpadded_trim. by destruct (proj1 (trim_stripped k' (trim_blank k')) eq_refl) as (_ & _ & _ & _ & _ & Hu).
Qed.

Lemma settings_trimmed rs : forall n, n ∈ map n_name (add_package (add_globals [] (e_global rs)) (e_package rs)) -> trim_blank n = n.
Proof.
  intros n H. rewrite add_package_eq, map_app, elem_of_app in H.
  assert (forall s, trim_blank (trim_blank s) = trim_blank s) as Hi.
  { intros s. apply unpadded_trim. by destruct (proj1 (trim_stripped s (trim_blank s)) eq_refl) as (_ & _ & _ & _ & _ & Hu). }
  destruct H as [H|H]; apply elem_of_list_fmap in H as (p & -> & H).
  - destruct (globals_ext [] (e_global rs)) as (e & E & He). rewrite E in H. cbn in H.
    destruct (He p H) as (q & _ & ->). apply Hi.
  - apply elem_of_list_fmap in H as (kv & -> & _). apply Hi.
Qed.

Lemma filter_last {A} (P : A -> bool) (l m : list A) x : List.filter P l = (m ++ [x])%list ->
  exists a b, l = (a ++ x :: b)%list /\ P x = true /\ forall y, y ∈ b -> P y = false.
Proof.
  revert m. induction l as [|y l IH]; intros m E; cbn in E; [by destruct m|].
  assert (List.filter P l = [] \/ exists m', List.filter P l = (m' ++ [x])%list) as H.
  { destruct (P y); [|right; by eexists]. destruct m as [|z m]; injection E as E1 E2; [by left|]. right. by eexists. }
  destruct H as [H|(m' & H)].
  - destruct (P y) eqn:Ey; [|rewrite E in H; by destruct m]. rewrite H in E. destruct m as [|z m]; [|destruct m; discriminate E].
    injection E as ->. exists [], l. split; [done|]. split; [done|]. intros z Hz.
    destruct (P z) eqn:Ez; [|done]. exfalso.
    assert (z ∈ List.filter P l) as Hf; [|rewrite H in Hf; by apply elem_of_nil in Hf].
    apply elem_of_list_In, filter_In. by rewrite <- elem_of_list_In.
  - destruct (IH m' H) as (a & b & -> & Hx & Hb). by exists (y :: a), b.
Qed.

Lemma package_exact sys rs tmpdir k v :
  (forall kv, kv ∈ e_package rs -> var_name kv.1) -> NoDup (map fst (e_package rs)) ->
  (k, v) ∈ e_package rs -> k <> "R_LIBS_USER" -> k <> "R_LIBS_SITE" -> unpadded v ->
  ((forall ev w, ev ∈ sys -> ~ padded_entry k ev w) -> env_value (configure_env sys rs tmpdir) k v) /\
  (forall w, last_padded sys k w -> env_value (configure_env sys rs tmpdir) k w).
Proof.
  intros Hv Hd Hk N1 N2 Hu. unfold configure_env. rewrite env_list_eq.
  assert (var_name k) as [Huk Hwk] by (apply (Hv (k, v)); done).
  destruct (system_padded (e_rpath rs) k sys (add_package (add_globals [] (e_global rs)) (e_package rs)) N1 N2)
    as (e & E1 & E2).
  { apply settings_trimmed. }
  { rewrite add_package_eq, map_app, elem_of_app. right. apply elem_of_list_fmap. exists (as_nvp (k, v)).
    split; [unfold as_nvp; cbn [n_name fst]; by rewrite unpadded_trim|]. by apply elem_of_list_fmap_1. }
  assert (forall p, p ∈ e -> without "=" (n_name p)) as Hwe.
  { destruct (system_ext (e_rpath rs) sys (add_package (add_globals [] (e_global rs)) (e_package rs))) as (e' & E' & He).
    rewrite E1 in E'. apply app_inv_head in E' as <-. intros p Hp.
    destruct (He p Hp) as (k' & v' & _ & Hw' & _ & _ & _ & _ & -> & _). by apply trim_without. }
  rewrite E1. clear E1. split.
  - intros Hn. assert (forall p, p ∈ e -> n_name p <> k) as He.
    { intros p Hp En. assert (n_value p ∈ omap (padded_value k) sys) as H.
      { rewrite <- E2. apply elem_of_list_fmap_1, elem_of_list_In, filter_In. rewrite <- elem_of_list_In.
        split; [done|]. unfold of_name. by rewrite En, String.eqb_refl. }
      apply elem_of_list_omap in H as (ev & Hev & H). apply padded_value_spec in H. by apply (Hn ev (n_value p)). }
    rewrite add_package_eq in *. set (g := add_globals [] (e_global rs)) in *.
    apply elem_of_list_split in Hk as (m1 & m2 & Em). rewrite Em in *.
    exists (map nvp_string (g ++ map as_nvp m1)%list), (map nvp_string (map as_nvp m2 ++ e ++ libs_part rs tmpdir)%list).
    split.
    + rewrite !map_app. cbn [map].
      assert (nvp_string (as_nvp (k, v)) = k +:+ "=" +:+ v) as ->.
      { unfold nvp_string, as_nvp. cbn [fst snd n_name n_value].
        by rewrite (unpadded_trim k Huk), (unpadded_trim v Hu). }
      rewrite <- !app_assoc. done.
    + intros w H. apply elem_of_list_fmap in H as (p & E & H). unfold nvp_string in E.
      rewrite !elem_of_app in H. destruct H as [H|[H|H]].
      * apply elem_of_list_fmap in H as (kv & -> & Hkv).
        assert (var_name kv.1) as [Hu' Hw'] by (apply Hv; set_solver).
        simpl in E. rewrite (unpadded_trim _ Hu') in E. destruct (eq_split _ _ _ _ Hwk Hw' E) as [-> _].
        rewrite map_app in Hd. apply NoDup_app in Hd as (_ & _ & Hd). simpl in Hd.
        inversion Hd as [|? ? Hni _]; subst. apply Hni. by apply elem_of_list_fmap_1.
      * destruct (eq_split _ _ _ _ Hwk (Hwe _ H) E) as [En _]. by apply (He p).
      * destruct (eq_split _ _ _ _ Hwk (libs_without _ _ _ H) E). destruct (libs_names _ _ _ H); congruence.
  - intros w (l1 & ev & l2 & -> & Hp & Hl2). apply padded_value_spec in Hp.
    assert (omap (padded_value k) l2 = []) as El2.
    { destruct (omap (padded_value k) l2) as [|x m] eqn:E; [done|]. exfalso.
      assert (x ∈ omap (padded_value k) l2) as Hx by (rewrite E; by left).
      apply elem_of_list_omap in Hx as (ev' & H1 & H2). apply padded_value_spec in H2. by apply (Hl2 ev' x). }
    rewrite omap_app in E2. change (omap (padded_value k) (ev :: l2)) with
      (match padded_value k ev with Some y => y :: omap (padded_value k) l2 | None => omap (padded_value k) l2 end) in E2.
    rewrite Hp, El2 in E2.
    assert (exists m x, List.filter (of_name k) e = (m ++ [x])%list) as (m & x & Ef).
    { destruct (List.filter (of_name k) e) as [|x m _] using rev_ind; [by destruct (omap (padded_value k) l1)|by eexists _, _]. }
    rewrite Ef in E2.
    rewrite map_app in E2. apply app_inj_tail in E2 as [_ Ew].
    apply filter_last in Ef as (a & b & -> & Hx & Hb). unfold of_name in Hx. apply String.eqb_eq in Hx.
    set (L := add_package _ _).
    exists (map nvp_string (L ++ a)%list), (map nvp_string (b ++ libs_part rs tmpdir)%list). split.
    + rewrite !map_app. cbn [map]. rewrite <- !app_assoc. do 2 f_equal. cbn [app]. f_equal.
      unfold nvp_string. by rewrite Hx, Ew.
    + intros w' H. apply elem_of_list_fmap in H as (p & E & H). unfold nvp_string in E. apply elem_of_app in H as [H|H].
      * destruct (eq_split _ _ _ _ Hwk (Hwe p ltac:(set_solver)) E) as [En _]. pose proof (Hb p H) as Hf.
        unfold of_name in Hf. by rewrite <- En, String.eqb_refl in Hf.
      * destruct (eq_split _ _ _ _ Hwk (libs_without _ _ _ H) E). destruct (libs_names _ _ _ H); congruence.
Qed.

Lemma secrets_exact sys rs tmpdir name w : var_name name -> sensitive name ->
  (forall p, p ∈ e_global rs -> var_name (n_name p) /\ n_name p <> name) ->
  (forall kv, kv ∈ e_package rs -> var_name kv.1 /\ kv.1 <> name) -> w <> "**HIDDEN**" ->
  (name +:+ "=" +:+ w) ∈ configure_env sys rs tmpdir <-> exists ev, ev ∈ sys /\ padded_entry name ev w.
Proof.
  intros [Hu Hw] Hs Hg Hk Nw. apply sensitive_censored in Hs.
  assert (name <> "R_LIBS_USER") as N1 by (intros ->; vm_compute in Hs; set_solver).
  assert (name <> "R_LIBS_SITE") as N2 by (intros ->; vm_compute in Hs; set_solver).
  unfold configure_env. rewrite env_list_eq. split.
  - intros H. apply elem_of_list_fmap in H as (p & E & H). unfold nvp_string in E.
    destruct (system_ext (e_rpath rs) sys (add_package (add_globals [] (e_global rs)) (e_package rs))) as (e & E1 & E2).
    rewrite E1, add_package_eq, !elem_of_app in H. destruct H as [[[H|H]|H]|H].
    + destruct (globals_ext [] (e_global rs)) as (e' & E' & He). rewrite E' in H. cbn in H.
      destruct (He p H) as (q & Hq & En). destruct (Hg q Hq) as [[Hqu Hqw] Hqn]. rewrite En, unpadded_trim in E by done.
      by destruct (eq_split _ _ _ _ Hw Hqw E).
    + apply elem_of_list_fmap in H as (kv & -> & Hkv). destruct (Hk kv Hkv) as [[Hqu Hqw] Hqn].
      cbn [as_nvp n_name] in E. rewrite (unpadded_trim _ Hqu) in E. by destruct (eq_split _ _ _ _ Hw Hqw E).
    + destruct (E2 p H) as (k & v & Hin & Hwk & Hv & _ & _ & _ & En & Ev).
      rewrite En in E. destruct (eq_split _ _ _ _ Hw (trim_without _ _ Hwk) E) as [Et Ew]. subst w.
      assert (k <> name) as Nk.
      { intros ->. rewrite bool_decide_eq_true_2 in Ev by done. by rewrite Ev in Nw. }
      assert (trim_blank k <> k) as Np by congruence.
      rewrite bool_decide_eq_false_2 in Ev by (intros H'; by apply censored_unpadded in H').
      destruct (String.eqb_spec k "PATH") as [->|]; [by destruct Np|].
      exists (k +:+ "=" +:+ v). split; [done|]. exists k, v. split; [done|]. split; [done|]. split; [done|].
      split; [by apply trim_stripped|]. split; [done|]. by apply trim_stripped.
    + destruct (eq_split _ _ _ _ Hw (libs_without _ _ _ H) E). destruct (libs_names _ _ _ H); congruence.
  - intros (ev & Hev & Hp). apply elem_of_list_fmap. exists {| n_name := name; n_value := w |}. split; [done|].
    apply elem_of_app. left. eapply system_padded_in; try done. apply settings_trimmed.
Qed.

(** ** C66 *)

(** What one pass takes away. *)
Definition gone (cache : list string) (sub : string) (P : string -> Prop) (f : fsys) (q : list string) : Prop :=
  exists x, P x /\ (in_dir (cache ++ [x; sub])%list q \/
    (q = (cache ++ [x])%list /\ f q = Some Dir /\ forall y, f (cache ++ [x; y])%list <> None -> y = sub)).

Definition takes (cache : list string) (sub : string) (P : string -> Prop) (f f' : fsys) : Prop :=
  forall q, (f' q = None /\ (f q = None \/ gone cache sub P f q)) \/ (f' q = f q /\ ~ gone cache sub P f q).

Lemma folder_not_below c x y sub : ~ in_dir (c ++ [x; sub])%list (c ++ [y])%list.
Proof. intros [s E]. rewrite <- app_assoc in E. apply app_inv_head in E. discriminate E. Qed.

Lemma sub_below c x y sub z : in_dir (c ++ [x; sub])%list (c ++ [y; z])%list -> x = y /\ sub = z.
Proof. intros [s E]. rewrite <- app_assoc in E. apply app_inv_head in E. by injection E as -> -> _. Qed.

Lemma two_not_folder (c : list string) x y z : (c ++ [x; y])%list <> (c ++ [z])%list.
Proof. intros E. apply app_inv_head in E. discriminate E. Qed.

Lemma clean_one_takes cache sub x f f' : tree_ok f -> clean_one cache sub x f f' -> takes cache sub (eq x) f f'.
Proof.
  intros T H q. pose proof (remove_tree (cache ++ [x; sub]) f T) as T1.
  assert (remove_all (cache ++ [x; sub]) f (cache ++ [x])%list = f (cache ++ [x])%list) as Ef.
  { apply remove_other, folder_not_below. }
  destruct H as [[He ->]|[He ->]].
  - assert (f (cache ++ [x])%list = Some Dir /\ forall y, f (cache ++ [x; y])%list <> None -> y = sub) as [D1 D2].
    { destruct He as [H1 H2]. split; [by rewrite <- Ef|]. intros y Hy. specialize (H2 y). rewrite <- app_assoc in H2. cbn [app] in H2.
      destruct (remove_cases (cache ++ [x; sub]) f (cache ++ [x; y])%list) as [[Hi _]|[_ E]]; [by apply sub_below in Hi as [_ ->]|congruence]. }
    destruct (remove_cases (cache ++ [x]) (remove_all (cache ++ [x; sub]) f) q) as [[[s ->] E]|[N E]].
    + left. split; [done|]. destruct s as [|y s].
      * right. exists x. split; [done|]. right. by rewrite app_nil_r.
      * destruct (remove_cases (cache ++ [x; sub]) f ((cache ++ [x]) ++ y :: s)%list) as [[Hi _]|[_ E2]].
        -- right. exists x. split; [done|]. by left.
        -- left. rewrite <- E2. by apply empty_below.
    + right. rewrite E. assert (~ in_dir (cache ++ [x; sub])%list q) as N2.
      { intros [s ->]. apply N. exists (sub :: s). by rewrite <- !app_assoc. }
      rewrite remove_other by done. split; [done|]. intros (z & <- & [C|[-> _]]); [done|]. apply N. exists []. by rewrite app_nil_r.
  - destruct (remove_cases (cache ++ [x; sub]) f q) as [[Hi E2]|[N E2]].
    + left. split; [done|]. right. exists x. split; [done|]. by left.
    + right. split; [done|]. intros (z & <- & [C|(-> & D1 & D2)]); [done|]. apply He. split; [by rewrite Ef|].
      intros y. rewrite <- app_assoc. cbn [app].
      destruct (remove_cases (cache ++ [x; sub]) f (cache ++ [x; y])%list) as [[_ E]|[N3 E]]; [done|]. rewrite E.
      destruct (f (cache ++ [x; y])%list) eqn:Ey; [|done]. exfalso. apply N3. rewrite (D2 y) by congruence.
      exists []. by rewrite app_nil_r.
Qed.

Lemma takes_none cache sub P f f' q : takes cache sub P f f' -> f q = None -> f' q = None.
Proof. intros H E. destruct (H q) as [[? _]|[? _]]; congruence. Qed.

Lemma takes_gone cache sub P f f' q : takes cache sub P f f' -> gone cache sub P f q -> f' q = None.
Proof. intros H E. by destruct (H q) as [[? _]|[_ ?]]. Qed.

Lemma takes_some cache sub P f f' q : takes cache sub P f f' -> f' q <> None -> f' q = f q /\ ~ gone cache sub P f q.
Proof. intros H E. by destruct (H q) as [[? _]|?]. Qed.

Lemma clean_list_takes cache sub xs : forall f f', tree_ok f -> clean_list cache sub xs f f' ->
  takes cache sub (fun x => x ∈ xs) f f'.
Proof.
  induction xs as [|y xs IH]; intros f f' T H.
  { cbn in H. subst f'. intros q. right. split; [done|]. intros (x & Hx & _). by apply elem_of_nil in Hx. }
  destruct H as (f1 & H1 & H2). destruct (clean_one_pass _ _ _ _ _ T H1) as [[T1 _] _].
  apply clean_one_takes in H1; [|done]. apply IH in H2; [|done].
  assert (forall q, gone cache sub (fun x => x ∈ xs) f1 q -> f q = None \/ gone cache sub (fun x => x ∈ y :: xs) f q) as G1.
  { intros q (x & Hx & [C|(-> & D1 & D2)]).
    - right. exists x. split; [by right|by left].
    - right. exists x. split; [by right|]. right. split; [done|].
      destruct (takes_some _ _ _ _ _ (cache ++ [x])%list H1) as [E _]; [by rewrite D1|]. rewrite <- E. split; [done|].
      intros z Hz. destruct (H1 (cache ++ [x; z])%list) as [[_ [E2|(v & <- & [C|(C & _)])]]|[E2 _]]; [done|by apply sub_below in C as [_ ->]|
        by apply two_not_folder in C|]. apply D2. by rewrite E2. }
  assert (forall q, gone cache sub (eq y) f q -> gone cache sub (fun x => x ∈ y :: xs) f q) as G2.
  { intros q (x & <- & C). exists y. split; [by left|done]. }
  assert (forall q, f1 q = f q -> ~ gone cache sub (eq y) f q -> gone cache sub (fun x => x ∈ y :: xs) f q ->
    gone cache sub (fun x => x ∈ xs) f1 q) as G3.
  { intros q Eq N (x & Hx & C). apply elem_of_cons in Hx as [->|Hx]; [destruct N; by exists y|].
    exists x. split; [done|]. destruct C as [C|(-> & D1 & D2)]; [by left|]. right. split; [done|]. split; [by rewrite Eq|].
    intros z Hz. apply D2. destruct (takes_some _ _ _ _ _ _ H1 Hz) as [E _]. by rewrite <- E. }
  intros q. destruct (H2 q) as [[E [C|C]]|[E C]].
  - left. split; [done|]. destruct (H1 q) as [[_ [D|D]]|[D _]]; [by left|right; by apply G2|left; by rewrite <- D].
  - left. split; [done|]. by apply G1.
  - destruct (H1 q) as [[D1 [D|D]]|[D N]].
    + left. split; [congruence|by left].
    + left. split; [congruence|]. right. by apply G2.
    + right. split; [congruence|]. intros G. by apply C, G3.
Qed.

Lemma delete_sub_takes cache repos sub f f' b : tree_ok f -> delete_sub cache repos sub f (Cleaned f' b) ->
  takes cache sub (wanted_folder repos) f f'.
Proof.
  intros T H. unfold delete_sub in H.
  assert (forall q, f q <> None -> gone cache sub (wanted_folder repos) f q ->
    exists x, wanted_folder repos x /\ f (cache ++ [x])%list = Some Dir /\ (in_dir (cache ++ [x; sub])%list q \/
    (q = (cache ++ [x])%list /\ f q = Some Dir /\ forall y, f (cache ++ [x; y])%list <> None -> y = sub))) as G.
  { intros q Hq (x & Hx & C). exists x. split; [done|]. split; [|done]. destruct C as [[s ->]|(-> & D & _)]; [|done].
    destruct (decide (f (cache ++ [x])%list = Some Dir)) as [|N]; [done|]. destruct Hq.
    replace ((cache ++ [x; sub]) ++ s)%list with ((cache ++ [x]) ++ sub :: s)%list by (by rewrite <- !app_assoc).
    by apply tree_below. }
  destruct (f cache) as [[]|] eqn:Ec; [| |discriminate].
  - injection H as -> _. intros q. destruct (f q) eqn:Eq; [right|left; split; [done|by left]]. split; [done|]. intros Hg.
    destruct (G q) as (x & _ & D & _); [congruence|done|]. rewrite (tree_below f cache [x] T) in D; congruence.
  - destruct H as (names & f1 & Hn & Hl & E). injection E as <- _. apply clean_list_takes in Hl; [|done].
    intros q. destruct (Hl q) as [[E1 [C|(x & Hx & C)]]|[E1 C]].
    + left. split; [done|by left].
    + left. split; [done|]. right. exists x. split; [by apply targets_spec in Hx as [Hx _]|done].
    + destruct (f q) eqn:Eq; [right|left; split; [done|by left]]. split; [done|]. intros Hg.
      destruct (G q) as (x & Hx & D & C2); [congruence|done|]. apply C. exists x. split; [|done].
      apply targets_spec. split; [done|]. by apply Hn.
Qed.

(** What the passes take away together. *)
Lemma folders_takes c d f f1 b : tree_ok f -> cc_src_only c && cc_binaries_only c = false ->
  (if negb (cc_src_only c) && negb (cc_binaries_only c) then delete_both d (repos_to_clear (cc_repos c)) f (Cleaned f1 b)
   else if cc_src_only c then delete_sub d (repos_to_clear (cc_repos c)) "src" f (Cleaned f1 b)
   else delete_sub d (repos_to_clear (cc_repos c)) "binary" f (Cleaned f1 b)) ->
  forall q, (f1 q = None /\ (f q = None \/ chosen c d q \/ left_empty c d f q)) \/
    (f1 q = f q /\ ~ chosen c d q /\ ~ left_empty c d f q).
Proof.
  intros T Hb.
  assert (forall sub f1 b, (forall s, chosen_sub c s <-> s = sub) ->
    delete_sub d (repos_to_clear (cc_repos c)) sub f (Cleaned f1 b) ->
    forall q, (f1 q = None /\ (f q = None \/ chosen c d q \/ left_empty c d f q)) \/
    (f1 q = f q /\ ~ chosen c d q /\ ~ left_empty c d f q)) as One.
  { intros sub g b' Hs H. apply delete_sub_takes in H; [|done]. intros q.
    destruct (H q) as [[E [C|(x & Hx & C)]]|[E C]].
    - left. split; [done|by left].
    - left. split; [done|]. right. apply chosen_wanted in Hx. destruct C as [C|(-> & D1 & D2)].
      + left. exists x, sub. split; [done|]. split; [by apply Hs|done].
      + right. exists x. split; [done|]. split; [done|]. split; [done|]. intros y Hy. apply Hs. by apply D2.
    - right. split; [done|]. split.
      + intros (x & s & Hx & Hs' & Hi). apply Hs in Hs' as ->. apply C. exists x. split; [by apply chosen_wanted|by left].
      + intros (x & Hx & -> & D1 & D2). apply C. exists x. split; [by apply chosen_wanted|]. right.
        split; [done|]. split; [done|]. intros y Hy. apply Hs. by apply D2. }
  destruct (cc_src_only c) eqn:Es, (cc_binaries_only c) eqn:Eb; try discriminate; cbn [negb andb].
  - apply (One "src"). intros s. unfold chosen_sub. rewrite Es, Eb. split; [intros [[? _]|[_ ?]]; done|by left].
  - apply (One "binary"). intros s. unfold chosen_sub. rewrite Es, Eb. split; [intros [[_ ?]|[? _]]; done|by right].
  - clear One. intros (r1 & H1 & H2). destruct r1 as [|f0 [|]]; [done| |].
    { apply delete_sub_pass in H1 as [? _]; done. }
    pose proof H1 as H1'. apply delete_sub_pass in H1' as (_ & [T0 _] & _); [|done].
    apply delete_sub_takes in H1; [|done]. apply delete_sub_takes in H2; [|done].
    assert (forall s, chosen_sub c s <-> s = "src" \/ s = "binary") as Hs.
    { intros s. unfold chosen_sub. rewrite Es, Eb. split; [intros [[? _]|[? _]]; tauto|intros [?|?]; tauto]. }
    intros q. destruct (H2 q) as [[E [C|(x & Hx & C)]]|[E C]].
    + left. split; [done|]. destruct (H1 q) as [[_ [D|(x & Hx & D)]]|[D _]]; [by left| |left; congruence]. right.
      apply chosen_wanted in Hx. destruct D as [D|(-> & D1 & D2)].
      * left. exists x, "src". split; [done|]. split; [apply Hs; by left|done].
      * right. exists x. split; [done|]. split; [done|]. split; [done|]. intros y Hy. apply Hs. left. by apply D2.
    + left. split; [done|]. right. apply chosen_wanted in Hx. destruct C as [C|(-> & D1 & D2)].
      * left. exists x, "binary". split; [done|]. split; [apply Hs; by right|done].
      * right. exists x. split; [done|]. split; [done|].
        destruct (takes_some _ _ _ _ _ (d ++ [x])%list H1) as [E0 _]; [by rewrite D1|]. rewrite <- E0. split; [done|].
        intros y Hy. apply Hs. destruct (H1 (d ++ [x; y])%list) as [[_ [D|(z & _ & [D|(D & _)])]]|[D _]].
        -- done.
        -- apply sub_below in D as [_ <-]. by left.
        -- by apply two_not_folder in D.
        -- right. apply D2. by rewrite D.
    + destruct (H1 q) as [[D1 [D|(x & Hx & D)]]|[D N]].
      * left. split; [congruence|by left].
      * left. split; [congruence|]. right. apply chosen_wanted in Hx. destruct D as [D|(-> & D2 & D3)].
        -- left. exists x, "src". split; [done|]. split; [apply Hs; by left|done].
        -- right. exists x. split; [done|]. split; [done|]. split; [done|]. intros y Hy. apply Hs. left. by apply D3.
      * right. split; [congruence|]. split.
        -- intros (x & s & Hx & Hs' & Hi). apply chosen_wanted in Hx. apply Hs in Hs' as [-> | ->]; [apply N|apply C]; exists x; (split; [done|by left]).
        -- intros (x & Hx & -> & D1 & D2). apply chosen_wanted in Hx. apply C. exists x. split; [done|]. right.
           split; [done|]. split; [congruence|]. intros y Hy.
           destruct (takes_some _ _ _ _ _ _ H1 Hy) as [E0 N0]. rewrite E0 in Hy. apply D2, Hs in Hy as [-> | ->]; [|done].
           exfalso. apply N0. exists x. split; [done|]. left. exists []. by rewrite app_nil_r.
Qed.

Lemma clean_exact c d f r : cache_of c d -> tree_ok f -> clean_cache c f r ->
  (cc_src_only c = true -> cc_binaries_only c = true -> r = Cleaned f true) /\
  (cc_src_only c && cc_binaries_only c = false ->
    (f d = None -> r = Panics) /\
    (f d <> None -> exists f', r = Cleaned f' false /\
       forall q, (f' q = None \/ f' q = f q) /\ (f' q = None <-> f q = None \/ swept c d f q))).
Proof.
  intros Hd T H. split.
  { intros H1 H2. unfold clean_cache in H. by rewrite H1, H2 in H. }
  intros Hb. split; [intros Hn; by eapply missing_cache|]. intros Hn.
  unfold clean_cache in H. rewrite (cache_of_spec c d Hd), Hb in H. destruct H as (r1 & H1 & H2).
  assert (forall repos sub g r, g d <> None -> delete_sub d repos sub g r -> exists g', r = Cleaned g' false) as Hc.
  { intros repos sub g r' Hg Hr. unfold delete_sub in Hr. destruct (g d) as [[]|]; [by eexists| |done].
    destruct Hr as (names & g' & _ & _ & ->). by eexists. }
  assert (exists f1, r1 = Cleaned f1 false) as [f1 ->].
  { destruct (negb _ && negb _); [|destruct (cc_src_only c); by eapply Hc].
    destruct H1 as (r2 & H1 & H3). destruct (Hc _ _ _ _ Hn H1) as [g ->].
    eapply Hc; [|exact H3]. apply delete_sub_takes in H1; [|done].
    destruct (H1 d) as [[_ [D|(x & _ & D)]]|[D _]]; [done| |by rewrite D]. exfalso.
    destruct D as [[s E]|(E & _)]; [rewrite <- app_assoc in E|]; rewrite <- (app_nil_r d) in E at 1;
      apply app_inv_head in E; discriminate E. }
  cbn in H2. subst r. exists (clean_tarballs c f1). split; [done|]. intros q.
  pose proof (folders_takes c d f f1 false T Hb H1 q) as F.
  destruct (tarballs_spec c (cc_hashes c) f1 q) as [A B]. unfold clean_tarballs in *. unfold swept.
  destruct A as [A|(A & h & Hh & Hi)].
  - rewrite A. destruct F as [[F1 F2]|(F1 & F2 & F3)].
    + split; [by left|]. split; [tauto|done].
    + split; [by right|]. rewrite F1. split; [by left|]. intros [?|[?|[?|(h & Hh & Hi)]]]; [done..|].
      rewrite <- F1, <- A. by apply (B h).
  - rewrite A. split; [by left|]. split; [|done]. intros _. right. right. right. by exists h.
Qed.
