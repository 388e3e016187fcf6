(** C154: customizations of packages as they are written in the configuration. *)
From stdpp Require Import strings list gmap.
From Coq Require Import Ascii ZArith.
From Verif.model Require Import GoStr Version Desc Nexus Pacman Graph Plan Urls Customs.
From Verif.spec Require Import RepoSpec GraphSpec PlanSpec CustomsSpec.
From Verif.proofs Require Import SettingsProofs CustomsProofs.
From Verif.props Require Import P_Graph.

Local Open Scope string_scope.

(** * C154 *)

(** If every element is a map and every package has a map of settings, what is written is
    applied as the claims about decoded customizations (C13, C30, C73) say. *)
Theorem C154_same sug pkgs l cfg nx : all_maps l ->
  plan_customizations sug pkgs (PSeq l) cfg nx =
    match mapM decode_element l with
    | None => CFatal
    | Some cs => match set_plan_customizations sug pkgs cs cfg nx with None => CFatal | Some st => CDone st end
    end.
Proof.
  intros A. unfold plan_customizations, set_plan_customizations. cbn [decode_packages].
  destruct (mapM decode_element l) as [[|m cs]|] eqn:D; [done| |done]. by apply apply_all_same.
Qed.

(** The settings are those that are written, if each package is written once and the keys are
    those of the documentation. *)
Theorem C154_suggests sug pkgs l nr nx cfg' nx' : all_maps l -> documented_keys l -> once l ->
  plan_customizations sug pkgs (PSeq l) (default_config nr) nx = CDone (cfg', nx') -> forall p,
    (forall v w b, writes l p v -> value_of v "Suggests" w -> reads_bool w b -> pd_suggests (settings_for cfg' p) = b) /\
    ((forall v w, writes l p v -> ~ value_of v "Suggests" w) -> (pd_suggests (settings_for cfg' p) = true <-> sug = true /\ p ∈ pkgs)).
Proof.
  intros A K O E p. rewrite C154_same in E by done. destruct (mapM decode_element l) as [cs|] eqn:D; [|done].
  destruct (set_plan_customizations sug pkgs cs (default_config nr) nx) as [st|] eqn:Es; [|done]. injection E as ->.
  assert (customs_distinct cs) as CD by (unfold customs_distinct; rewrite (decoded_names l cs D); exact O).
  destruct (C30_suggests_partial sug pkgs cs nr nx cfg' nx' CD Es p) as [H1 H2]. split.
  - intros v w b W (k & -> & Hk) Hw. apply H1. destruct (decoded_in l cs p (VMap k) D W) as (c & Ec & Hc).
    apply setting_concat. exists c. split; [done|]. destruct (K p k W) as [ND _]. cbn [decode_package] in Ec.
    rewrite (field_once "Suggests" k w ND Hk) in Ec. rewrite (proj1 (weak_bool_spec w b) Hw) in Ec.
    destruct (weak_text (field "Repo" k)); [|done]. destruct (weak_text _); [|done]. injection Ec as <-.
    split; [|done]. cbn [cu_keys]. by apply (elem_of_list_fmap_1 fst k ("Suggests", w)).
  - intros N. apply H2. intros b Hb. apply setting_concat in Hb as (c & Hc & Hk & _).
    destruct (decoded_out l cs p c D Hc) as (v & Ev & W). destruct v as [|k|]; [|clear H1 H2|done].
    + injection Ev as <-. cbn [cu_keys] in Hk. by apply elem_of_nil in Hk.
    + cbn [decode_package] in Ev. destruct (weak_bool _); [|done]. destruct (weak_text (field "Repo" k)); [|done].
      destruct (weak_text _); [|done]. injection Ev as <-. cbn [cu_keys] in Hk.
      apply (proj1 (elem_of_list_fmap fst k "Suggests")) in Hk as ([x w] & Hx & Hk). cbn [fst] in Hx. subst x.
      apply (N (VMap k) w W). by exists k.
Qed.

(** A repository or a type that is written is the one that is used, and for packages that are
    not written nothing changes. *)
Theorem C154_pins sug pkgs l nr nx cfg' nx' : all_maps l -> documented_keys l -> once l ->
  plan_customizations sug pkgs (PSeq l) (default_config nr) nx = CDone (cfg', nx') ->
  (forall p v repo, writes l p v -> value_of v "Repo" (WText repo) -> repo <> "" ->
     forall d c, get_package nx' p = Some (d, c) -> ru_name (pc_repo c) = repo) /\
  (forall p v t, writes l p v -> value_of v "Type" (WText t) ->
     exists st, set_type t = Some st /\ forall d c, get_package nx' p = Some (d, c) -> pc_type c = st) /\
  (forall p, (forall v, ~ writes l p v) -> get_package nx' p = get_package nx p).
Proof.
  intros A K O E. rewrite C154_same in E by done. destruct (mapM decode_element l) as [cs|] eqn:D; [|done].
  destruct (set_plan_customizations sug pkgs cs (default_config nr) nx) as [st|] eqn:Es; [|done]. injection E as ->.
  assert (customs_distinct cs) as CD by (unfold customs_distinct; rewrite (decoded_names l cs D); exact O).
  destruct (C73_pins sug pkgs cs nr nx cfg' nx' CD Es) as (H1 & H2 & H3). split; [|split].
  - intros p v repo W (k & -> & Hk). apply (H1 p repo). destruct (decoded_in l cs p (VMap k) D W) as (c & Ec & Hc).
    apply setting_concat. exists c. split; [done|]. destruct (K p k W) as [ND _]. cbn [decode_package] in Ec.
    rewrite (field_once "Repo" k (WText repo) ND Hk) in Ec. cbn [weak_text] in Ec.
    destruct (weak_bool _); [|done]. destruct (weak_text _); [|done]. injection Ec as <-.
    split; [|done]. cbn [cu_keys]. by apply (elem_of_list_fmap_1 fst k ("Repo", WText repo)).
  - intros p v t W (k & -> & Hk). apply (H2 p t). destruct (decoded_in l cs p (VMap k) D W) as (c & Ec & Hc).
    apply setting_concat. exists c. split; [done|]. destruct (K p k W) as [ND _]. cbn [decode_package] in Ec.
    rewrite (field_once "Type" k (WText t) ND Hk) in Ec. cbn [weak_text] in Ec.
    destruct (weak_bool _); [|done]. destruct (weak_text _); [|done]. injection Ec as <-.
    split; [|done]. cbn [cu_keys]. by apply (elem_of_list_fmap_1 fst k ("Type", WText t)).
  - intros p N. apply H3. intros H. apply elem_of_list_fmap in H as ([q c] & -> & Hc).
    destruct (decoded_out l cs q c D Hc) as (v & _ & W). by apply (N v).
Qed.

(** The configuration can be read if and only if no value is unusable. *)
Theorem C154_read l : all_maps l -> documented_keys l ->
  (mapM decode_element l = None <-> exists p v, writes l p v /\ unusable v).
Proof.
  intros A K. split.
  - intros D. destruct (decode_all_none l A D) as (p & v & W & Dv). exists p, v. split; [done|].
    pose proof W as (m & Hm & Hp). destruct (A _ Hm) as (m' & [= <-] & _ & V). destruct (V p v Hp) as (k & ->).
    destruct (K p k W) as [ND Kk]. by apply decode_package_none.
  - intros (p & v & W & U). destruct (mapM decode_element l) as [cs|] eqn:D; [|done].
    destruct (decoded_in l cs p v D W) as (c & Ec & _).
    pose proof W as (m & Hm & Hp). destruct (A _ Hm) as (m' & [= <-] & _ & V). destruct (V p v Hp) as (k & ->).
    destruct (K p k W) as [ND Kk]. apply (decode_package_none k ND Kk) in U. congruence.
Qed.

(** A package without settings ends every command that plans: no other entry can help. *)
Theorem C154_null sug pkgs l cfg nx p : go_maps l -> writes l p VNull ->
  forall st, plan_customizations sug pkgs (PSeq l) cfg nx <> CDone st.
Proof.
  intros G W st E. destruct (plan_reaches _ _ _ _ _ _ _ _ E W) as (c & Ec & _ & H). injection Ec as <-.
  destruct (H (is_set_null "Type" l p G W)) as (x & Hx). vm_compute in Hx. discriminate.
Qed.

(** A package with something else than a map is a fatal error. *)
Theorem C154_other sug pkgs l cfg nx p : writes l p VOther -> plan_customizations sug pkgs (PSeq l) cfg nx = CFatal.
Proof.
  intros W. unfold plan_customizations. cbn [decode_packages]. destruct (mapM decode_element l) as [cs|] eqn:D; [|done].
  destruct (decoded_in l cs p VOther D W) as (c & ? & _). done.
Qed.

(** A map instead of a list ends every command that plans, as soon as it has a value. *)
Theorem C154_map sug pkgs l cfg nx p v key w : (p, v) ∈ l -> value_of v key w -> w <> WNull ->
  forall st, plan_customizations sug pkgs (PMap l) cfg nx <> CDone st.
Proof.
  intros H (k0 & Ev & Hk) Hw st.
  assert (has_leaf v = true) as L.
  { rewrite Ev. apply existsb_exists. exists (key, w). split; [by apply elem_of_list_In|]. by destruct w. }
  unfold plan_customizations. cbn [decode_packages].
  destruct (List.filter (fun kv => has_leaf kv.2) l) as [|kv k] eqn:F.
  - assert (In (p, v) (List.filter (fun kv => has_leaf kv.2) l)) as Hin; [|by rewrite F in Hin].
    apply filter_In. split; [by apply elem_of_list_In|done].
  - by destruct (decode_map (kv :: k)).
Qed.

(** Suggests counts only if it is written exactly so, for some package. *)
Theorem C154_case sug pkgs l cfg nx cfg' nx' : (forall p k, writes l p (VMap k) -> "Suggests" ∉ k.*1) ->
  plan_customizations sug pkgs (PSeq l) cfg nx = CDone (cfg', nx') -> cfg' = set_cfg_customizations sug pkgs cfg.
Proof.
  intros N E. destruct (plan_written _ _ _ _ _ _ E) as (cs & D & Ea).
  apply (apply_all_cfg l (concat cs) _ nx cfg' nx'); [|done].
  intros p H. apply is_set_true in H as (k & W & Hk). by apply (N p k W).
Qed.

(** If a repository is written for a package in one element and not in another, no plan is
    made. *)
Theorem C154_twice sug pkgs l cfg nx p a b : go_maps l -> writes l p (VMap a) -> writes l p (VMap b) -> "Repo" ∈ a.*1 ->
  (forall x, x ∈ b.*1 -> equal_fold x "Repo" = false) -> (forall db, db ∈ nx_db nx -> ru_name (db_repo db) <> "") ->
  forall st, plan_customizations sug pkgs (PSeq l) cfg nx <> CDone st.
Proof.
  intros G Wa Wb Ha Hb R st E. destruct (plan_reaches _ _ _ _ _ _ _ _ E Wb) as (c & Ec & H & _). cbn [decode_package] in Ec.
  rewrite (field_none "Repo" b Hb) in Ec. cbn [weak_text] in Ec. destruct (weak_bool _); [|done]. destruct (weak_text _); [|done].
  injection Ec as <-. destruct (H (is_set_key "Repo" l p a G Wa Ha)) as (db & Hdb). cbn [cu_repo] in Hdb. clear -R Hdb.
  revert R Hdb. generalize (nx_db nx). intros dbs R. induction dbs as [|d dbs IH]; cbn [find_repo]; [done|].
  destruct (String.eqb_spec (ru_name (db_repo d)) "") as [Ed|Nd].
  - intros _. apply (R d); [by left|done].
  - apply IH. intros db' H. apply R. by right.
Qed.

(** ** Examples *)

(** Two packages, one with Suggests and one with a type. *)
Definition ex_written : list element :=
  [EMap [("app", VMap [("Suggests", WBool true); ("Env", WMany)])]; EMap [("lib1", VMap [("Type", WText "source")])]].

Example C154_example :
  all_maps ex_written /\ documented_keys ex_written /\ once ex_written /\
  exists cfg' nx', plan_customizations false ["app"] (PSeq ex_written) (default_config false) ex_nx = CDone (cfg', nx') /\
    pd_suggests (settings_for cfg' "app") = true /\ pd_suggests (settings_for cfg' "lib1") = false /\
    pc_type <$> nx_packages nx' !! "lib1" = Some STSource.
Proof.
  split; [|split; [|split]].
  - intros e He. repeat (apply elem_of_cons in He as [-> |He]); [| |by apply elem_of_nil in He].
    + eexists. split; [done|]. split; [by apply (bool_decide_unpack _); vm_compute|].
      intros p v H. apply elem_of_list_singleton in H as [= -> ->]. by eexists.
    + eexists. split; [done|]. split; [by apply (bool_decide_unpack _); vm_compute|].
      intros p v H. apply elem_of_list_singleton in H as [= -> ->]. by eexists.
  - intros p k (m & Hm & Hp). repeat (apply elem_of_cons in Hm as [[= ->]|Hm]); [| |by apply elem_of_nil in Hm];
      apply elem_of_list_singleton in Hp as [= -> ->]; (split; [by apply (bool_decide_unpack _); vm_compute|]);
      intros key Hk; repeat (apply elem_of_cons in Hk as [-> |Hk]); try (by apply elem_of_nil in Hk);
      by apply (bool_decide_unpack _); vm_compute.
  - unfold once. by apply (bool_decide_unpack _); vm_compute.
  - eexists. eexists. split; [reflexivity|]. vm_compute. done.
Qed.

(** Numbers and truth values are read as texts, and texts as truth values. *)
Example C154_values_example :
  decode_package (VMap [("Suggests", WText "T"); ("Repo", WInt (-42)); ("Type", WBool true)]) =
    Some (Custom ["Suggests"; "Repo"; "Type"] true "-42" "1") /\
  decode_package (VMap [("suggests", WInt 7); ("REPO", WBool false); ("Type", WInt 10)]) =
    Some (Custom ["suggests"; "REPO"; "Type"] true "0" "10") /\
  decode_package (VMap [("suggests", WBool true); ("Suggests", WBool false)]) = Some (Custom ["suggests"; "Suggests"] false "" "") /\
  decode_package (VMap [("Suggests", WText "yes")]) = None /\
  plan_customizations false [] (PMap [("app", VMap [("Suggests", WNull)]); ("lib1", VNull)]) (default_config false) ex_nx =
    CDone (default_config false, ex_nx) /\
  plan_customizations false [] (PText "") (default_config false) ex_nx = CDone (default_config false, ex_nx) /\
  plan_customizations false [] (PText "app") (default_config false) ex_nx = CFatal /\
  plan_customizations true ["app"] PNull (default_config false) ex_nx = CDone (set_suggests "app" true (default_config false), ex_nx) /\
  plan_customizations false [] (PSeq [ENull]) (default_config false) ex_nx = CDone (default_config false, ex_nx) /\
  plan_customizations false [] (PSeq [EMap [("app", VMap [])]; ENull]) (default_config false) ex_nx = CPanic /\
  plan_customizations false [] (PSeq [EOther]) (default_config false) ex_nx = CFatal.
Proof. do 10 (split; [reflexivity|]). reflexivity. Qed.

(** "- app:" without settings is a panic, not a package without customizations. *)
Theorem C154_null_refuted :
  exists l, all_elements_maps l /\ (forall p v, writes l p v -> v = VNull) /\
    plan_customizations false ["app"] (PSeq l) (default_config false) ex_nx = CPanic.
Proof.
  exists [EMap [("app", VNull)]]. split; [|split; [|reflexivity]].
  - intros e He. apply elem_of_list_singleton in He as ->. by eexists.
  - intros p v (m & Hm & Hp). apply elem_of_list_singleton in Hm as [= ->]. by apply elem_of_list_singleton in Hp as [= -> ->].
Qed.

(** "suggests: true" is decoded and then not used, while "env" would be used. *)
Theorem C154_case_refuted :
  exists l cfg', all_maps l /\ once l /\
    mapM decode_element l = Some [[("app", Custom ["suggests"] true "" "")]] /\
    plan_customizations false ["app"] (PSeq l) (default_config false) ex_nx = CDone (cfg', ex_nx) /\
    pd_suggests (settings_for cfg' "app") = false.
Proof.
  exists [EMap [("app", VMap [("suggests", WBool true)])]]. eexists. split; [|split; [|split; [|split]]].
  - intros e He. apply elem_of_list_singleton in He as ->. eexists. split; [done|].
    split; [by apply (bool_decide_unpack _); vm_compute|]. intros p v H. apply elem_of_list_singleton in H as [= -> ->]. by eexists.
  - unfold once. by apply (bool_decide_unpack _); vm_compute.
  - reflexivity.
  - reflexivity.
  - vm_compute. done.
Qed.

(** A map of packages is decoded like a list and is then a panic. *)
Theorem C154_map_refuted :
  exists l cs, decode_packages (PMap l) = Some cs /\ cs = [[("app", Custom ["Suggests"] true "" "")]] /\
    plan_customizations false ["app"] (PMap l) (default_config false) ex_nx = CPanic.
Proof. exists [("app", VMap [("Suggests", WBool true)])]. eexists. split; [reflexivity|]. done. Qed.

(** The settings of a package in two elements: the second one has no repository. *)
Theorem C154_twice_refuted :
  exists l a b, all_maps l /\ l = [EMap [("app", VMap a)]; EMap [("app", VMap b)]] /\
    a = [("Repo", WText "CRAN")] /\ b = [("Suggests", WBool true)] /\
    (exists st, plan_customizations false ["app"] (PSeq [EMap [("app", VMap (a ++ b)%list)]]) (default_config false) ex_nx = CDone st) /\
    plan_customizations false ["app"] (PSeq l) (default_config false) ex_nx = CFatal.
Proof.
  do 3 eexists. split; [|split; [reflexivity|split; [reflexivity|split; [reflexivity|split; [by eexists|reflexivity]]]]].
  intros e He. repeat (apply elem_of_cons in He as [-> |He]); [| |by apply elem_of_nil in He].
  + eexists. split; [done|]. split; [by apply (bool_decide_unpack _); vm_compute|].
    intros p v H. apply elem_of_list_singleton in H as [= -> ->]. by eexists.
  + eexists. split; [done|]. split; [by apply (bool_decide_unpack _); vm_compute|].
    intros p v H. apply elem_of_list_singleton in H as [= -> ->]. by eexists.
Qed.

Print Assumptions C154_same.
Print Assumptions C154_suggests.
Print Assumptions C154_pins.
Print Assumptions C154_null.
Print Assumptions C154_other.
Print Assumptions C154_map.
Print Assumptions C154_case.
Print Assumptions C154_twice.
Print Assumptions C154_null_refuted.
Print Assumptions C154_case_refuted.
Print Assumptions C154_map_refuted.
Print Assumptions C154_twice_refuted.

Print Assumptions C154_read.
