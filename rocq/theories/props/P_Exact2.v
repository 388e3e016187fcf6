(** More of what the program does in all cases: name-value lists, the environment of
    R, DESCRIPTION files. *)
From stdpp Require Import strings list gmap.
From Coq Require Import Ascii ZArith Lia.
From Verif.model Require Import GoStr Desc Env Stamp Nexus Graph Plan.
From Verif.spec Require Import StrSpec EnvSpec StampSpec ConfigSpec RepoSpec GraphSpec PlanSpec ExactSpec.
From Verif.proofs Require Import GoStrLemmas EnvProofs StampProofs StartProofs ApartProofs GraphProofs PlanProofs DerivedProofs SettingsProofs ExactProofs2.

Local Open Scope string_scope.
Local Arguments Ascii.eqb : simpl never.
Local Arguments char_eqb : simpl never.

(** C57: the first entry of a name is read and removed, the last one updated; a new
    entry is only seen if there was none. *)
Theorem C57_append_exact : forall l name value, unpadded name -> unpadded value ->
  nvp_get (nvp_append l name value) name = Some (default value (nvp_get l name)).
Proof.
  intros l name value H1 H2. unfold nvp_append. rewrite get_app, !unpadded_trim by done.
  destruct (nvp_get l name); [done|]. cbn. by rewrite String.eqb_refl.
Qed.
Print Assumptions C57_append_exact.

Theorem C57_update_exact : forall l name value l', nvp_update l name value = Some l' <->
  exists a p b, l = (a ++ p :: b)%list /\ n_name p = name /\ ~ name ∈ map n_name b /\
    l' = (a ++ {| n_name := name; n_value := value |} :: b)%list.
Proof. exact update_exact. Qed.
Print Assumptions C57_update_exact.

Theorem C57_remove_exact : forall l name,
  (forall a p b, l = (a ++ p :: b)%list -> n_name p = name -> ~ name ∈ map n_name a ->
     nvp_remove l name = (a ++ b)%list) /\
  (~ name ∈ map n_name l -> nvp_remove l name = l).
Proof.
  intros l name. split; [|apply remove_absent]. intros a p b -> Hp Ha. by apply remove_exact.
Qed.
Print Assumptions C57_remove_exact.

Example C57_exact_example :
  let l := [{| n_name := "a"; n_value := "1" |}; {| n_name := "a"; n_value := "2" |}] in
  nvp_get (nvp_append l "a" "3") "a" = Some "1" /\
  nvp_update l "a" "3" = Some [{| n_name := "a"; n_value := "1" |}; {| n_name := "a"; n_value := "3" |}] /\
  nvp_remove l "a" = [{| n_name := "a"; n_value := "2" |}].
Proof. done. Qed.

(** C58, C60: each line is dropped, kept, or followed by a new one; what is kept of a
    repository ends at the second colon of its line. *)
Theorem C58_exact : forall lines version ty url repo, exists outs,
  Forall2 (stamped_as repo) lines outs /\
  stamp lines version ty url repo =
    (concat outs ++ ["PkgrVersion: " +:+ version; "PkgrInstallType: " +:+ ty; "PkgrRepositoryURL: " +:+ url])%list.
Proof.
  intros lines version ty url repo. destruct (loop_exact repo lines) as (outs & H1 & H2). exists outs.
  split; [done|]. unfold stamp. by rewrite H2.
Qed.
Print Assumptions C58_exact.

Theorem C60_exact : forall l repo o1 o2, stamped_as repo l o1 -> stamped_as repo l o2 -> o1 = o2.
Proof. intros l repo. apply stamped_unique. Qed.
Print Assumptions C60_exact.

Example C58_exact_example :
  stamped_as "CRAN" "Repository:  https://a.org" ["OriginalRepository: https"; "Repository: CRAN"] /\
  stamp ["Repository:  https://a.org"; "Note: see PkgrVersion: x"; "Title: t"] "1" "source" "u" "CRAN" =
  ["OriginalRepository: https"; "Repository: CRAN"; "Title: t"; "PkgrVersion: 1"; "PkgrInstallType: source"; "PkgrRepositoryURL: u"].
Proof.
  split; [|vm_compute; reflexivity]. eapply (st_moved _ _ "  https" "://a.org").
  - rewrite <- stamp_line_spec. discriminate.
  - intros H%same_line_trims. vm_compute in H. discriminate H.
  - done.
  - done.
  - right. by exists "//a.org".
  - split; [by apply unpadded_dec_ok|]. by exists "  ", "".
Qed.

(** C54: with an equals sign in a library path R_LIBS_SITE is not set at all. *)
Theorem C54_exact : forall sys rs tmpdir a b w, plain_environment sys ->
  (forall p, p ∈ e_global rs -> var_name (n_name p) /\ n_name p <> "R_LIBS_SITE") ->
  (forall kv, kv ∈ e_package rs -> var_name kv.1 /\ kv.1 <> "R_LIBS_SITE") ->
  join ":" (e_libs rs) = a +:+ "=" +:+ b -> ~ ("R_LIBS_SITE=" +:+ w) ∈ configure_env sys rs tmpdir.
Proof.
  intros sys rs tmpdir a b w H1 H2 H3 H4 H.
  destruct (libs_not_inherited sys rs tmpdir "R_LIBS_SITE" w) as (p & Hp & Hn & _); [by right|done|done|done|done|].
  unfold libs_part in Hp. apply elem_of_cons in Hp as [-> | Hp]; [done|].
  destruct (lib_paths_env (e_libs rs)) as [lp|] eqn:El; [|by apply elem_of_nil in Hp].
  assert (lp = "R_LIBS_SITE=" +:+ a +:+ "=" +:+ b) as ->.
  { rewrite <- H4. unfold lib_paths_env in El. destruct (e_libs rs) as [|[|c x] [|y l]]; first [discriminate El|by injection El as <-]. }
  unfold nvp_append_nvp in Hp. change ("R_LIBS_SITE=" +:+ a +:+ "=" +:+ b) with ("R_LIBS_SITE" +:+ String "=" (a +:+ String "=" b)) in Hp.
  unfold split_char in Hp. rewrite (split_on_app _ "R_LIBS_SITE" "="%char) in Hp by done.
  destruct (first_byte_dec (char_eqb "="%char) a) as [Ha|(a1 & c & a2 & -> & Hc & Ha)].
  - rewrite (split_on_app _ a "="%char b) in Hp by done. pose proof (split_on_nonnil (char_eqb "=") b) as Hb.
    destruct (split_on (char_eqb "=") b); [done|]. by apply elem_of_nil in Hp.
  - apply char_eqb_eq in Hc as <-. rewrite app_assoc_str in Hp. cbn [String.append] in Hp. rewrite (split_on_app _ a1 "="%char) in Hp by done.
    pose proof (split_on_nonnil (char_eqb "=") (a2 +:+ String "=" b)) as Hb.
    destruct (split_on (char_eqb "=") (a2 +:+ String "=" b)); [done|]. by apply elem_of_nil in Hp.
Qed.
Print Assumptions C54_exact.

Example C54_exact_example :
  configure_env ["HOME=/home/u"] {| e_global := []; e_package := []; e_rpath := "R"; e_libs := ["/a=b"; "/c"] |} "/tmp/x" =
  ["HOME=/home/u"; "R_LIBS_USER=/tmp/x"].
Proof. vm_compute. reflexivity. Qed.

(** C76: the blanks around a value are lost. *)
Theorem C76_exact : forall sys rs tmpdir name v u, plain_environment sys -> var_name name ->
  name <> "R_LIBS_USER" -> name <> "R_LIBS_SITE" -> name <> "PATH" -> ~ sensitive name ->
  (forall p, p ∈ e_global rs -> var_name (n_name p) /\ n_name p <> name) ->
  (forall kv, kv ∈ e_package rs -> var_name kv.1 /\ kv.1 <> name) ->
  caller_has sys name v -> (forall x, (name +:+ "=" +:+ x) ∈ sys -> x = v) -> v <> "" -> blanks_cut v u ->
  env_value (configure_env sys rs tmpdir) name u.
Proof.
  intros sys rs tmpdir name v u H1 H2 H3 H4 H5 H6 H7 H8 H9 H10 H11 H12. rewrite sensitive_censored in H6.
  pose proof (passed_value sys rs tmpdir name v H1 H2 H3 H4 H6 H7 H8 H9 H10 H11) as H.
  apply String.eqb_neq in H5. rewrite H5 in H. by rewrite (blanks_cut_trim _ _ H12) in H.
Qed.
Print Assumptions C76_exact.

Example C76_exact_example : blanks_cut " -j4 " "-j4" /\
  configure_env ["MAKEFLAGS= -j4 "] {| e_global := []; e_package := []; e_rpath := "R"; e_libs := [] |} "/tmp/x" =
  ["MAKEFLAGS=-j4"; "R_LIBS_USER=/tmp/x"].
Proof.
  split; [|vm_compute; reflexivity]. split; [by apply unpadded_dec_ok|]. by exists " ", " ".
Qed.

(** C90: a PATH that begins with the text of the directory is left alone, whatever
    follows. *)
Theorem C90_exact : forall sys rs tmpdir l prog v r, plain_environment sys ->
  l <> [] -> (forall x, x ∈ (l ++ [prog])%list -> plain_name x) ->
  e_rpath rs = "/" +:+ join "/" (l ++ [prog])%list ->
  (forall p, p ∈ e_global rs -> var_name (n_name p) /\ n_name p <> "PATH") ->
  (forall kv, kv ∈ e_package rs -> var_name kv.1 /\ kv.1 <> "PATH") ->
  caller_has sys "PATH" v -> (forall u, ("PATH=" +:+ u) ∈ sys -> u = v) -> unpadded v ->
  v = "/" +:+ join "/" l +:+ r -> env_value (configure_env sys rs tmpdir) "PATH" v.
Proof.
  intros sys rs tmpdir l prog v r H1 Hn Hl Hr H3 H4 H5 H6 H8 Hv.
  assert (H7 : v <> "") by (by subst v).
  pose proof (passed_value sys rs tmpdir "PATH" v H1 path_name) as H.
  specialize (H ltac:(done) ltac:(done) path_not_censored H3 H4 H5 H6 H7).
  change (String.eqb "PATH" "PATH") with true in H. cbv iota in H.
  assert (dir_name (e_rpath rs) = "/" +:+ join "/" l) as Ed by (rewrite Hr; by apply dir_name_plain).
  unfold path_value in H. rewrite Ed in H. cbv zeta in H.
  assert (has_prefix ("/" +:+ join "/" l) v = true) as Ep.
  { rewrite Hv, <- app_assoc_str. apply has_prefix_app. }
  rewrite Ep, andb_false_r in H. by rewrite unpadded_trim in H.
Qed.
Print Assumptions C90_exact.

Example C90_exact_example :
  configure_env ["PATH=/opt/R/bin-old"] {| e_global := []; e_package := []; e_rpath := "/opt/R/bin/R"; e_libs := [] |} "/tmp/x" =
  ["PATH=/opt/R/bin-old"; "R_LIBS_USER=/tmp/x"].
Proof. vm_compute. reflexivity. Qed.

(** C28: everything that is listed, repetitions included, less the installed packages
    among it, plus everything outdated in the library. *)
Theorem C28_exact : forall ip keys additional l, NoDup l ->
  (forall p, p ∈ l <-> is_Some (ip_installed ip !! p) /\ p ∉ additional /\
     (p ∈ ip_starting ip \/ p ∈ keys)) ->
  num_to_install ip keys additional =
    (Z.of_nat (length (ip_starting ip) + length keys + length additional) - Z.of_nat (length l) +
     (if ip_update ip then Z.of_nat (length (ip_outdated ip)) else 0))%Z.
Proof.
  intros ip keys additional l Hl Hin. unfold num_to_install, get_all_packages. cbv zeta.
  set (f := fun q => existsb (String.eqb q) (ip_starting ip ++ keys ++ additional) && negb (existsb (String.eqb q) additional)).
  assert (P : List.filter f (elements (dom (D := gset string) (ip_installed ip))) ≡ₚ l).
  { apply NoDup_Permutation; [apply filter_bool_nodup, NoDup_elements|done|].
    intros x. rewrite Hin, elem_of_list_In, filter_In, <- elem_of_list_In, elem_of_elements, elem_of_dom. unfold f.
    rewrite andb_true_iff, existsb_elem, negb_true_iff, <- not_true_iff_false, existsb_elem, !elem_of_app. tauto. }
  rewrite (Permutation_length P), !app_length. destruct (ip_update ip); lia.
Qed.
Print Assumptions C28_exact.

Example C28_exact_example :
  let ip := InstallPlan ["a"] {["b" := ["a"]]} [] [] {["a" := empty_desc]} false true in
  num_to_install ip ["b"] ["a"] = 3%Z /\ num_to_install ip ["b"] [] = 1%Z.
Proof. vm_compute. done. Qed.

(** C30: as soon as one entry for a package sets Suggests, the last entry for it
    counts, and it counts as false there if it is not set. *)
Theorem C30_exact : forall sug pkgs cs nr nx cfg' nx' p b v,
  set_plan_customizations sug pkgs cs (default_config nr) nx = Some (cfg', nx') ->
  setting "Suggests" cu_suggests cs p b -> last_such (fun kv => kv.1 = p) (concat cs) (p, v) ->
  pd_suggests (settings_for cfg' p) = cu_suggests v.
Proof.
  intros sug pkgs cs nr nx cfg' nx' p b v E Hb Hv. rewrite settings_config.
  unfold set_plan_customizations in E. eapply apply_customs_last in E as [H _]; [by apply H|].
  apply is_customization_set_spec. apply setting_concat in Hb as (c & H1 & H2 & _). by exists c.
Qed.
Print Assumptions C30_exact.

Example C30_exact_example :
  let cs := [[("app", Custom ["Suggests"] true "" "")]; [("app", Custom ["Env"] false "" "")]] in
  last_such (fun kv => kv.1 = "app") (concat cs) ("app", Custom ["Env"] false "" "").
Proof.
  exists [("app", Custom ["Suggests"] true "" "")], []. split; [done|]. split; [done|]. intros y H. by apply elem_of_nil in H.
Qed.
