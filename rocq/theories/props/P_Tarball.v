(** C92 to C94: packages given as tarballs. *)
From stdpp Require Import strings list gmap sorting.
From Coq Require Import Ascii ZArith Lia.
From Verif.model Require Import GoStr Version Desc Nexus RepoDb Graph Plan Fs Extract Install Tarballs.
From Verif.spec Require Import StrSpec LibSpec RepoSpec GraphSpec PlanSpec ExtractSpec InstallSpec TarballSpec.
From Verif.proofs Require Import FsProofs PlanProofs PlanProps SettingsProofs TarballProofs.

Local Open Scope string_scope.

(** * C92

    In full: every tarball of the configuration is unpacked, its description is
    used, and it is installed from its package directory.  Missing: a tarball that
    is followed by another one of the same package, refuted below. *)
Theorem C92_descriptions : forall u cache ts f f' ds m, sums (u_md5 u) -> names_read (u_md5 u) cache f' ts ->
  unpack_tarballs u cache ts f = Some (f', ds, m) ->
  Forall2 (fun t d => exists h n, called (u_md5 u) t h /\ holds (u_parse u) cache f' h n d) ts ds.
Proof. intros u cache ts f f' ds m H1 H2 H3. by eapply unpack_each. Qed.

Theorem C92_recorded_partial : forall u cache ts f f' ds m p a, sums (u_md5 u) -> names_read (u_md5 u) cache f' ts ->
  unpack_tarballs u cache ts f = Some (f', ds, m) ->
  (m !! p = Some a <->
   exists tx t ty h n d, ts = (tx ++ t :: ty)%list /\ called (u_md5 u) t h /\ holds (u_parse u) cache f' h n d /\
     d_package d = p /\ a = {| ad_path := (cache ++ [h; n])%list; ad_origin := tb_path t |} /\
     forall t' h' n' d', t' ∈ ty -> called (u_md5 u) t' h' -> holds (u_parse u) cache f' h' n' d' -> d_package d' <> p).
Proof. intros u cache ts f f' ds m p a H1 H2 H3. by eapply unpack_map. Qed.

(** A tarball that has not been unpacked before (so also a changed one, but for
    collisions of 64 bits) is unpacked completely. *)
Theorem C92_unpacked : forall u cache ts f f' ds m t h, sums (u_md5 u) ->
  unpack_tarballs u cache ts f = Some (f', ds, m) -> t ∈ ts ->
  called (u_md5 u) t h -> f (cache ++ [h])%list <> Some Dir ->
  (forall t', t' ∈ ts -> called (u_md5 u) t' h -> tb_archive t' = tb_archive t) ->
  complete (tb_archive t) (cache ++ [h])%list f'.
Proof. intros u cache ts f f' ds m t h H1 H2. by apply (unpack_fresh u cache H1 ts f f' ds m). Qed.

(** A sum that is the text itself, filled up; a DESCRIPTION that only says the name. *)
Fixpoint tb_fill (n : nat) (s : string) : string :=
  match n, s with
  | 0, _ => ""
  | S n, "" => String "0" (tb_fill n "")
  | S n, String c r => String c (tb_fill n r)
  end.

Definition tb_unpacking : unpacking :=
  {| u_md5 := tb_fill 32; u_parse := fun c => Some (Desc c "1.0" "" "" false ∅ ∅ ∅ ∅ "" "" "") |}.

Definition tb_of (path content dir pkg : string) : tarball :=
  {| tb_path := path; tb_content := content;
     tb_archive := {| a_known := true; a_complete := true;
       a_entries := [{| en_name := dir; en_kind := KDir |};
                     {| en_name := dir +:+ "/DESCRIPTION"; en_kind := KReg pkg |};
                     {| en_name := "README"; en_kind := KReg "read me" |}] |};
     tb_names := ["README"; dir] |}.

Definition tb_fs : fsys := fun q => if bool_decide (q ∈ [[]; ["cache"]; ["lib"]]) then Some Dir else None.

Lemma tb_sums : sums (u_md5 tb_unpacking).
Proof.
  intros s. cbn [u_md5 tb_unpacking]. generalize 32 as n. intros n. revert s.
  induction n as [|n IH]; intros s; [done|]. destruct s; cbn; by f_equal.
Qed.

Example C92_example : exists f' ds m,
  unpack_tarballs tb_unpacking ["cache"] [tb_of "a.tar.gz" "one" "alpha" "alpha"; tb_of "b.tar.gz" "two" "beta" "beta"] tb_fs =
    Some (f', ds, m) /\
  map d_package ds = ["alpha"; "beta"] /\
  m !! "beta" = Some {| ad_path := ["cache"; "two0000000000000"; "beta"]; ad_origin := "b.tar.gz" |} /\
  m !! "alpha" = Some {| ad_path := ["cache"; "one0000000000000"; "alpha"]; ad_origin := "a.tar.gz" |} /\
  f' ["cache"; "one0000000000000"; "alpha"; "DESCRIPTION"] = Some (File "alpha").
Proof. eexists _, _, _. split; [reflexivity|]. vm_compute. done. Qed.

(** Two versions of a package: only the second one is installed, without a word. *)
Theorem C92_same_package_refuted : exists u cache ts f f' ds m t, sums (u_md5 u) /\
  unpack_tarballs u cache ts f = Some (f', ds, m) /\ t ∈ ts /\
  forall p a, m !! p = Some a -> ad_origin a <> tb_path t.
Proof.
  exists tb_unpacking, ["cache"], [tb_of "a_1.tar.gz" "one" "alpha" "alpha"; tb_of "a_2.tar.gz" "two" "alpha" "alpha"], tb_fs.
  eexists _, _.
  exists (<["alpha" := {| ad_path := ["cache"; "two0000000000000"; "alpha"]; ad_origin := "a_2.tar.gz" |}]>
    (<["alpha" := {| ad_path := ["cache"; "one0000000000000"; "alpha"]; ad_origin := "a_1.tar.gz" |}]> ∅)).
  exists (tb_of "a_1.tar.gz" "one" "alpha" "alpha"). split; [exact tb_sums|]. split; [reflexivity|].
  split; [by left|]. intros p a H.
  rewrite insert_insert in H. apply lookup_insert_Some in H as [[_ <-]|[_ H]]; [done|]. by rewrite lookup_empty in H.
Qed.

(** An archive with another directory before that of the package: the program ends
    although the package is there. *)
Theorem C92_other_directory_refuted : exists u cache t f f1 c d, sums (u_md5 u) /\
  untar (tb_archive t) (cache ++ [tarball_name u t])%list f = (f1, true) /\
  f1 (cache ++ [tarball_name u t; "pkg"; "DESCRIPTION"])%list = Some (File c) /\ u_parse u c = Some d /\
  tb_names t = ["docs"; "pkg"] /\ f1 (cache ++ [tarball_name u t; "docs"])%list = Some Dir /\
  unpack_tarballs u cache [t] f = None.
Proof.
  exists tb_unpacking, ["cache"],
    {| tb_path := "x.tar.gz"; tb_content := "x";
       tb_archive := {| a_known := true; a_complete := true;
         a_entries := [{| en_name := "docs"; en_kind := KDir |}; {| en_name := "pkg/DESCRIPTION"; en_kind := KReg "pkg" |}] |};
       tb_names := ["docs"; "pkg"] |}, tb_fs.
  eexists _, "pkg", _. split; [exact tb_sums|]. split; [reflexivity|]. split; [reflexivity|]. split; [reflexivity|].
  split; [reflexivity|]. split; reflexivity.
Qed.

(** * C93: installing the tarballs, in any order

    R is any program that behaves like [r_only]. *)
Theorem C93_each_once : forall R name s pkgr lib l f err f' t, r_only R name -> installable name lib l ->
  (forall p a, (p, a) ∈ l -> f (ad_path a) <> None) ->
  install_additional R s pkgr lib l f = (err, f', t) ->
  map rc_source t = map (fun pa => ad_path pa.2) l /\ (forall c, c ∈ t -> rc_library c = lib).
Proof.
  intros R name s pkgr lib l f err f' t H1 H2 H3 H4.
  by destruct (additional_errors R name s pkgr lib H1 l f err f' t H2 H3 H4) as (K1 & K2 & _).
Qed.

Theorem C93_success : forall R name s pkgr lib l f f' t, r_only R name -> r_installs R name -> installable name lib l ->
  (forall p a, (p, a) ∈ l -> f (ad_path a) <> None) ->
  install_additional R s pkgr lib l f = (false, f', t) ->
  forall p a, (p, a) ∈ l -> f' (lib ++ [p])%list = Some Dir.
Proof.
  intros R name s pkgr lib l f f' t H1 H5 H2 H3 H4.
  destruct (additional_errors R name s pkgr lib H1 l f false f' t H2 H3 H4) as (_ & _ & K). by apply K.
Qed.

Theorem C93_only_these : forall R name s pkgr lib l f err f' t q, r_only R name -> installable name lib l ->
  install_additional R s pkgr lib l f = (err, f', t) -> f' q <> f q ->
  exists p a, (p, a) ∈ l /\
    (in_dir (lib ++ [p])%list q \/ in_dir (lib ++ ["00LOCK-" +:+ p])%list q \/ in_dir (removelast (ad_path a)) q).
Proof. intros R name s pkgr lib l f err f' t q H1 H2. by apply (additional_frame R name s pkgr lib H1). Qed.

Theorem C93_errors : forall R s pkgr lib l f err f' t, install_additional R s pkgr lib l f = (err, f', t) ->
  (err = true <-> exists l1 p a l2, l = (l1 ++ (p, a) :: l2)%list /\
     let g := (install_additional R s pkgr lib l1 f).1.2 in
     g (ad_path a) <> None /\
     (R {| rc_dir := removelast (ad_path a); rc_library := lib; rc_build := true; rc_source := ad_path a |} g).1 <> 0%Z).
Proof. exact additional_flag. Qed.

(** An R that installs the package called like its directory; beta needs alpha. *)
Definition tb_name (f : fsys) (p : list string) : string := List.last p "".

Definition tb_R : rprog := fun c f =>
  let n := tb_name f (rc_source c) in
  if bool_decide (n = "beta" /\ f (rc_library c ++ ["alpha"])%list <> Some Dir) then (1%Z, f)
  else (0%Z, fun q => if bool_decide (q = (rc_library c ++ [n])%list) then Some Dir else f q).

Definition tb_surroundings : surroundings :=
  {| s_cwd := []; s_tmp := ["tmp"]; s_cache := ["cache"]; s_os := Linux; s_md5 := tb_fill 32; s_read := fun _ => None |}.

Definition tb_alpha : string * additional := ("alpha", {| ad_path := ["cache"; "one"; "alpha"]; ad_origin := "a.tar.gz" |}).
Definition tb_beta : string * additional := ("beta", {| ad_path := ["cache"; "two"; "beta"]; ad_origin := "b.tar.gz" |}).

Definition tb_both : fsys := fun q =>
  if bool_decide (q ∈ [["cache"; "one"]; ["cache"; "one"; "alpha"]; ["cache"; "two"]; ["cache"; "two"; "beta"]])
  then Some Dir else tb_fs q.

Lemma tb_only : r_only tb_R tb_name /\ r_installs tb_R tb_name.
Proof.
  split.
  - intros c f code f' q. unfold tb_R. destruct (bool_decide _); intros [= <- <-] Hq; [done|].
    destruct (decide (q = (rc_library c ++ [tb_name f (rc_source c)])%list)) as [->|Hn].
    + left. exists []. by rewrite app_nil_r.
    + by rewrite bool_decide_eq_false_2 in Hq.
  - intros c f f'. unfold tb_R. destruct (bool_decide (_ /\ _)); [done|]. intros [= <-]. by rewrite bool_decide_eq_true_2.
Qed.

Lemma tb_installable l : l ≡ₚ [tb_alpha; tb_beta] -> installable tb_name ["lib"] l.
Proof.
  intros Hl. assert (forall x, x ∈ l -> x = tb_alpha \/ x = tb_beta) as Hx.
  { intros x H. rewrite Hl, !elem_of_cons, elem_of_nil in H. naive_solver. }
  assert (forall (a b : list string), below a b = false -> below b a = false -> apart a b) as Hap.
  { intros a b H1 H2. split; intros H; apply below_spec in H; congruence. }
  split.
  - intros p a H. destruct (Hx _ H) as [[= -> ->]|[= -> ->]]; (split; [|done]); cbn; unfold letter, name_char, letter; vm_compute; repeat split; lia.
  - rewrite Hl. cbn. apply NoDup_cons. split; [|apply NoDup_singleton]. by rewrite elem_of_list_singleton.
  - intros p a H. by destruct (Hx _ H) as [[= -> ->]|[= -> ->]].
  - intros p a q b H H'. destruct (Hx _ H) as [[= -> ->]|[= -> ->]], (Hx _ H') as [[= -> ->]|[= -> ->]]; try done; intros _; by apply Hap.
  - intros p a H. destruct (Hx _ H) as [[= -> ->]|[= -> ->]]; by apply Hap.
Qed.

Example C93_example : r_only tb_R tb_name /\ r_installs tb_R tb_name /\ installable tb_name ["lib"] [tb_alpha; tb_beta] /\
  exists f' t, install_additional tb_R tb_surroundings "3.1.2" ["lib"] [tb_alpha; tb_beta] tb_both = (false, f', t) /\
    f' ["lib"; "alpha"] = Some Dir /\ f' ["lib"; "beta"] = Some Dir /\ length t = 2.
Proof.
  destruct tb_only as [H1 H2]. split; [done|]. split; [done|]. split; [by apply tb_installable|].
  eexists _, _. split; [reflexivity|]. vm_compute. done.
Qed.

(** * C94

    In full: what a tarball depends on is installed before the tarball.  Missing:
    dependencies in the field Depends (C69) and dependencies on other tarballs. *)
Theorem C94_dependencies_planned_partial : forall o cfg nx tarballs descriptions installed le nx' ip d p,
  oracle_ok o -> nexus_ok nx -> no_record nx "R" ->
  plan_install o cfg nx tarballs descriptions installed le = PIPlan nx' ip ->
  Forall desc_deps_ok tarballs -> Forall desc_deps_ok descriptions ->
  d ∈ tarballs -> listed_in d p -> p ∉ r_base -> planned ip p.
Proof.
  intros o cfg nx tarballs descriptions installed le nx' ip d p H1 H2 H3 H4 H5 H6 H7 H8 H9.
  destruct (plan_install_spec o cfg nx tarballs descriptions installed le H1 H2 H3 nx' ip H4 H5 H6) as (deps & _ & K & _).
  apply K. exists p. split; [right; left; by exists d|]. split; [done|]. apply rtc_refl.
Qed.

Definition tb_deps (l : list string) : gmap string dep := list_to_map (map (fun n => (n, Dep n zero_version CNone)) l).
Definition tb_desc (name : string) (imports : list string) : desc :=
  Desc name "1.0" "" "" false (tb_deps imports) ∅ ∅ ∅ "" "" "".
Definition tb_repo : nexus :=
  Nexus [RepoDb [(STSource, {["core" := tb_desc "core" []]}); (STBinary, ∅)] (RepoURL "https://a.org" "CRAN" "") STSource ""] ∅ STSource.

Example C94_example : exists nx' ip,
  plan_install (fun _ l => l) (PlanConfig [] [] false false false []) tb_repo [tb_desc "alpha" ["core"]] [] ∅ true = PIPlan nx' ip /\
  planned ip "core".
Proof.
  destruct (plan_install (fun _ l => l) (PlanConfig [] [] false false false []) tb_repo [tb_desc "alpha" ["core"]] [] ∅ true)
    as [nx' ip| | | |] eqn:E; try (vm_compute in E; discriminate E).
  exists nx', ip. split; [done|]. vm_compute in E. injection E as <- <-. left. by left.
Qed.

(** Two tarballs, one depending on the other: planning asks the repositories for
    it and gives up. *)
Theorem C94_only_as_tarball_refuted : exists nx d1 d2,
  listed_in d2 (d_package d1) /\ (forall p, ~ listed_in d1 p) /\ (forall p, listed_in d2 p -> p = d_package d1) /\
  plan_install (fun _ l => l) (PlanConfig [] [] false false false []) nx [d1; d2] [] ∅ true = PIMissing [d_package d1].
Proof.
  exists tb_repo, (tb_desc "alpha" []), (tb_desc "beta" ["alpha"]). split; [left; by eexists|]. split; [|split].
  - intros p [H|H]; cbn in H; rewrite lookup_empty in H; by destruct H.
  - intros p [H|H]; cbn in H.
    + change (tb_deps ["alpha"]) with ({["alpha" := Dep "alpha" zero_version CNone]} : gmap string dep) in H.
      destruct H as [x H]. by apply lookup_singleton_Some in H as [<- _].
    + rewrite lookup_empty in H. by destruct H.
  - vm_compute. reflexivity.
Qed.

(** The map is iterated in any order: with one the installation succeeds, with
    another one it fails. *)
Theorem C94_order_refuted : exists R name s lib l1 l2 f f1 f2 t1 t2,
  r_only R name /\ r_installs R name /\ l1 ≡ₚ l2 /\ installable name lib l1 /\ (forall p a, (p, a) ∈ l1 -> f (ad_path a) <> None) /\
  install_additional R s "3.1.2" lib l1 f = (false, f1, t1) /\ install_additional R s "3.1.2" lib l2 f = (true, f2, t2).
Proof.
  exists tb_R, tb_name, tb_surroundings, ["lib"], [tb_alpha; tb_beta], [tb_beta; tb_alpha], tb_both. eexists _, _, _, _.
  destruct tb_only as [H1 H2]. split; [done|]. split; [done|]. split; [constructor|]. split; [by apply tb_installable|].
  split; [|split; reflexivity].
  intros p a H. rewrite !elem_of_cons, elem_of_nil in H. destruct H as [[= -> ->]|[[= -> ->]|[]]]; vm_compute; discriminate.
Qed.

Print Assumptions C92_descriptions.
Print Assumptions C92_recorded_partial.
Print Assumptions C92_unpacked.
Print Assumptions C92_same_package_refuted.
Print Assumptions C92_other_directory_refuted.
Print Assumptions C93_each_once.
Print Assumptions C93_success.
Print Assumptions C93_only_these.
Print Assumptions C93_errors.
Print Assumptions C94_dependencies_planned_partial.
Print Assumptions C94_only_as_tarball_refuted.
Print Assumptions C94_order_refuted.
