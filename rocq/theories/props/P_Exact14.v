(** C94 in whole runs, C115 with tarballs. *)
From stdpp Require Import strings list gmap.
From Coq Require Import Ascii ZArith Lia.
From Verif.model Require Import GoStr Version Desc Nexus RepoDb Pacman Graph Plan Fs Extract Install Sched Download Tarballs Together Clean Commands.
From Verif.spec Require Import StrSpec LibSpec RepoSpec GraphSpec PlanSpec ExtractSpec InstallSpec TarballSpec SchedSpec TogetherSpec CleanSpec.
From Verif.proofs Require Import GraphProofs FsProofs PlanProofs PlanProps SettingsProofs TarballProofs SchedLink TogetherProofs ExtractProofs CleanProofs CommandProofs.
From Verif.proofs Require Import RunLink ToyR.
From Verif.props Require Import P_Sched P_Clean P_Tarball P_Together P_Cmd.

Local Open Scope string_scope.

Lemma installable_app name lib l1 l2 : installable name lib (l1 ++ l2)%list -> installable name lib l1.
Proof.
  intros [H1 H2 H3 H4 H5].
  assert (forall x, x ∈ l1 -> x ∈ (l1 ++ l2)%list) as K by (intros x Hx; apply elem_of_app; by left).
  rewrite fmap_app in H2. apply NoDup_app in H2 as [H2 _].
  split; [intros p a H; apply H1, K, H|done|intros p a H; apply (H3 p), K, H|intros p a q b H H'; apply H4; by apply K|intros p a H; apply (H5 p), K, H].
Qed.

(** ** C94: what a tarball lists in Imports and LinkingTo is in the library when R is run for
    a tarball

    Missing as in C94_dependencies_planned_partial.  The plan has been installed without
    error: otherwise the tarballs are tried all the same (cmd/install.go 122-135). *)
Theorem C94_before_partial : forall o cfg nx tarballs descriptions installed le nx' ip d q
    e Rs keys n name ds fd ls st R l l1 p a l2,
  oracle_ok o -> nexus_ok nx -> no_record nx "R" ->
  plan_install o cfg nx tarballs descriptions installed le = PIPlan nx' ip ->
  Forall desc_deps_ok tarballs -> Forall desc_deps_ok descriptions ->
  d ∈ tarballs -> listed_in d q -> q ∉ r_base ->
  keys ≡ₚ (map_to_list (ip_depdb ip)).*1 ->
  let j := Job (ip_starting ip) (ip_depdb ip) keys n in
  setting_ok e j name ds -> rs_only Rs name -> rs_installs Rs name -> tree_ok fd -> files_ok e j fd ->
  together e Rs j (tinitial _ j fd) ls st -> returned (t_sched st) None ->
  r_only R (fun _ => name) -> installable (fun _ => name) (e_library e) l ->
  (forall p a, (p, a) ∈ l -> in_some ds (removelast (ad_path a))) ->
  l = (l1 ++ (p, a) :: l2)%list -> q ∉ l.*1 ->
  (install_additional R (e_where e) (e_pkgr e) (e_library e) l1 (t_fs st)).1.2 (e_library e ++ [q])%list = Some Dir.
Proof.
  intros o cfg nx tarballs descriptions installed le nx' ip d q e Rs keys n name ds fd ls st R l l1 p a l2
    H1 H2 H3 H4 H5 H6 H7 H8 H9 Hk j Hs HR HI HT Hf Hx Hr HR2 Hin Hun El Hq.
  assert (planned ip q) as Hp.
  { destruct (plan_install_spec o cfg nx tarballs descriptions installed le H1 H2 H3 nx' ip H4 H5 H6) as (deps & _ & K & _).
    apply K. exists q. split; [right; left; by exists d|]. split; [done|]. apply rtc_refl. }
  assert (job_ok j) as Hj.
  { destruct (plan_install_cases o cfg nx tarballs descriptions installed le H2 H3)
      as [[_ E]|(deps & nx1 & _ & K1 & K2 & K3 & _ & [[_ E]|[Ha E]])]; rewrite H4 in E; try discriminate E.
    destruct (resolve_installation_reqs _ _ _ _ _ _ _ _) as [ip1| | |] eqn:Er; try discriminate E. injection E as -> ->.
    by eapply (C41_planned_jobs nx1); [..|exact Er|]; [| |apply sub_ok| | |]. }
  assert (in_plan j q) as Hpl by exact Hp.
  pose proof (together_success e Rs j name ds Hj Hs HR HI fd ls st q HT Hf Hx Hr Hpl) as Hst.
  assert (installable (fun _ => name) (e_library e) l1) as Hin1 by (rewrite El in Hin; by eapply installable_app).
  assert (forall x, x ∈ l1 -> x ∈ l) as Hsub by (intros x Hx1; rewrite El; apply elem_of_app; by left).
  destruct (install_additional R (e_where e) (e_pkgr e) (e_library e) l1 (t_fs st)) as [[ae f'] t] eqn:Ea. cbn [fst snd].
  destruct (decide (f' (e_library e ++ [q])%list = t_fs st (e_library e ++ [q])%list)) as [->|N]; [done|]. exfalso.
  pose proof (so_names _ _ _ _ Hs q Hpl) as Hn.
  destruct (additional_frame R (fun _ => name) (e_where e) (e_pkgr e) (e_library e) HR2 l1 _ _ _ _ _ Hin1 Ea N) as (p' & a' & Hpa & [[z K2]|[[z K2]|K2]]).
  - rewrite <- app_assoc in K2. apply app_inv_head in K2. injection K2 as -> _. apply Hq, elem_of_list_fmap. exists (p', a'). split; [done|]. by apply Hsub.
  - rewrite <- app_assoc in K2. apply app_inv_head in K2. injection K2 as -> _. by apply (lock_not_name _ p') in Hn.
  - destruct (some_not_lib e j name ds Hs _ (e_library e ++ [q])%list (Hun p' a' (Hsub _ Hpa))) as [H _]; [by eexists|done].
Qed.

(** The tarball t imports b, which imports a: both are in the library when R is run for t. *)
Definition tw_repo : nexus :=
  Nexus [RepoDb [(STSource, {["a" := tb_desc "a" []; "b" := tb_desc "b" ["a"]]}); (STBinary, ∅)] (RepoURL "https://a.org" "CRAN" "") STSource ""] ∅ STSource.

Example C94_before_example : exists nx' ip,
  plan_install (fun _ l => l) (PlanConfig [] [] false false false []) tw_repo [tb_desc "t" ["b"]] [] ∅ true = PIPlan nx' ip /\
  Job (ip_starting ip) (ip_depdb ip) ["b"] 1 = wx_job /\ ("t" ∈ wx_tarballs.*1) /\
  exists ls st, together wx (toy_process []) wx_job (tinitial _ wx_job wx_staged) ls st /\ returned (t_sched st) None /\
    (install_additional (toy []) (e_where wx) (e_pkgr wx) (e_library wx) [] (t_fs st)).1.2 ["lib"; "b"] = Some Dir.
Proof.
  destruct (plan_install (fun _ l => l) (PlanConfig [] [] false false false []) tw_repo [tb_desc "t" ["b"]] [] ∅ true)
    as [nx' ip| | | |] eqn:E; try (vm_compute in E; discriminate E).
  exists nx', ip. split; [done|]. split; [vm_compute in E; injection E as <- <-; reflexivity|]. split; [by left|].
  destruct C98_example as (_ & _ & _ & _ & _ & _ & _ & _ & ls & st & H1 & H2 & _ & H3). exists ls, st. by split; [|split].
Qed.

(** ** C115: clean --all, with tarballs in the configuration *)

Lemma untar_confined a dir f f' ok : untar a dir f = (f', ok) ->
  forall q, ~ in_dir dir q -> f' q = f q \/ (in_dir q dir /\ f q = None /\ f' q = Some Dir).
Proof.
  unfold untar. destruct (fs_dir_exists f dir); [|apply extract_confined]. intros [= <- <-] q _. by left.
Qed.

Lemma loop_confined u cache ts : forall ds m f f' ds' m', unpack_loop u cache ts ds m f = Some (f', ds', m') ->
  forall q, (forall t, t ∈ ts -> ~ in_dir (cache ++ [tarball_name u t])%list q) ->
    f' q = f q \/ exists t, t ∈ ts /\ in_dir q (cache ++ [tarball_name u t])%list /\ f q = None /\ f' q = Some Dir.
Proof.
  induction ts as [|t ts IH]; intros ds m f f' ds' m' H q Hq; cbn [unpack_loop] in H.
  - injection H as <- <- <-. by left.
  - destruct (unpack_one u cache t f) as [[[f1 d] a]|] eqn:E; [|done]. apply one_untar in E.
    destruct (untar_confined _ _ _ _ _ E q (Hq t ltac:(by left))) as [E1|(K1 & K2 & K3)].
    + destruct (IH _ _ _ _ _ _ H q (fun t' Ht' => Hq t' ltac:(by right))) as [E2|(t' & Ht' & K1 & K2 & K3)].
      * left. congruence.
      * right. exists t'. split; [by right|]. split; [done|]. split; [congruence|done].
    + right. exists t. split; [by left|]. split; [done|]. split; [done|].
      destruct (IH _ _ _ _ _ _ H q (fun t' Ht' => Hq t' ltac:(by right))) as [E2|(t' & Ht' & _ & K4 & _)]; congruence.
Qed.

Theorem C115_exact : forall c d u ts fetch md5 b dir configured dbs rv f f',
  cache_of c d -> tree_ok f -> cc_repos c = "ALL" -> cc_src_only c = false -> cc_binaries_only c = false ->
  (forall g q, ~ in_dir dir q -> fetch g q = g q) ->
  clean_command true c u ts fetch md5 b dir configured dbs rv f (Done f') ->
  let cleared q := (exists x sub, (sub = "src" \/ sub = "binary") /\ in_dir (d ++ [x; sub])%list q) \/
                   (exists h, h ∈ cc_hashes c /\ in_dir (tarball_dir c h) q) in
  let unpacked q := exists t, t ∈ ts /\ in_dir (d ++ [tarball_name u t])%list q in
  (forall q, cleared q -> ~ unpacked q -> ~ in_dir dir q ->
     f' q = None \/ (f' q = Some Dir /\ exists t, t ∈ ts /\ in_dir q (d ++ [tarball_name u t])%list)) /\
  (forall t, t ∈ ts -> ~ in_dir dir (d ++ [tarball_name u t])%list -> f' (d ++ [tarball_name u t])%list = Some Dir) /\
  (forall db, db ∈ dbs -> ru_name (db_repo db) ∈ configured ->
     f' (dir ++ [md5 (hash_text b (db_repo db) (db_types db) (rv_full rv))])%list = None) /\
  (forall q, ~ in_dir dir q -> ~ unpacked q ->
     f' q = f q \/ (f' q = None /\ (cleared q \/ exists x, q = (d ++ [x])%list)) \/
     (f' q = Some Dir /\ exists t, t ∈ ts /\ in_dir q (d ++ [tarball_name u t])%list)).
Proof.
  intros c d u ts fetch md5 b dir configured dbs rv f f' Hd Ht Hr Hs Hb Hf Hcc cleared unpacked.
  pose proof Hcc as (r & Hc & H).
  destruct r as [|f1 []]; [done|done|]. pose proof (cache_of_spec c d Hd) as Ed. rewrite Ed in H.
  destruct (unpack_tarballs u d ts (fetch f1)) as [[[f2 ds] m]|] eqn:Eu; [|by destruct H]. injection H as ->.
  destruct (clean_cache_spec c d f f1 Hd Ht Hc) as (G1 & G2 & G3).
  assert (Fr : forall q, ~ in_dir dir q -> clean_pkgdbs md5 b dir "ALL" configured dbs rv f2 q = f2 q).
  { intros q Hq. apply clean_pkgdbs_frame. intros db _ (s & E). apply Hq. eexists. by rewrite E, <- app_assoc. }
  assert (Un : forall q, ~ in_dir dir q -> ~ unpacked q -> f2 q = f1 q \/ exists t, t ∈ ts /\ in_dir q (d ++ [tarball_name u t])%list /\ f1 q = None /\ f2 q = Some Dir).
  { intros q Hq Hu. rewrite <- (Hf f1 q Hq). eapply loop_confined; [exact Eu|]. intros t K1 K2. apply Hu. by exists t. }
  assert (Ch : forall q, chosen c d q <-> exists x sub, (sub = "src" \/ sub = "binary") /\ in_dir (d ++ [x; sub])%list q).
  { intros q. unfold chosen, chosen_folder, chosen_sub. rewrite Hs, Hb. split.
    - intros (x & sub & _ & Hsub & K). exists x, sub. split; [tauto|done].
    - intros (x & sub & Hsub & K). exists x, sub. split; [by left|]. split; [tauto|done]. }
  split; [|split; [|split]].
  - intros q Hq Hu Hn. rewrite Fr by done.
    assert (f1 q = None) as E1 by (destruct Hq as [Hq|(h & Hh & Hq)]; [by apply G1, Ch|by eapply G3]).
    destruct (Un q Hn Hu) as [E|(t & Ht' & K1 & _ & K2)]; [left; by rewrite E|]. right. split; [done|]. by exists t.
  - intros t Ht' Hn. rewrite Fr by done. by eapply unpacked_dirs.
  - intros db Hdb Hn. unfold clean_pkgdbs, dbs_to_clear. cbn [String.eqb]. by apply (remove_dbs_removes md5 b dir).
  - intros q Hq Hu. rewrite Fr by done. destruct (Un q Hq Hu) as [E|(t & Ht' & K1 & _ & K2)].
    + rewrite E. destruct (G2 q) as [|(E1 & [K|[(x & _ & K & _)|K]])]; [by left| | |]; right; left; (split; [done|]).
      * left. left. by apply Ch.
      * right. by exists x.
      * left. by right.
    + right. right. split; [done|]. by exists t.
Qed.

Example C115_exact_example : exists f',
  clean_command true (cmd_clean ["one0000000000000"]) tb_unpacking [tb_of "a.tar.gz" "one" "alpha" "alpha"] (fun g => g)
    id false ["p"] [] [] (RVersion 3 6 1) tb_fs (Done f') /\ f' ["cache"; "one0000000000000"] = Some Dir /\ f' ["lib"] = tb_fs ["lib"].
Proof.
  eexists. split.
  - exists (Cleaned (clean_tarballs (cmd_clean ["one0000000000000"]) tb_fs) false). split; [apply cmd_cleaned|]. reflexivity.
  - split; vm_compute; reflexivity.
Qed.

Print Assumptions C94_before_partial.
Print Assumptions C115_exact.
