(** Further claims, in all cases: downloads, settings and the exit status. *)
From stdpp Require Import strings list gmap.
From Coq Require Import Ascii ZArith NArith Lia.
From Verif.model Require Import GoStr Nexus Graph RepoDb Plan Fs Rollback Env Install Download Urls Config Start.
From Verif.spec Require Import StrSpec RepoSpec LibSpec RollbackSpec UrlSpec StartSpec Exact3Spec.
From Verif.proofs Require Import GoStrLemmas RepoProofs ExtractProofs FsProofs RollbackProofs RunProofs RunProps RunProps2
  Rollback2Proofs RunLink ExampleChecks ExampleWorlds DownloadProofs UrlProofs StartProofs.
From Verif.props Require Import P_Library P_Url.

Local Open Scope string_scope.

(** ** C33, C36, C37: libraries with left-over backups, packages listed twice *)

(** After a failed run, in all cases: which packages are as before, which are replaced by
    a backup of an earlier run, which are lost and which stay new. *)
Theorem C33_exact c i sc w f : run_ok c i f -> world_ok c i sc w f -> ip_create_library (ri_plan i) = false ->
  rc_no_rollback c = false -> failed w -> rw_download_fails w = false ->
  let g := run_final c i w f in
  let installed := rw_install w (run_ops (prepare_ops c i) f) in
  (forall p, replaced c i p -> no_dir (Rollback.rc_library c) (backup_of p) g) /\
  (forall p, lost c i p -> no_dir (Rollback.rc_library c) p g) /\
  (forall p, left_new c i p -> same_dir (Rollback.rc_library c) p g p installed) /\
  (forall p x, replaced c i p -> ~ lost c i p -> ~ left_new c i p -> old_copy c f p x ->
     same_dir (Rollback.rc_library c) p g x f) /\
  (forall p, p ∈ required i -> ri_preinstalled i !! p = None -> no_dir (Rollback.rc_library c) p g) /\
  (forall q, ~ sc q ->
     (forall p, replaced c i p -> ~ in_dir (Rollback.rc_library c ++ [p]) q /\ ~ in_dir (Rollback.rc_library c ++ [backup_of p]) q) ->
     (forall p, p ∈ required i -> ri_preinstalled i !! p = None -> ~ in_dir (Rollback.rc_library c ++ [p]) q) -> g q = f q).
Proof. intros H1 H2 H3 H4 H5 H6. by apply rolled_back_exact. Qed.

(** core is outdated and given as a tarball; foo is given as a tarball after it.
    Restoring stops at core, so foo is lost with it. *)
Theorem C33_collateral_refuted : exists c i w f, run_ok c i f /\ world_ok c i nowhere w f /\
  ip_create_library (ri_plan i) = false /\ no_stale_backups c i f /\ new_are_absent c i f /\
  rc_no_rollback c = false /\ failed w /\ rw_download_fails w = false /\
  lost c i "core" /\ left_new c i "foo" /\
  f (Rollback.rc_library c ++ ["foo"; "DESCRIPTION"])%list = Some (File "foo 1") /\
  (forall s, run_final c i w f (Rollback.rc_library c ++ "foo" :: s)%list = None) /\
  (forall s, run_final c i w f (Rollback.rc_library c ++ backup_of "foo" :: s)%list = None).
Proof.
  assert (run_ok (ex_conf false false) (ex_run ex_files ex_dirs ["core"; "foo"]) (fs_of ex_files)) as H
    by (apply ex_run_ok; vm_compute; reflexivity).
  set (c := ex_conf false false) in *. set (i := ex_run ex_files ex_dirs ["core"; "foo"]) in *.
  assert (world_ok c i nowhere fails (fs_of ex_files)) as W by (apply install_core_ok; vm_compute; tauto).
  assert (updated c i "core") as U by (apply elem_updates, elem_of_list_In; vm_compute; tauto).
  assert (overwritten i "core" /\ overwritten i "foo") as [O1 O2].
  { split; (split; [apply elem_of_list_In; vm_compute; tauto|eexists; vm_compute; reflexivity]). }
  assert (ri_additional' i = ["core"; "foo"]) as A by reflexivity.
  assert (lost c i "core") as Lo.
  { split; [done|]. intros (q & l1 & l2 & l3 & E & _). rewrite A in E. destruct l1 as [|x l1]; cbn in E; injection E as <- E.
    - destruct l2 as [|y l2]; cbn in E; [discriminate E|]. injection E as <- E. by destruct l2.
    - destruct l1 as [|y l1]; cbn in E; injection E as <- E; [by destruct l2|by destruct l1]. }
  assert (left_new c i "foo") as Le.
  { split; [done|]. split.
    - intros Hu. apply elem_updates in Hu. revert Hu. apply (bool_decide_unpack _). vm_compute. exact I.
    - exists "core", [], [], []. split; [done|]. done. }
  assert (ip_create_library (ri_plan i) = false) as Hc by (vm_compute; reflexivity).
  destruct (C33_exact c i nowhere fails (fs_of ex_files) H W Hc eq_refl (or_introl eq_refl) eq_refl)
    as (F1 & _ & F3 & _).
  exists c, i, fails, (fs_of ex_files).
  split; [done|]. split; [done|]. split; [done|]. split; [apply (no_staleb_sound _ _ _ H); vm_compute; reflexivity|].
  split; [apply new_absentb_sound; vm_compute; reflexivity|]. split; [done|]. split; [by left|]. split; [done|].
  split; [done|]. split; [done|]. split; [vm_compute; reflexivity|]. split.
  - intros s. rewrite (F3 "foo" Le s). vm_compute. reflexivity.
  - apply F1. by right.
Qed.

(** A left-over backup: the package is not moved away, so nothing newer is installed
    unless it is given as a tarball. *)
Theorem C36_exact c i sc w f p : run_ok c i f -> world_ok c i sc w f -> ip_create_library (ri_plan i) = false ->
  replaced c i p -> f (Rollback.rc_library c ++ [backup_of p])%list <> None ->
  same_dir (Rollback.rc_library c) p (run_ops (prepare_ops c i) f) p f /\
  (p ∉ ri_additional i -> ~ failed w -> rt_outcome (r_install c i w f) = Exit 0 ->
   same_dir (Rollback.rc_library c) p (run_final c i w f) p f).
Proof.
  intros H1 H2 H3 Hp Hb. destruct (f1_stale c i f H1 H3 p Hp Hb) as [S _]. split; [done|].
  intros Ha Hf Ho. destruct (C36_success_partial c i sc w f H1 H2 Hf Ho) as [K _].
  assert (p ∈ required i) as Hr by (by eapply replaced_all).
  intros s. rewrite (K p Hr s). destruct H2 as (_ & [_ Hs] & _). rewrite (Hs p Hr Ha); [apply S|].
  rewrite (S []). by eapply replaced_dir.
Qed.

(** The same when the run is cut short. *)
Theorem C37_exact c i sc w f f' p : run_ok c i f -> world_ok c i sc w f -> ip_create_library (ri_plan i) = false ->
  interrupted (Rollback.rc_library c) sc (required i) (ri_additional i) (prepare_ops c i ++ [OInstall (rw_install w)])%list f f' ->
  replaced c i p -> f (Rollback.rc_library c ++ [backup_of p])%list <> None ->
  same_dir (Rollback.rc_library c) (backup_of p) f' (backup_of p) f /\
  (p ∉ ri_additional i -> same_dir (Rollback.rc_library c) p f' p f).
Proof.
  intros H1 H2 H3 Hi Hp Hb. rewrite interrupted_app in Hi.
  assert (p ∈ required i) as Hr by (by eapply replaced_all). destruct Hi as [Hi|Hi].
  - rewrite (prep_ops c i f H1 H3) in Hi. apply stage_interrupted in Hi as (l1 & l2 & El & ->).
    destruct (stage_stale (Rollback.rc_library c) l1 f p) as [S1 S2]; try done.
    + by eapply replaced_name.
    + intros q Hq. apply (names_replaced c i f H1). rewrite El. apply elem_of_app. by left.
    + by eapply replaced_dir.
  - destruct (f1_stale c i f H1 H3 p Hp Hb) as [S1 S2].
    assert (forall h, install_frame (Rollback.rc_library c) sc (required i) (ri_additional i) (run_ops (prepare_ops c i) f) h ->
      same_dir (Rollback.rc_library c) (backup_of p) h (backup_of p) f /\
      (p ∉ ri_additional i -> same_dir (Rollback.rc_library c) p h p f)) as K.
    { intros h Hh. split.
      - intros s. rewrite (frame_slot c i sc (run_ops (prepare_ops c i) f) h); [apply S2|..].
        + by apply (scratch_backup c i sc w f H2).
        + done.
        + by apply (backup_not_all c i f H1).
      - intros Ha s. destruct Hh as [_ Hs]. rewrite (Hs p Hr Ha); [apply S1|]. rewrite (S1 []). by eapply replaced_dir. }
    cbn [interrupted interrupted_op exec] in Hi. destruct Hi as [->|[Hi|[->|[]]]]; [|by apply K|apply K, H2].
    split; [done|]. done.
Qed.

(** ** C40: the exit status *)

Theorem C40_exact c i w f :
  (rt_outcome (r_install c i w f) = Exit 0 <->
   rw_download_fails w = false /\
   (ip_create_library (ri_plan i) = true -> rc_strict c = false /\ is_Some (mkdir_all (Rollback.rc_library c) f))) /\
  (rt_outcome (r_install c i w f) = Exit 0 \/ rt_outcome (r_install c i w f) = Fatal).
Proof.
  split; [split; [apply C40_fatal_partial|]|].
  - intros [H1 H2]. unfold r_install. destruct (ip_create_library (ri_plan i)); cbn [andb].
    + destruct (H2 eq_refl) as [-> [g ->]]. by rewrite H1.
    + by rewrite H1.
  - unfold r_install. destruct (_ && rc_strict c); [by right|]. destruct (_ && _); [by right|].
    destruct (rw_download_fails w); [by right|by left].
Qed.

(** ** C53: what becomes of a request *)

Theorem C53_exact dest w r f d err f' :
  download_package dest w r f = (d, err, f') -> fetches dest f r (d_path d) err f'.
Proof.
  unfold download_package, fs_exists, fs_dir_exists.
  destruct (f dest) as [n|] eqn:E; [intros [= <- <- <-]; by econstructor|].
  destruct r as [|c|c ok]; [intros [= <- <- <-]; by constructor..|].
  destruct (f (removelast dest)) as [[x|]|] eqn:D.
  2: destruct ok; intros [= <- <- <-]; constructor; try done; try (by rewrite bool_decide_eq_true_2);
       intros q Hq; by rewrite bool_decide_eq_false_2.
  all: intros [= <- <- <-]; constructor; [done|congruence].
Qed.

(** A cut file stays and is taken for whole the next time, see C52. *)
Example C53_exact_example :
  let f : fsys := fun q => if bool_decide (q = ["c"]) then Some Dir else None in
  let w := empty_wanted in
  let first := download_package ["c"; "a.tar.gz"] w (Body "hal" false) f in
  first.1.2 = true /\ d_path first.1.1 = None /\
  let second := download_package ["c"; "a.tar.gz"] w (Body "half" true) first.2 in
  second.1.2 = false /\ d_path second.1.1 = Some ["c"; "a.tar.gz"] /\ second.2 ["c"; "a.tar.gz"] = Some (File "hal").
Proof. vm_compute. by repeat split. Qed.

(** ** C71: the number of workers *)

Theorem C71_exact flag file cpus :
  (forall t, flag = Some t \/ flag = None /\ file = Some t ->
     workers flag file cpus = if (1 <=? t)%Z then t else Z.min cpus 8) /\
  (flag = None -> file = None -> workers flag file cpus = if (1 <=? cpus)%Z then cpus else Z.min cpus 8).
Proof.
  unfold workers, threads_setting, setting, worker_count. split.
  - intros t [-> |[-> ->]]; destruct (Z.ltb_spec t 1), (Z.leb_spec 1 t), (Z.leb_spec cpus 8); lia.
  - intros -> ->. destruct (Z.ltb_spec cpus 1), (Z.leb_spec 1 cpus), (Z.leb_spec cpus 8); lia.
Qed.

Example C71_exact_example :
  workers None None 64 = 64%Z /\ workers None (Some 0%Z) 64 = 8%Z /\ workers (Some 3%Z) (Some 0%Z) 64 = 3%Z /\
  workers (Some 0%Z) (Some 5%Z) 4 = 4%Z.
Proof. vm_compute. by repeat split. Qed.

(** ** C77: the directories for downloads *)

Theorem C77_exact md5 cache rv ds repos f :
  (forall n r, get_repos ds !! n = Some r <-> exists w, last_such (fun w => ru_name (w_repo w) = n) ds w /\ w_repo w = r) /\
  (forall f', make_dirs md5 cache rv repos f = Some f' ->
     (forall q, download_dir md5 cache rv repos q -> f' q = Some Dir) /\
     (forall q, ~ download_dir md5 cache rv repos q -> f' q = f q)) /\
  (make_dirs md5 cache rv repos f = None <-> exists q x, download_dir md5 cache rv repos q /\ f q = Some (File x)).
Proof.
  split; [|split].
  - intros n r. unfold get_repos. induction ds as [|w ds IH] using rev_ind.
    + cbn. split; [done|]. intros (w & (l1 & l2 & E & _) & _). by destruct l1.
    + rewrite foldl_app. cbn [foldl]. destruct (decide (ru_name (w_repo w) = n)) as [E|N].
      * rewrite E, lookup_insert. split.
        -- intros [= <-]. exists w. split; [|done]. exists ds, []. split; [done|]. split; [done|]. intros y Hy. by apply elem_of_nil in Hy.
        -- intros (w' & H & <-). f_equal. f_equal. eapply last_such_unique; [|exact H].
           exists ds, []. split; [done|]. split; [done|]. intros y Hy. by apply elem_of_nil in Hy.
      * rewrite lookup_insert_ne by done. rewrite IH. split; intros (w' & (l1 & l2 & E & P & Q) & <-); exists w'; (split; [|done]).
        -- exists l1, (l2 ++ [w])%list. split; [by rewrite E, <- app_assoc|]. split; [done|].
           intros y Hy. apply elem_of_app in Hy as [Hy|Hy]; [by apply Q|]. apply elem_of_list_singleton in Hy as ->. done.
        -- destruct l2 as [|z l2 _] using rev_ind.
           ++ apply app_inj_tail in E as [_ ->]. done.
           ++ rewrite app_comm_cons, app_assoc in E. apply app_inj_tail in E as [-> <-].
              exists l1, l2. split; [done|]. split; [done|]. intros y Hy. apply Q. apply elem_of_app. by left.
  - revert f. induction repos as [|r repos IH]; intros f f'; cbn [make_dirs].
    + intros [= <-]. split; [|done]. intros q (r & rest & Hr & _). by apply elem_of_nil in Hr.
    + destruct (mkdir_all _ f) as [f1|] eqn:E1; [|done]. destruct (mkdir_all _ f1) as [f2|] eqn:E2; [|done].
      intros H. destruct (IH _ _ H) as [K1 K2]. apply mkdir_spec in E1 as (A1 & A2 & _). apply mkdir_spec in E2 as (B1 & B2 & _).
      destruct (make_dirs_spec _ _ _ _ _ _ H) as [K3 _]. split.
      * intros q (r' & rest & Hr & Hq). apply elem_of_cons in Hr as [-> |Hr]; [|apply K1; by exists r', rest].
        apply K3. destruct Hq as [Hq|Hq]; [|apply B1; by exists rest].
        destruct (below q (join_path (join_path (join_path cache (repo_dir md5 r)) "binary") (rv_short rv))) eqn:Eb.
        -- apply B1. by apply below_spec.
        -- rewrite B2; [apply A1; by exists rest|]. rewrite <- below_spec. congruence.
      * intros q N. rewrite K2; [rewrite B2; [rewrite A2|]|].
        -- done.
        -- intros [s Hs]. apply N. exists r, s. split; [by left|by left].
        -- intros [s Hs]. apply N. exists r, s. split; [by left|by right].
        -- intros (r' & s & Hr & Hs). apply N. exists r', s. split; [by right|done].
  - revert f. induction repos as [|r repos IH]; intros f; cbn [make_dirs].
    + split; [done|]. intros (q & x & (r & s & Hr & _) & _). by apply elem_of_nil in Hr.
    + destruct (mkdir_all _ f) as [f1|] eqn:E1.
      2:{ split; [|done]. intros _. apply mkdir_none in E1 as (q & x & [s Hs] & Hx). exists q, x. split; [|done].
          exists r, s. split; [by left|by left]. }
      pose proof E1 as M1. apply mkdir_spec in E1 as (A1 & A2 & A3).
      destruct (mkdir_all _ f1) as [f2|] eqn:E2.
      2:{ split; [|done]. intros _. apply mkdir_none in E2 as (q & x & [s Hs] & Hx). exists q, x. split.
          - exists r, s. split; [by left|by right].
          - rewrite <- Hx. symmetry. apply A2. intros Hi. apply A1 in Hi. congruence. }
      apply mkdir_spec in E2 as (B1 & B2 & B3). rewrite IH. split; intros (q & x & (r' & s & Hr & Hs) & Hx).
      * exists q, x. split; [exists r', s; split; [by right|done]|]. rewrite <- Hx. symmetry. rewrite B2, A2; [done|..].
        -- intros Hi. destruct (below q (join_path (join_path (join_path cache (repo_dir md5 r)) "binary") (rv_short rv))) eqn:Eb.
           ++ apply below_spec, B1 in Eb. congruence.
           ++ rewrite B2 in Hx by (rewrite <- below_spec; congruence). apply A1 in Hi. congruence.
        -- intros Hi. apply B1 in Hi. congruence.
      * assert (f1 q = Some (File x)) as F1 by (rewrite A2; [done|by eapply A3]).
        exists q, x. split; [|rewrite B2; [done|by eapply B3]].
        apply elem_of_cons in Hr as [-> |Hr]; [|by exists r', s]. exfalso.
        destruct Hs as [Hs|Hs]; [eapply A3; [exact Hx|by exists s]|eapply B3; [exact F1|by exists s]].
Qed.

(** ** C83: the directory of Linux binaries *)

Theorem C83_exact rel u : linux_binary_uri rel = u <-> linux_place rel u.
Proof.
  split.
  - intros <-. unfold linux_binary_uri. destruct rel as [r|]; [|constructor].
    destruct (String.eqb_spec (or_id r) "") as [E|N1]; [by constructor|].
    destruct (String.eqb_spec (or_id r) "ubuntu") as [E|N2]; [rewrite E; by constructor|].
    destruct (String.eqb_spec (or_id r) "centos") as [E|N3]; cbn [orb].
    { destruct (or_version_id r) as [|c rest] eqn:V; [apply lp_crash; auto|eapply lp_centos; eauto]. }
    destruct (String.eqb_spec (or_id r) "rhel") as [E|N4].
    { destruct (or_version_id r) as [|c rest] eqn:V; [apply lp_crash; auto|eapply lp_centos; eauto]. }
    constructor. set_solver.
  - unfold linux_binary_uri. intros [|r E|r E|r c rest E V|r E V|r E].
    + done.
    + by rewrite E.
    + by rewrite E.
    + rewrite V. by destruct E as [-> | ->].
    + rewrite V. by destruct E as [-> | ->].
    + destruct (String.eqb_spec (or_id r) "") as [X|_]; [set_solver|].
      destruct (String.eqb_spec (or_id r) "ubuntu") as [X|_]; [set_solver|].
      destruct (String.eqb_spec (or_id r) "centos") as [X|_]; [set_solver|].
      destruct (String.eqb_spec (or_id r) "rhel") as [X|_]; [set_solver|]. done.
Qed.

Example C83_exact_example :
  linux_place (Some (red_hat "10.1")) (Some "centos/1") /\ linux_place (Some (red_hat "")) None.
Proof. split; apply C83_exact; vm_compute; reflexivity. Qed.

(** ** C87: the environment of a package *)

Theorem C87_exact p cs :
  (forall e, first_such (fun kv => kv.1 = p) (concat cs) (p, e) -> run_env p cs = default [] e) /\
  (forall e, last_such (fun kv => kv.1 = p /\ kv.2 <> None) (concat cs) (p, Some e) -> install_env p cs = e) /\
  ((forall e, (p, Some e) ∉ concat cs) -> run_env p cs = [] /\ install_env p cs = []).
Proof.
  assert (run_env p cs = match assoc p (concat cs) with Some e => default [] e | None => [] end) as R.
  { induction cs as [|m cs IH]; [done|]. cbn [concat run_env]. rewrite IH.
    clear IH. induction m as [|[k v] m IH]; [done|]. cbn [app assoc]. by destruct (String.eqb k p). }
  assert (forall l : list (string * option (list (string * string))), match assoc p l with
    | Some e => (p, e) ∈ l | None => forall e, (p, e) ∉ l end) as A.
  { intros l. destruct (assoc p l) as [e|] eqn:E; [by apply assoc_in|]. intros e H. apply assoc_some in H as [e' H]. congruence. }
  split; [|split].
  - intros e (l1 & l2 & E & _ & N). rewrite R, E. clear -N. induction l1 as [|[k v] l1 IH]; cbn [app assoc].
    + by rewrite String.eqb_refl.
    + destruct (String.eqb_spec k p) as [-> |Hk]; [exfalso; apply (N (p, v)); [by left|done]|].
      apply IH. intros y Hy. apply N. by right.
  - intros e (l1 & l2 & E & _ & N). unfold install_env, install_envs. rewrite E, foldl_app. cbn [foldl fst snd].
    set (m0 := foldl _ ∅ l1). clearbody m0. clear -N.
    assert (forall m : gmap string (list (string * string)), m !! p = Some e ->
      foldl (fun m kv => match kv.2 with Some e => <[kv.1 := e]> m | None => m end) m l2 !! p = Some e) as F.
    { induction l2 as [|[k [v|]] l2 IH]; intros m Hm; cbn [foldl fst snd]; [done| |].
      - apply IH; [intros y Hy; apply N; by right|]. destruct (decide (k = p)) as [-> |Hk].
        + exfalso. apply (N (p, Some v)); [by left|done].
        + by rewrite lookup_insert_ne.
      - apply IH; [|done]. intros y Hy. apply N. by right. }
    rewrite F; [done|]. apply lookup_insert.
  - intros N. split.
    + rewrite R. specialize (A (concat cs)). destruct (assoc p (concat cs)) as [[e|]|]; [by apply N in A|done..].
    + unfold install_env, install_envs.
      assert (forall (l : list (string * option (list (string * string)))) (m : gmap string (list (string * string))),
        (forall e, (p, Some e) ∉ l) -> m !! p = None ->
        foldl (fun m kv => match kv.2 with Some e => <[kv.1 := e]> m | None => m end) m l !! p = None) as F.
      { induction l as [|[k [v|]] l IH]; intros m Hl Hm; cbn [foldl fst snd]; [done| |].
        - apply IH; [intros e He; apply (Hl e); by right|]. destruct (decide (k = p)) as [-> |Hk].
          + exfalso. apply (Hl v). by left.
          + by rewrite lookup_insert_ne.
        - apply IH; [|done]. intros e He. apply (Hl e). by right. }
      by rewrite F.
Qed.

Example C87_exact_example :
  let cs := [[("a", None)]; [("b", Some [("X", "1")])]; [("a", Some [("X", "2")])]; [("a", Some [("X", "3")])]; [("a", None)]] in
  run_env "a" cs = [] /\ install_env "a" cs = [("X", "3")] /\ run_env "b" cs = [("X", "1")].
Proof. split; [|split]; vm_compute; reflexivity. Qed.

Print Assumptions C40_exact.
Print Assumptions C53_exact.
Print Assumptions C71_exact.
Print Assumptions C77_exact.
Print Assumptions C83_exact.
Print Assumptions C87_exact.

Print Assumptions C33_exact.
Print Assumptions C33_collateral_refuted.
Print Assumptions C36_exact.
Print Assumptions C37_exact.
