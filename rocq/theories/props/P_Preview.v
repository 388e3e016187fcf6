(** C144: plan as a preview of install. *)
From stdpp Require Import strings list gmap.
From Coq Require Import Ascii ZArith Lia.
From Verif.model Require Import GoStr Version Desc Control Nexus RepoDb DbCache Graph Plan Pacman Fs Extract Install OsRelease Download Urls Tarballs
  Clean Commands Preview.
From Verif.spec Require Import StrSpec RepoSpec GraphSpec PlanSpec LibSpec ExtractSpec InstallSpec TarballSpec DbCacheSpec PreviewSpec.
From Verif.proofs Require Import FsProofs TarballProofs GraphProofs ExampleChecks PreviewProofs.
From Verif.props Require Import P_DbCache P_Graph P_Tarball.

Local Open Scope string_scope.

(** The run of [plan_once], taken apart. *)
Lemma once_inv s w o st r m st' : plan_once s w o st = PvDone r m st' ->
  let dbs := configured_dbs (pv_os s) (pv_rel s) (pv_repos s) (pv_customs s) in
  dbs <> [] /\ exists l P, fetch_all s w 0 dbs (st_dbs st) = Some (l, P) /\ st_dbs st' = P /\
  let nx := Nexus l ∅ (default_type (pv_os s)) in
  let c := set_plan_customizations (cf_suggests (pv_conf s)) (cf_packages (pv_conf s)) (cf_customs (pv_conf s))
    (default_config (cf_no_recommended (pv_conf s))) (ignore_packages nx (cf_ignore (pv_conf s))) in
  (c = None /\ r = PIFatal /\ m = ∅ /\ st_fs st' = st_fs st \/
   exists x ds ds', c = Some x /\ unpack_tarballs (pv_unpack s) (pv_cache s) (pv_tarballs s) (st_fs st) = Some (st_fs st', ds, m) /\
     unpack_descriptions (pv_read s (st_fs st')) (pv_descriptions s) = Some ds' /\
     r = plan_install o (pv_conf s) nx ds ds' (installed_now s (st_fs st)) (fs_dir_exists (st_fs st) (pv_library s))).
Proof.
  unfold plan_once. cbv zeta. destruct (configured_dbs _ _ _ _) as [|db dbs] eqn:Ed; [done|]. rewrite <- Ed. intros H. split; [by rewrite Ed|].
  destruct (fetch_all s w 0 _ (st_dbs st)) as [[l P]|]; [|done]. exists l, P. split; [done|].
  destruct (set_plan_customizations _ _ _ _ _) as [x|].
  - destruct (unpack_tarballs _ _ _ _) as [[[f' ds] m']|]; [|done].
    destruct (unpack_descriptions _ _) as [ds'|] eqn:Eu; [|done]. injection H as <- <- <-. cbn [st_dbs st_fs].
    split; [done|]. right. by exists x, ds, ds'.
  - injection H as <- <- <-. split; [done|]. by left.
Qed.

Lemma once_intro s w o st l P x f' ds ds' m :
  let dbs := configured_dbs (pv_os s) (pv_rel s) (pv_repos s) (pv_customs s) in
  let nx := Nexus l ∅ (default_type (pv_os s)) in
  let c := set_plan_customizations (cf_suggests (pv_conf s)) (cf_packages (pv_conf s)) (cf_customs (pv_conf s))
    (default_config (cf_no_recommended (pv_conf s))) (ignore_packages nx (cf_ignore (pv_conf s))) in
  dbs <> [] -> fetch_all s w 0 dbs (st_dbs st) = Some (l, P) ->
  (c = None -> plan_once s w o st = PvDone PIFatal ∅ (PlanState (st_fs st) P)) /\
  (c = Some x -> unpack_tarballs (pv_unpack s) (pv_cache s) (pv_tarballs s) (st_fs st) = Some (f', ds, m) ->
   unpack_descriptions (pv_read s f') (pv_descriptions s) = Some ds' ->
   plan_once s w o st = PvDone (plan_install o (pv_conf s) nx ds ds' (installed_now s (st_fs st))
     (fs_dir_exists (st_fs st) (pv_library s))) m (PlanState f' P)).
Proof.
  cbv zeta. intros Hd Hf. unfold plan_once. destruct (configured_dbs _ _ _ _) as [|db dbs] eqn:Ed; [done|]. rewrite <- Ed in *. rewrite Hf. split.
  - by intros ->.
  - by intros -> -> ->.
Qed.

(** What a run of planInstall changes: the directories of tarballs that were not unpacked
    yet, directories on the way to the cache, and the files of the configured
    databases. *)
Theorem C144_changes s w o st r m st' : sums (u_md5 (pv_unpack s)) -> plan_once s w o st = PvDone r m st' ->
  (forall q, st_fs st' q = st_fs st q \/
     (exists t h, t ∈ pv_tarballs s /\ called (u_md5 (pv_unpack s)) t h /\ st_fs st (pv_cache s ++ [h])%list <> Some Dir /\
        in_dir (pv_cache s ++ [h])%list q) \/
     (in_dir q (pv_cache s) /\ st_fs st q = None /\ st_fs st' q = Some Dir)) /\
  (forall q, st_dbs st' q = st_dbs st q \/
     exists db, db ∈ configured_dbs (pv_os s) (pv_rel s) (pv_repos s) (pv_customs s) /\ q = file_of s db).
Proof.
  intros Hs H. apply once_inv in H as (_ & l & P & Ef & EP & H). split.
  - destruct H as [(_ & _ & _ & ->)|(x & ds & ds' & _ & Hu & _)]; [by left|]. intros q.
    destruct (loop_frame _ _ _ _ _ _ _ _ _ Hu q) as [|[(t & H1 & H2 & H3)|]]; [by left| |by right; right].
    right. left. exists t, (tarball_name (pv_unpack s) t). split; [done|]. split; [by apply name_called|done].
  - intros q. rewrite EP. destruct (decide (q ∈ map (file_of s) (configured_dbs (pv_os s) (pv_rel s) (pv_repos s) (pv_customs s)))) as [Hq|Hq].
    + right. apply elem_of_list_fmap in Hq as (db & -> & Hq). by exists db.
    + left. by apply (fetch_frame _ _ _ _ _ _ _ Ef).
Qed.

Lemma once_library s w o st r m st' : apart (pv_cache s) (pv_library s) -> plan_once s w o st = PvDone r m st' ->
  forall q, in_dir (pv_library s) q -> st_fs st' q = st_fs st q.
Proof.
  intros Ha H. apply once_inv in H as (_ & l & P & _ & _ & [(_ & _ & _ & ->)|(x & ds & ds' & _ & Hu & _)]); [done|].
  apply (library_same _ _ (pv_cache s)); [done|]. intros q.
  destruct (loop_frame _ _ _ _ _ _ _ _ _ Hu q) as [|[(t & _ & H2 & _)|(H2 & _)]]; [by left| |by right; right].
  right. left. by eexists.
Qed.

(** Nothing in the library changes when plan is run. *)
Theorem C144_library s w o st r m st' : apart (pv_cache s) (pv_library s) -> plan_once s w o st = PvDone r m st' ->
  forall q, in_dir (pv_library s) q -> st_fs st' q = st_fs st q.
Proof. exact (once_library s w o st r m st'). Qed.

(** install after plan: whatever has become of the repositories, as long as the databases
    in the cache are not too old it has the same plan, up to the order of lists, and the
    same tarballs; and it leaves everything as it is until packages are
    installed.  With the same order of map iterations the plan is equal.  [o] and [o2]
    are the orders of the two runs, [w] and [w2] what the repositories answer and what
    the clock says. *)
Theorem C144_again s w w2 o o2 st r m st' : plan_once s w o st = PvDone r m st' ->
  let dbs := configured_dbs (pv_os s) (pv_rel s) (pv_repos s) (pv_customs s) in
  oracle_ok o -> oracle_ok o2 -> gob_ok (pv_gob s) -> lists_ok s -> apart (pv_cache s) (pv_library s) ->
  (forall c d, u_parse (pv_unpack s) c = Some d -> desc_deps_ok d) ->
  NoDup (map (file_of s) dbs) -> arrivals_ok s w dbs -> filed_ok s w st ->
  (forall db, db ∈ dbs -> still_used w2 (st_dbs st' (file_of s db))) ->
  exists r2 st2, plan_once s w2 o2 st' = PvDone r2 m st2 /\ same_outcome r r2 /\ same_state st' st2 /\ (o2 = o -> r2 = r).
Proof.
  intros H dbs Ho Ho2 HG Hl Ha Hp HN Har Hfi Hu. pose proof (once_library _ _ _ _ _ _ _ Ha H) as Hlib.
  apply once_inv in H as (Hne & l & P & Ef & EP & H).
  assert (forall db, db ∈ dbs -> NoDup (db_types db).*1 /\ maps_filed (db_types db)) as Ht by (intros db; apply configured_types).
  destruct (fetch_again s w w2 dbs HG 0 (st_dbs st) (st_dbs st') l P Ef) as (Q' & EQ & HQ).
  { done. }
  { intros db Hdb. by apply Ht. }
  { exact Har. }
  { intros db Hdb. rewrite <- EP. by apply Hu. }
  { intros q _. by rewrite EP. }
  destruct (maps_nexus l (default_type (pv_os s))) as [Hnx HR].
  { apply (fetch_filed s w dbs 0 (st_dbs st) l P Ef); [done|intros db Hdb; by apply Ht|apply Hfi|].
    intros q t b l0 _ E1 E2 ty mm Hm. by eapply (proj2 Hfi). }
  cbv zeta in H. destruct (installed_same s (st_fs st) (st_fs st') Hl Hlib) as [I1 I2].
  destruct H as [(Ec & -> & -> & Efs)|(x & ds & ds' & Ec & Eu & Ed & ->)].
  - exists PIFatal, (PlanState (st_fs st') Q'). split.
    + by apply (once_intro s w2 o2 st' l Q' (default_config false, Nexus [] ∅ STSource) (st_fs st') [] [] ∅ Hne EQ).
    + split; [done|]. split; [|done]. split; [done|]. intros q. symmetry. apply HQ.
  - eexists _, (PlanState (st_fs st') Q'). split.
    + destruct (once_intro s w2 o2 st' l Q' x (st_fs st') ds ds' m Hne EQ) as [_ K]. apply K; [done| |done].
      by eapply unpack_again.
    + rewrite I1, I2. split.
      * apply outcome_same; [done..| |by eapply descriptions_ok]. eapply tarballs_ok; [done|exact Eu|constructor].
      * split; [split; [done|]; intros q; symmetry; apply HQ|]. by intros ->.
Qed.

(** ** An example: one repository and one tarball *)

Definition pw_map : gmap string desc :=
  {["app" := mk_pkg "app" "1.0" [] ["base64"] [] []; "base64" := mk_pkg "base64" "2.0" [] [] [] []]}.
Definition pw_old : gmap string desc := {["app" := mk_pkg "app" "0.9" [] [] [] []]}.

Definition pw_gob : gob := {|
  g_text l b := l = [(STSource, pw_map)] /\ b = "n" \/ l = [(STSource, pw_old)] /\ b = "o";
  g_read b := if String.eqb b "n" then Some [(STSource, pw_map)] else if String.eqb b "o" then Some [(STSource, pw_old)] else None |}.

Definition pw : plan_setting := {|
  pv_os := Linux; pv_rel := None; pv_repos := [[("CRAN", "https://cran.r-project.org")]]; pv_customs := [];
  pv_conf := PlanConfig ["app"] [] false false false []; pv_library := ["lib"]; pv_cache := ["home"; "cache"];
  pv_tarballs := [tb_of "a.tar.gz" "one" "alpha" "alpha"]; pv_unpack := tb_unpacking;
  pv_descriptions := []; pv_read := fun _ _ => None; pv_md5 := fun x => x; pv_db_dir := ["db"]; pv_rversion := RVersion 4 0 2;
  pv_gob := pw_gob; pv_list := fun f d => List.filter (fun n => fs_dir_exists f (d ++ [n])%list) ["app"; "rest"];
  pv_parse := fun c => mk_pkg c "0.5" [] [] [] [] |}.

(** A library with an old app. *)
Definition pw_fs : fsys := fun q =>
  if bool_decide (q ∈ [[]; ["home"]; ["lib"]; ["lib"; "app"]]) then Some Dir
  else if bool_decide (q = ["lib"; "app"; "DESCRIPTION"]) then Some (File "app") else None.

Definition pw_state : plan_state := PlanState pw_fs (fun _ => PNothing).

(** The repository at a time, with new or old packages or offline. *)
Definition pw_world (now : Z) (a : option (gmap string desc)) (b : string) : fetch_world := {|
  fw_now := now; fw_env := None; fw_arrivals := fun _ => match a with Some mm => Some [(STSource, Some mm)] | None => None end;
  fw_text := fun _ => b; fw_how := fun _ => Written; fw_rm := fun _ => true |}.

(** The packages of a plan, what is to be updated, and the tarballs. *)
Definition pw_shows (e : plan_end) : option (list string * list (string * string * string) * list string) :=
  match e with
  | PvDone (PIPlan _ ip) mm _ =>
      Some (planned_names ip, map (fun u => (op_package u, op_old u, op_new u)) (ip_outdated ip), (map_to_list mm).*1)
  | _ => None
  end.

Definition pw_after (e : plan_end) : plan_state := match e with PvDone _ _ st => st | PvEnded => pw_state end.

Lemma pw_gob_ok : gob_ok pw_gob.
Proof.
  split.
  - by intros l s [[-> ->]|[-> ->]].
  - intros l a b H Hb. cbn in *. assert (a +:+ b = "n" \/ a +:+ b = "o") as K by (destruct H as [[_ H]|[_ H]]; auto).
    destruct a as [|c a]; [done|]. exfalso. destruct K as [K|K]; cbn in K; injection K as _ K; destruct a; done.
Qed.

Lemma pw_arrivals now mm b : g_text pw_gob [(STSource, mm)] b ->
  arrivals_ok pw (pw_world now (Some mm) b) (configured_dbs Linux None [[("CRAN", "https://cran.r-project.org")]] []).
Proof.
  intros Hb i db Hi. apply elem_of_list_lookup_2 in Hi. cbn in Hi. apply elem_of_list_singleton in Hi as ->. split.
  - intros ar st m [= <-] Hm. apply elem_of_list_singleton in Hm as [= -> ->]. by left.
  - intros l (ar & n & [= <-] & G & _). inversion G as [|? ? ? ? ? G1|]; subst. by inversion G1.
Qed.

(** Before the database is too old, install has the plan that plan told about, though
    the repository is offline. *)
Example C144_example :
  let e := plan_once pw (pw_world 100 (Some pw_map) "n") id_oracle pw_state in
  let e2 := plan_once pw (pw_world 3000 None "") rev_oracle (pw_after e) in
  pw_shows e = Some (["base64"; "app"], [("app", "0.5", "1.0")], ["alpha"]) /\
  st_fs (pw_after e) ["home"; "cache"; "one0000000000000"; "alpha"; "DESCRIPTION"] = Some (File "alpha") /\
  pw_shows e2 = pw_shows e /\
  oracle_ok id_oracle /\ oracle_ok rev_oracle /\ gob_ok (pv_gob pw) /\ lists_ok pw /\ apart (pv_cache pw) (pv_library pw) /\
  (forall c d, u_parse (pv_unpack pw) c = Some d -> desc_deps_ok d) /\
  NoDup (map (file_of pw) (configured_dbs (pv_os pw) (pv_rel pw) (pv_repos pw) (pv_customs pw))) /\
  arrivals_ok pw (pw_world 100 (Some pw_map) "n") (configured_dbs (pv_os pw) (pv_rel pw) (pv_repos pw) (pv_customs pw)) /\
  filed_ok pw (pw_world 100 (Some pw_map) "n") pw_state /\
  (forall db, db ∈ configured_dbs (pv_os pw) (pv_rel pw) (pv_repos pw) (pv_customs pw) ->
     still_used (pw_world 3000 None "") (st_dbs (pw_after e) (file_of pw db))).
Proof.
  cbv zeta. split; [by vm_compute|]. split; [by vm_compute|]. split; [by vm_compute|].
  split; [by intros i l|]. split; [exact rev_oracle_ok|]. split; [exact pw_gob_ok|].
  split. { intros f g d H. cbn [pv_list pw]. apply filter_ext. intros n. unfold fs_dir_exists. by rewrite H. }
  split. { split; intros [x E]; done. }
  split. { intros c d [= <-]. unfold desc_deps_ok, deps_ok. cbn. split; [|split; [|split]]; intros k v Hk; by rewrite lookup_empty in Hk. }
  split. { apply NoDup_singleton. }
  split. { apply pw_arrivals. by left. }
  split.
  { split; [|done]. intros i ar t mm [= <-] Hm. apply elem_of_list_singleton in Hm as [= -> ->]. intros p d Hp.
    unfold pw_map in Hp. apply lookup_insert_Some in Hp as [[<- <-]|[_ Hp]]; [done|]. apply lookup_singleton_Some in Hp as [<- <-]. done. }
  intros db Hdb. apply elem_of_list_singleton in Hdb as ->. exists 100%Z, "n". split; [by vm_compute|]. cbn. lia.
Qed.

(** After that time install may have another plan. *)
Theorem C144_expired_refuted : exists w w2 st', 
  st' = pw_after (plan_once pw w id_oracle pw_state) /\
  arrivals_ok pw w (configured_dbs (pv_os pw) (pv_rel pw) (pv_repos pw) (pv_customs pw)) /\
  pw_shows (plan_once pw w id_oracle pw_state) = Some (["app"], [("app", "0.5", "0.9")], ["alpha"]) /\
  pw_shows (plan_once pw w2 id_oracle st') = Some (["base64"; "app"], [("app", "0.5", "1.0")], ["alpha"]) /\
  (fw_now w2 - fw_now w = 3600)%Z.
Proof.
  exists (pw_world 100 (Some pw_old) "o"), (pw_world 3700 (Some pw_map) "n"). eexists. split; [done|].
  split; [apply pw_arrivals; by right|]. split; [by vm_compute|]. split; by vm_compute.
Qed.

Print Assumptions C144_changes.
Print Assumptions C144_library.
Print Assumptions C144_again.
Print Assumptions C144_expired_refuted.
