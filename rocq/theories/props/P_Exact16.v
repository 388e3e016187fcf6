(** The files of databases, and what happens when one is removed by another run. *)
From stdpp Require Import strings list gmap relations.
From Coq Require Import Ascii ZArith Lia.
From Verif.model Require Import GoStr Version Desc Nexus RepoDb DbCache Fs Install OsRelease Urls Clean Preview Fetchers.
From Verif.spec Require Import RepoSpec DbCacheSpec FetchersSpec.
From Verif.proofs Require Import GoStrLemmas UrlProofs FetchersProofs.
From Verif.props Require Import P_DbCache P_Exact5 P_Preview P_Fetchers.

Local Open Scope string_scope.

(** ** C144: which databases share a file *)

(** Runs with one cache use the same file for two databases of theirs if and only if the
    names of the repositories with the addresses are the same text, and R has the same
    version. *)
Theorem C144_files s s' db db' :
  (forall a b, pv_md5 s a = pv_md5 s b -> a = b) -> pv_md5 s' = pv_md5 s -> pv_db_dir s' = pv_db_dir s ->
  rv_ok (pv_rversion s) -> rv_ok (pv_rversion s') ->
  db ∈ configured_dbs (pv_os s) (pv_rel s) (pv_repos s) (pv_customs s) ->
  db' ∈ configured_dbs (pv_os s') (pv_rel s') (pv_repos s') (pv_customs s') ->
  (exists h, file_of s db = (pv_db_dir s ++ [h])%list) /\
  (file_of s db = file_of s' db' <->
   ru_name (db_repo db) +:+ ru_url (db_repo db) = ru_name (db_repo db') +:+ ru_url (db_repo db') /\
   pv_rversion s = pv_rversion s').
Proof.
  intros Hinj Em Ed Hv Hv' Hdb Hdb'. split; [by eexists|].
  unfold configured_dbs in Hdb, Hdb'. apply elem_of_list_fmap in Hdb as (r & -> & _). apply elem_of_list_fmap in Hdb' as (r' & -> & _).
  unfold file_of, db_file, new_repo_db. cbn [db_repo db_types]. rewrite Em, Ed. split.
  - intros E. apply app_inv_head in E. injection E as E. apply Hinj in E. by apply C18_exact in E.
  - intros [E1 E2]. f_equal. f_equal. f_equal. by apply C18_exact.
Qed.

(** Two repositories of one configuration. *)
Example C144_files_example :
  let s := {| pv_os := Linux; pv_rel := None; pv_repos := [[("CRAN", "https://cran.r-project.org")]; [("MPN", "https://mpn.metworx.com")]];
     pv_customs := []; pv_conf := pv_conf pw; pv_library := ["lib"]; pv_cache := ["home"; "cache"]; pv_tarballs := []; pv_unpack := pv_unpack pw;
     pv_descriptions := []; pv_read := fun _ _ => None; pv_md5 := fun x => x; pv_db_dir := ["db"]; pv_rversion := RVersion 4 0 2;
     pv_gob := pw_gob; pv_list := fun _ _ => []; pv_parse := pv_parse pw |} in
  map (file_of s) (configured_dbs (pv_os s) (pv_rel s) (pv_repos s) (pv_customs s)) =
    [["db"; "CRANhttps://cran.r-project.orgsource4.0.2"]; ["db"; "MPNhttps://mpn.metworx.comsource4.0.2"]].
Proof. by vm_compute. Qed.

(** ** C146: a file that is removed *)

(** A disk with a file of the time 0. *)
Definition ft_old : disk := Disk (fun p => if bool_decide (p = ["one.db"]) then SFile 0 else SNothing) (fun _ => (0%Z, "ab")).

Definition ft_at (now : Z) : db_use := {|
  u_now := now; u_env := None; u_types := dc_types;
  u_arrivals := Some [(STSource, Some dc_map); (STBinary, Some dc_map)]; u_text := "ab"; u_how := Written; u_rm := true |}.

(** When one run finds the file just young enough and another, a second later, finds it
    too old and removes it before the first has opened it, the first fails, though each
    succeeds alone. *)
Theorem C146_gone_refuted : exists g u v p x, gob_ok g /\ all_fetched u /\ all_fetched v /\ all_written [u; v] /\
  (u_now v = u_now u + 1)%Z /\ happens g [Fetcher u p; Fetcher v p] ft_old x /\ got x 0 DbError /\ got x 1 (DbOk dc_all) /\
  (use_db g u (place ft_old p)).1 = DbOk dc_all /\ (use_db g v (place ft_old p)).1 = DbOk dc_all.
Proof.
  exists ft_gob, (ft_at 3599), (ft_at 3600), ["one.db"]. eexists. split; [apply ft_gob_ok|].
  split; [eexists; split; [reflexivity|repeat constructor]|]. split; [eexists; split; [reflexivity|repeat constructor]|].
  split; [intros u Hu; rewrite !elem_of_cons, elem_of_nil in Hu; destruct Hu as [-> |[-> |[]]]; done|].
  split; [done|]. split; [unfold happens, started; cbn [map]|].
  - ft_step 0 ltac:(exact (st_look_file ft_gob (ft_at 3599) ["one.db"] _ ft_old 0 eq_refl)).
    ft_step 1 ltac:(exact (st_look_file ft_gob (ft_at 3600) ["one.db"] _ ft_old 0 eq_refl)).
    ft_step 1 ltac:(by apply st_remove).
    ft_step 0 ltac:(apply st_gone; intros k; done).
    ft_step 1 ltac:(by apply (st_fetch ft_gob (ft_at 3600) ["one.db"] _ _ [(STSource, Some dc_map); (STBinary, Some dc_map)] dc_all 0)).
    ft_step 1 ltac:(apply (st_create _ _ _ _ _ _ 1); [done|reflexivity|ft_free 1]).
    ft_step 1 ltac:(apply (st_write ft_gob (ft_at 3600) ["one.db"] _ _ _ _ 0 2); cbn; lia).
    ft_step 1 ltac:(exact (st_end ft_gob (ft_at 3600) ["one.db"] _ _ dc_all 1)).
    apply rtc_refl.
  - split; [by vm_compute|]. split; [by vm_compute|]. split; by vm_compute.
Qed.

Print Assumptions C144_files.
Print Assumptions C146_gone_refuted.
