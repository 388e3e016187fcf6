(** More about claims that hold, found with wrong programs: C125, C130, C136. *)
From stdpp Require Import strings list gmap relations.
From Coq Require Import Ascii ZArith Lia.
From Verif.model Require Import GoStr Version Desc Nexus Pacman RepoDb Graph Plan Fs Install Clean Commands Status Urls Download Fetching Shared.
From Verif.spec Require Import StrSpec RepoSpec GraphSpec PlanSpec StatusSpec FetchingSpec SharedSpec LibSpec InstallSpec.
From Verif.proofs Require Import GraphProofs PlanProofs PlanProps SettingsProofs SharedProofs ExampleChecks RunLink DownloadProofs FetchingProofs.
From Verif.props Require Import P_Graph P_Library P_Together P_Fetching.

Local Open Scope string_scope.

(** ** C125: the command plan always ends with a status *)

Theorem C125_plan_ends o cfg nx tarballs descriptions installed strict le :
  oracle_ok o -> nexus_ok nx -> no_record nx "R" ->
  exists e, planning_ends strict le (plan_install o cfg nx tarballs descriptions installed le) = Some e /\
    (exit_status e = 0 \/ exit_status e = 1 \/ exit_status e = 2).
Proof.
  intros Ho Hnx HR.
  destruct (plan_install_cases o cfg nx tarballs descriptions installed le Hnx HR)
    as [[_ E]|(deps & nx' & _ & H1 & H2 & H3 & _ & [[_ E]|[Ha E]])]; rewrite E.
  - eexists. split; [reflexivity|]. right. by left.
  - eexists. split; [reflexivity|]. right. by left.
  - destruct (plan_cases nx' (cf_no_recommended cfg) H1 H2 (sub o 1) (plan_request (sub o 0) cfg tarballs descriptions) installed deps
      (negb (cf_no_update cfg)) le (sub_ok _ _ Ho) H3 Ha) as [[_ ->]|(_ & ls & db & _ & _ & Er)].
    + eexists. split; [reflexivity|]. by right; right.
    + cbv zeta in Er. rewrite Er. destruct (get_outdated _ _); [destruct ls|]; eexists; (split; [reflexivity|]); cbn; tauto.
Qed.

Example C125_plan_ends_example :
  planning_ends false false (plan_install id_oracle (PlanConfig ["c1"] [] false false false []) ex_nx [] [] ∅ false) = Some Panicking.
Proof. vm_compute. reflexivity. Qed.

(** ** C130: the program is stopped only where a file of a local repository is missing, or
    there is no address *)

Theorem C130_stopped x ds f ls s : fetching x ds f ls s -> f_stopped s = true ->
  f_returned s = false /\ exists w, In (w, FRun KAsk) (f_list s) /\
    (address x w = None \/ exists url, address x w = Some url /\ is_http url = false /\ f_fs s (Install.resolve (x_cwd x) url) = None).
Proof.
  intros [repos f0 ls' s' _ _ R] Hs. destruct R as [|ls0 s1 l s2 _ St]; [discriminate Hs|].
  inversion St; subst; cbn [f_stopped] in Hs; try discriminate Hs.
  split; [done|]. exists w. cbn [f_list f_fs].
  match goal with K : kstop _ _ _ _ |- _ => destruct K as [f1 url H1 H2 H3|f1 H1] end;
    (split; [apply in_or_app; right; by left|]); [right; by exists url|by left].
Qed.

Definition gone_repo : repo_url := RepoURL "/mirror" "r" "".
Definition gone_env : fetch_env := {|
  x_md5 := fun _ => "00000000000000000000000000000000"; x_os := Linux; x_rel := None; x_cache := ["cache"]; x_rv := RVersion 4 0 5;
  x_cwd := ["home"]; x_serve := fun _ _ => True |}.
Definition gone_wanted : Download.wanted := {| w_pkg := "d"; w_version := "2.0"; w_type := STSource; w_repo := gone_repo |}.

Example C130_stopped_example : exists ls s,
  fetching gone_env [gone_wanted] (fs_of wz_files) ls s /\ f_stopped s = true.
Proof.
  eexists _, _. split.
  - eapply (fetching_on _ _ _ [gone_repo]); [vm_compute; reflexivity|dirs_made|]. unfold finitial. cbn [map].
    begin_get 0. get 0; [apply k_absent; vm_compute; reflexivity|].
    eapply fx_cons; [eapply (x_stop _ _ _ [])|constructor].
    eapply k_stop_missing; vm_compute; reflexivity.
  - reflexivity.
Qed.

(** ** C136: readers do not wait for each other *)

Theorem C136_readers (V : Type) (ks : list string) :
  rtc share (new_shared (map (fun k => [Get k]) ks))
            (Shared (map (fun k => Using (Get k : op V) []) ks) false (length ks) ∅ [] false).
Proof.
  assert (forall ks1 ks2, rtc share
    (Shared (map (fun k => Using (Get k : op V) []) ks1 ++ map (fun k => Between [Get k]) ks2) false (length ks1) ∅ [] false)
    (Shared (map (fun k => Using (Get k : op V) []) (ks1 ++ ks2)) false (length (ks1 ++ ks2)) ∅ [] false)) as G.
  { intros ks1 ks2. revert ks1. induction ks2 as [|k ks2 IH]; intros ks1.
    { cbn [map]. rewrite !app_nil_r. apply rtc_refl. }
    set (a := map (fun k => Using (Get k : op V) []) ks1). set (b := map (fun k => Between [Get k : op V]) ks2).
    eapply rtc_l; [apply (share_lock (length a) (Get k) []); [cbn [map]; rewrite list_lookup_middle; done|done]|].
    cbn [map is_write]. rewrite insert_app_r_alt, Nat.sub_diag by lia. cbn [insert list_insert].
    eapply rtc_l; [apply (share_begin (length a) (Get k) []); rewrite list_lookup_middle; done|].
    rewrite insert_app_r_alt, Nat.sub_diag by lia. cbn [insert list_insert orb]. fold b.
    assert (in_conflict (Get k) (a ++ Locked (Get k) [] :: b) = false) as ->.
    { unfold in_conflict. apply Bool.not_true_iff_false. intros (t & Hin & Ht)%existsb_exists.
      apply in_app_or in Hin as [Hin|[<-|Hin]]; [|done|]; apply in_map_iff in Hin as (k' & <- & _); done. }
    specialize (IH (ks1 ++ [k])%list). rewrite (map_app _ ks1 [k]), (app_length ks1 [k]) in IH. cbn [map length] in IH.
    rewrite Nat.add_1_r in IH. rewrite <- (app_assoc ks1) in IH. rewrite <- (app_assoc (map _ ks1)) in IH. exact IH. }
  specialize (G [] ks). cbn [map app length] in G. unfold new_shared. rewrite map_map. exact G.
Qed.

Example C136_readers_example : exists s : shared nat,
  rtc share (new_shared [[Get "a"]; [Get "b"]]) s /\ sh_all s = [Using (Get "a") []; Using (Get "b") []] /\ sh_crashed s = false.
Proof. eexists. split; [exact (C136_readers nat ["a"; "b"])|done]. Qed.

Print Assumptions C125_plan_ends.
Print Assumptions C130_stopped.
Print Assumptions C136_readers.
