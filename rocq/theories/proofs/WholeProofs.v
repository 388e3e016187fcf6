(** A whole run of `pkgr install`. *)
From stdpp Require Import strings list gmap.
From Coq Require Import Ascii ZArith Lia.
From Verif.model Require Import GoStr Desc Nexus RepoDb Pacman Graph Fs Rollback Stamp Yml Sched Install Download Tarballs Together.
From Verif.spec Require Import StrSpec SchedSpec LibSpec InstallSpec TarballSpec TogetherSpec.
From Verif.proofs Require Import FsProofs RollbackProofs RunProofs RunProps RunProps2 InstallProofs TarballProofs SchedProofs SchedProps
  TogetherProofs.

Local Open Scope string_scope.

Lemma additional_tree R s pkgr lib l : r_trees R -> (forall p a, (p, a) ∈ l -> r_name p) -> forall f err f' t,
  install_additional R s pkgr lib l f = (err, f', t) -> tree_ok f -> tree_ok f'.
Proof.
  intros HT. induction l as [|[p a] l IH]; intros Hn f err f' t; cbn [install_additional]; [by intros [= <- <- <-]|].
  destruct (install _ _ _ _ _ _ _ f) as [[[code e] f1] t1] eqn:E.
  destruct (install_additional R s pkgr lib l f1) as [[es f2] t2] eqn:E2. intros [= <- <- <-] T.
  eapply IH; [intros p' a' H; apply (Hn p' a'); by right|exact E2|].
  unfold install in E. destruct (fs_exists f (ad_path a)); [|by injection E as _ _ <- _].
  destruct (R _ f) as [code' g] eqn:ER. pose proof (HT _ _ _ _ ER T) as T2.
  destruct (code' =? 0)%Z; injection E as _ _ <- _; [|done].
  apply write_description_tree; [|done]. apply (Hn p a). by left.
Qed.

Section whole.

Context (c : run_config) (i : run_input) (e : setting) (Rs : rsystem) (j : job) (R : rprog) (l : list (string * additional)).
Context (name : list string -> string) (ds : list (list string)) (f : fsys).
Hypothesis Hrun : run_ok c i f.
Hypothesis Hj : job_ok j.
Hypothesis Hwh : whole_ok c i e j l name ds.
Hypothesis HR : rs_only Rs name.
Hypothesis HR2 : r_only R (fun _ => name).
Hypothesis HT : r_trees R.

Local Notation lib := (Rollback.rc_library c).
Local Notation sc := (leftovers e i ds).
Local Notation f1 := (run_ops (prepare_ops c i) f).

Lemma planned_required p : in_plan j p -> p ∈ required i.
Proof.
  unfold in_plan, required. rewrite (ho_starting _ _ _ _ _ _ _ Hwh), (ho_depdb _ _ _ _ _ _ _ Hwh).
  rewrite !elem_of_app. rewrite (ho_keys _ _ _ _ _ _ _ Hwh). tauto.
Qed.

Lemma required_planned p : p ∈ required i -> in_plan j p \/ p ∈ ri_additional i.
Proof.
  unfold in_plan, required. rewrite (ho_starting _ _ _ _ _ _ _ Hwh), (ho_depdb _ _ _ _ _ _ _ Hwh).
  rewrite !elem_of_app. rewrite (ho_keys _ _ _ _ _ _ _ Hwh). tauto.
Qed.

Lemma tarball_required p a : (p, a) ∈ l -> p ∈ ri_additional i /\ p ∈ required i.
Proof.
  intros H. assert (p ∈ ri_additional i) as K.
  { rewrite <- (ho_tarballs _ _ _ _ _ _ _ Hwh). apply elem_of_list_fmap. by exists (p, a). }
  split; [done|]. unfold required. rewrite !elem_of_app. tauto.
Qed.

(** The library is there after staging. *)
Lemma staged_lib : (ip_create_library (ri_plan i) = true -> is_Some (mkdir_all lib f)) -> f1 lib = Some Dir.
Proof.
  intros Hm. destruct (ip_create_library (ri_plan i)) eqn:Hc; [|by apply (f1_lib c i f Hrun)].
  destruct (create_nothing c i f Hrun Hc) as (Nu & No & _). destruct (Hm eq_refl) as [g Eg].
  rewrite (prepare_eq c i f Hrun), Hc, Nu, No. cbn. rewrite Eg. cbn.
  destruct (mkdir_some _ _ _ Eg) as [G1 _]. rewrite G1. by rewrite (proj2 (below_spec lib lib)); [|exists []; rewrite app_nil_r].
Qed.

Lemma exit_library w : rt_outcome (r_install c i w f) = Exit 0 -> f1 lib = Some Dir.
Proof.
  intros Ho. apply staged_lib. intros Hc. unfold r_install in Ho. rewrite Hc in Ho. cbn [andb] in Ho.
  destruct (rc_strict c); [done|]. destruct (mkdir_all lib f) as [g|]; [by exists g|done].
Qed.

Lemma staged_tree : tree_ok f1.
Proof. by eapply f1_tree_ok. Qed.

Lemma whole_frame fd pe ae f3 : f1 lib = Some Dir -> only_in sc f1 fd -> installs e Rs j R l fd pe ae f3 ->
  world_ok c i sc (RunWorld false (fun _ => f3) pe ae) f.
Proof.
  intros Hlib [D1 D2] Hi. pose proof (ho_library _ _ _ _ _ _ _ Hwh) as El.
  pose proof (scratch_fine e j name ds (ho_setting _ _ _ _ _ _ _ Hwh) (required i)) as Hsc. rewrite El in Hsc.
  assert (tree_ok f1) as T1 by (by eapply f1_tree_ok).
  assert (fd lib = Some Dir) as Hlibd.
  { rewrite <- Hlib. apply D1. intros H. unfold leftovers in H. rewrite El in H. apply Hsc in H as [H _]. apply H. exists []. by rewrite app_nil_r. }
  unfold world_ok. cbn [rw_install]. unfold leftovers. rewrite El. split; [done|].
  destruct Hi as [ls st errs ae f3 t Ht _ _ Hret Ha].
  destruct (together_frame e Rs j name ds Hj (ho_setting _ _ _ _ _ _ _ Hwh) HR (required i) (ri_additional i) fd ls st) as [F T3];
    [by apply planned_required|by apply Hrun|by apply D2|by rewrite El|done|].
  rewrite El in F, Ha.
  pose proof (ho_installable _ _ _ _ _ _ _ Hwh) as Hin. rewrite El in Hin.
  split; [|intros _; eapply additional_tree; [exact HT| |exact Ha|exact T3]; intros p a H; by apply (in_names _ _ _ Hin p a)].
  destruct F as [F1 F2]. split.
  - intros q Hq Hp. transitivity (t_fs st q).
    + destruct (decide (f3 q = t_fs st q)) as [|E]; [done|]. exfalso.
      destruct (additional_frame R (fun _ => name) (e_where e) (e_pkgr e) lib HR2 l _ _ _ _ q Hin Ha E) as (p & a & Hpa & K).
      destruct (tarball_required p a Hpa) as [_ Hpr].
      destruct K as [K|[K|K]].
      * by apply (Hp p).
      * apply Hq. right. left. by exists p.
      * apply Hq. left. destruct (ho_unpacked _ _ _ _ _ _ _ Hwh p a Hpa) as (d & Hd & K2). exists d. split; [done|]. by eapply in_dir_trans.
    + rewrite F1 by done. apply D1. unfold leftovers. by rewrite El.
  - intros p Hp Hna Hd s. assert (r_name p) as Hn by by apply Hrun.
    assert (forall s, ~ scratch lib ds (required i) (lib ++ p :: s)%list) as Hns.
    { intros s' H. apply Hsc in H as [_ H]. by destruct (H p s' eq_refl). }
    transitivity (t_fs st (lib ++ p :: s)%list).
    + destruct (decide (f3 (lib ++ p :: s)%list = t_fs st (lib ++ p :: s)%list)) as [|E]; [done|]. exfalso.
      destruct (additional_frame R (fun _ => name) (e_where e) (e_pkgr e) lib HR2 l _ _ _ _ _ Hin Ha E) as (p' & a & Hpa & K).
      destruct (tarball_required p' a Hpa) as [Hpr _].
      destruct K as [[z K]|[[z K]|K]].
      * rewrite <- app_assoc in K. apply app_inv_head in K. injection K as -> _. done.
      * rewrite <- app_assoc in K. apply app_inv_head in K. injection K as -> _. by apply (lock_not_name _ p') in Hn.
      * apply (Hns s). left. destruct (ho_unpacked _ _ _ _ _ _ _ Hwh p' a Hpa) as (d & Hdd & K2). exists d. split; [done|].
        by eapply in_dir_trans.
    + rewrite F2; [|done|done|].
      * apply D1. unfold leftovers. rewrite El. apply Hns.
      * rewrite <- Hd. apply D1. unfold leftovers. rewrite El. apply (Hns []).
Qed.

(** ** Success *)

Hypothesis HI : rs_installs Rs name.
Hypothesis HI2 : r_installs R (fun _ => name).

Lemma whole_installed fd f3 p : tree_ok fd -> files_ok e j fd -> tarballs_there e j l fd ->
  installs e Rs j R l fd false false f3 -> p ∈ required i -> f3 (lib ++ [p])%list = Some Dir.
Proof.
  intros T Hf Htb Hi Hp. remember false as pe eqn:Epe in Hi at 1. remember false as ae eqn:Eae in Hi.
  destruct Hi as [ls st errs ae f3 t Ht _ _ Hret Ha]. destruct errs; [done|]. subst ae.
  pose proof (ho_library _ _ _ _ _ _ _ Hwh) as El. pose proof (ho_installable _ _ _ _ _ _ _ Hwh) as Hin.
  assert (forall p a, (p, a) ∈ l -> t_fs st (ad_path a) <> None) as Hth.
  { intros p' a' Hpa. destruct (Htb p' a' Hpa) as (H1 & H2 & H3).
    by eapply (together_keeps e Rs j name ds Hj (ho_setting _ _ _ _ _ _ _ Hwh) HR). }
  destruct (additional_errors R (fun _ => name) (e_where e) (e_pkgr e) (e_library e) HR2 l _ _ _ _ Hin Hth Ha) as (_ & _ & K).
  rewrite <- El. destruct (decide (p ∈ ri_additional i)) as [Hadd|Hadd].
  - rewrite <- (ho_tarballs _ _ _ _ _ _ _ Hwh) in Hadd. apply elem_of_list_fmap in Hadd as ([p' a] & -> & Hpa). by eapply K.
  - destruct (required_planned p Hp) as [Hpl|]; [|done].
    rewrite <- (together_success e Rs j name ds Hj (ho_setting _ _ _ _ _ _ _ Hwh) HR HI fd ls st p T Hf Ht Hret Hpl).
    destruct (decide (f3 (e_library e ++ [p])%list = t_fs st (e_library e ++ [p])%list)) as [|E]; [done|]. exfalso.
    assert (r_name p) as Hn by by apply Hrun.
    destruct (additional_frame R (fun _ => name) (e_where e) (e_pkgr e) (e_library e) HR2 l _ _ _ _ _ Hin Ha E) as (p' & a & Hpa & [[z K2]|[[z K2]|K2]]).
    + rewrite <- app_assoc in K2. apply app_inv_head in K2. injection K2 as -> _. apply Hadd. by eapply tarball_required.
    + rewrite <- app_assoc in K2. apply app_inv_head in K2. injection K2 as -> _. by apply (lock_not_name _ p') in Hn.
    + destruct (some_not_lib e j name ds (ho_setting _ _ _ _ _ _ _ Hwh) _ (e_library e ++ [p])%list (ho_unpacked _ _ _ _ _ _ _ Hwh p' a Hpa)) as [H _];
        [by eexists|done].
Qed.

End whole.
