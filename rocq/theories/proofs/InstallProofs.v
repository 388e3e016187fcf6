(** Installing one package. *)
From stdpp Require Import strings list.
From Coq Require Import Ascii ZArith Lia.
From Verif.model Require Import GoStr Nexus RepoDb Fs Stamp Yml Install Download.
From Verif.spec Require Import StrSpec LibSpec InstallSpec.
From Verif.proofs Require Import GoStrLemmas FsProofs ExtractProofs RepoProofs.

Local Open Scope string_scope.

Local Arguments Ascii.eqb : simpl never.
Local Arguments char_eqb : simpl never.

Section install.

Context (R : rprog) (s : surroundings) (r : request) (f : fsys).

Lemma present_skipped : f (join_path (q_library r) (q_pkg r)) = Some Dir ->
  install_through_binary R s r f = (Done (-999) false None, f, []).
Proof. intros H. unfold install_through_binary, fs_dir_exists. by rewrite H. Qed.

(** The stamping only touches the file in the package. *)
Lemma write_description_frame lib g q : r_name (q_pkg r) ->
  write_description s r lib g q <> g q -> in_dir (lib ++ [q_pkg r])%list q.
Proof.
  intros Hn. unfold write_description. rewrite (join_name _ _ Hn).
  destruct (g _) as [[c|]|]; [|done|done]. destruct (s_read s c) as [l|]; [|done].
  intros H. destruct (decide (q = join_path (lib ++ [q_pkg r])%list "DESCRIPTION")) as [->|Hq].
  - by exists ["DESCRIPTION"].
  - rewrite bool_decide_eq_false_2 in H by done. done.
Qed.

Lemma write_description_dir lib g q : g q = Some Dir -> write_description s r lib g q = Some Dir.
Proof.
  unfold write_description. destruct (g (join_path _ _)) as [[c|]|] eqn:E; [|done|done].
  destruct (s_read s c); [|done]. intros H.
  rewrite bool_decide_eq_false_2; [done|]. intros ->. congruence.
Qed.

End install.

Section frame.

Context (R : rprog) (name : fsys -> list string -> string).
Hypothesis Honly : r_only R name.

Lemma install_frame_one s r src lib build dir f code err f' t q :
  r_name (q_pkg r) -> install R s r src lib build dir f = (code, err, f', t) -> f' q <> f q ->
  (in_dir (lib ++ [q_pkg r])%list q \/ in_dir (lib ++ [name f src])%list q \/
   in_dir (lib ++ ["00LOCK-" +:+ name f src])%list q \/ (build = true /\ in_dir dir q)) /\
  t = [{| rc_dir := dir; rc_library := lib; rc_build := build; rc_source := src |}] /\
  f src <> None.
Proof.
  intros Hn. unfold install, fs_exists. destruct (f src) as [n|] eqn:Es; [|by intros [= <- <- <- <-]].
  destruct (R _ f) as [c0 f1] eqn:ER. destruct (Z.eqb_spec c0 0) as [->|Hc].
  - intros [= <- <- <- <-] Hq. split; [|done].
    destruct (decide (f1 q = f q)) as [E|E].
    + left. rewrite <- E in Hq. by apply (write_description_frame s r lib f1 q).
    + right. apply (Honly _ _ _ _ _ ER E).
  - intros [= <- <- <- <-] Hq. split; [|done]. right. apply (Honly _ _ _ _ _ ER Hq).
Qed.

End frame.

(** What is known about a run, by cases. *)
Inductive run_case (R : rprog) (s : surroundings) (r : request) (f : fsys) : outcome -> fsys -> list rcall -> Prop :=
| rc_present : f (join_path (q_library r) (q_pkg r)) = Some Dir -> run_case R s r f (Done (-999) false None) f []
| rc_stopped_early : run_case R s r f Stopped f []
| rc_cached bp code err f' t : f (join_path (q_library r) (q_pkg r)) <> Some Dir ->
    cache_path s r = Some bp -> f bp <> None ->
    install R s (as_binary r) bp (q_library r) false (s_cwd s) f = (code, err, f', t) ->
    run_case R s r f (Done code err None) f' t
| rc_built f0 code err f1 f2 t o : f (join_path (q_library r) (q_pkg r)) <> Some Dir ->
    mkdir_all (s_tmp s) f = Some f0 ->
    install R s r (resolve (s_cwd s) (q_path r)) (s_tmp s) (q_build r) (s_tmp s) f0 = (code, err, f1, t) ->
    (f2 = f1 \/ f2 = remove_all (join_path (s_tmp s) (q_pkg r)) f1) ->
    (err = true \/ code <> 0%Z -> o = Done code err None) ->
    (err = false -> code = 0%Z -> o = Stopped \/ o = Done 1 true None) ->
    run_case R s r f o f2 t
| rc_both f0 f1 f2 t1 n code2 err2 f3 t2 : f (join_path (q_library r) (q_pkg r)) <> Some Dir ->
    mkdir_all (s_tmp s) f = Some f0 ->
    install R s r (resolve (s_cwd s) (q_path r)) (s_tmp s) (q_build r) (s_tmp s) f0 = (0%Z, false, f1, t1) ->
    (f2 = f1 \/ f2 = remove_all (join_path (s_tmp s) (q_pkg r)) f1) ->
    f2 (join_path (s_tmp s) n) <> None ->
    install R s r (join_path (s_tmp s) n) (q_library r) false (s_tmp s) f2 = (code2, err2, f3, t2) ->
    run_case R s r f (Done code2 err2 (Some (join_path (s_tmp s) n))) f3 (t1 ++ t2)%list.

Lemma run_cases R s r f o f' t : install_through_binary R s r f = (o, f', t) -> run_case R s r f o f' t.
Proof.
  unfold install_through_binary.
  destruct (fs_dir_exists f (join_path (q_library r) (q_pkg r))) eqn:Ep.
  { intros [= <- <- <-]. apply rc_present. unfold fs_dir_exists in Ep. by destruct (f _) as [[|]|]. }
  assert (f (join_path (q_library r) (q_pkg r)) <> Some Dir) as Hp.
  { intros E. unfold fs_dir_exists in Ep. by rewrite E in Ep. }
  destruct (cache_path s r) as [bp|] eqn:Ec; [|intros [= <- <- <-]; apply rc_stopped_early].
  destruct (fs_exists f bp) eqn:Eb.
  { destruct (install R s (as_binary r) bp (q_library r) false (s_cwd s) f) as [[[code err] g] u] eqn:Ei.
    intros [= <- <- <-]. eapply rc_cached; try done. unfold fs_exists in Eb. by destruct (f bp). }
  destruct (mkdir_all (s_tmp s) f) as [f0|] eqn:Em; [|intros [= <- <- <-]; apply rc_stopped_early].
  destruct (install R s r (resolve (s_cwd s) (q_path r)) (s_tmp s) (q_build r) (s_tmp s) f0)
    as [[[code err] f1] t1] eqn:E1.
  set (f2 := if fs_dir_exists f1 (join_path (s_tmp s) (q_pkg r)) then remove_all (join_path (s_tmp s) (q_pkg r)) f1 else f1).
  assert (f2 = f1 \/ f2 = remove_all (join_path (s_tmp s) (q_pkg r)) f1) as H2.
  { unfold f2. destruct (fs_dir_exists f1 _); [by right|by left]. }
  clearbody f2. cbv zeta.
  destruct (negb err && (code =? 0)%Z) eqn:Ee.
  - apply andb_true_iff in Ee as [Ee Ec0]. apply negb_true_iff in Ee as ->. apply Z.eqb_eq in Ec0 as ->.
    destruct (binary_ext _ _ _) as [n|].
    + destruct (fs_exists f2 (join_path (s_tmp s) n)) eqn:Ex.
      * destruct (install R s r (join_path (s_tmp s) n) (q_library r) false (s_tmp s) f2) as [[[code2 err2] f3] t2] eqn:E3.
        intros [= <- <- <-]. eapply rc_both; try done. unfold fs_exists in Ex. by destruct (f2 _).
      * intros [= <- <- <-]. eapply rc_built; try done; [by intros [?|?]|by right].
    + intros [= <- <- <-]. eapply rc_built; try done; [by intros [?|?]|by left].
  - intros [= <- <- <-]. eapply rc_built; try done. intros -> ->. done.
Qed.

Section cases.

Context (R : rprog) (name : fsys -> list string -> string).

Definition named (r : request) (t : list rcall) : Prop := forall c g, c ∈ t -> name g (rc_source c) = q_pkg r.

Lemma removed_inside s r f1 f2 q : r_name (q_pkg r) ->
  f2 = f1 \/ f2 = remove_all (join_path (s_tmp s) (q_pkg r)) f1 -> f2 q <> f1 q -> in_dir (s_tmp s) q.
Proof.
  intros Hn [->| ->]; [done|]. rewrite (join_name _ _ Hn). unfold remove_all.
  destruct (below (s_tmp s ++ [q_pkg r])%list q) eqn:E; [|done]. intros _. apply below_spec in E as [x ->].
  exists (q_pkg r :: x). by rewrite <- app_assoc.
Qed.

Lemma mkdir_changes (p : list string) f f0 q : mkdir_all p f = Some f0 -> f0 q <> f q -> in_dir q p.
Proof.
  intros H Hq. destruct (mkdir_spec _ _ _ H) as (_ & H2 & _). destruct (below q p) eqn:E; [by apply below_spec|].
  exfalso. apply Hq, H2. rewrite <- below_spec. congruence.
Qed.

Lemma in_dir_left (d : list string) x q : in_dir (d ++ [x])%list q -> in_dir d q.
Proof. intros [y ->]. exists (x :: y). by rewrite <- app_assoc. Qed.

Lemma run_frame s r f o f' t q : r_only R name -> r_name (q_pkg r) ->
  install_through_binary R s r f = (o, f', t) -> named r t -> f' q <> f q ->
  in_dir (q_library r ++ [q_pkg r])%list q \/ in_dir (q_library r ++ ["00LOCK-" +:+ q_pkg r])%list q \/
  in_dir (s_tmp s) q \/ in_dir q (s_tmp s).
Proof.
  intros Ho Hn H Hm Hq. apply run_cases in H.
  destruct H as [Hp| |bp code err f' t Hp Hc Hb Hi|f0 code err f1 f2 t o Hp H0 Hi H2 Ho1 Ho2|
                 f0 f1 f2 t1 n code2 err2 f3 t2 Hp H0 Hi H2 Hx H3].
  - done.
  - done.
  - destruct (install_frame_one R name Ho s (as_binary r) bp (q_library r) false (s_cwd s) f code err f' t q Hn Hi Hq)
      as (Hd & Ht & _). assert (name f bp = q_pkg r) as E.
    { apply (Hm {| rc_dir := s_cwd s; rc_library := q_library r; rc_build := false; rc_source := bp |} f).
      rewrite Ht. by left. }
    rewrite E in Hd. cbn in Hd. destruct Hd as [?|[?|[?|[? ?]]]]; try discriminate; auto.
  - right. right. destruct (decide (f2 q = f1 q)) as [E2|E2]; [|left; by apply (removed_inside s r f1 f2)].
    rewrite E2 in Hq. destruct (decide (f1 q = f0 q)) as [E1|E1].
    + rewrite E1 in Hq. right. by apply (mkdir_changes _ f f0).
    + left. destruct (install_frame_one R name Ho _ _ _ _ _ _ _ _ _ _ _ q Hn Hi E1) as (Hd & _).
      destruct Hd as [?|[?|[?|[_ ?]]]]; try done; by eapply in_dir_left.
  - destruct (decide (f3 q = f2 q)) as [E3|E3].
    + rewrite E3 in Hq. right. right. destruct (decide (f2 q = f1 q)) as [E2|E2]; [|left; by apply (removed_inside s r f1 f2)].
      rewrite E2 in Hq. destruct (decide (f1 q = f0 q)) as [E1|E1].
      * rewrite E1 in Hq. right. by apply (mkdir_changes _ f f0).
      * left. destruct (install_frame_one R name Ho _ _ _ _ _ _ _ _ _ _ _ q Hn Hi E1) as (Hd & _).
        destruct Hd as [?|[?|[?|[_ ?]]]]; try done; by eapply in_dir_left.
    + destruct (install_frame_one R name Ho _ _ _ _ _ _ _ _ _ _ _ q Hn H3 E3) as (Hd & Ht & _).
      assert (name f2 (join_path (s_tmp s) n) = q_pkg r) as E.
      { apply (Hm {| rc_dir := s_tmp s; rc_library := q_library r; rc_build := false; rc_source := join_path (s_tmp s) n |} f2).
        rewrite Ht. apply elem_of_app. right. by left. }
      rewrite E in Hd. destruct Hd as [?|[?|[?|[? ?]]]]; try discriminate; auto.
Qed.

(** The first R invocation. *)
Lemma install_call s r src lib build dir f code err f' t : install R s r src lib build dir f = (code, err, f', t) ->
  (f src = None /\ code = 1%Z /\ err = false /\ f' = f /\ t = []) \/
  (exists f1, t = [{| rc_dir := dir; rc_library := lib; rc_build := build; rc_source := src |}] /\
     R {| rc_dir := dir; rc_library := lib; rc_build := build; rc_source := src |} f = (code, f1) /\
     f src <> None /\
     ((code = 0%Z /\ err = false /\ f' = write_description s r lib f1) \/ (code <> 0%Z /\ err = true /\ f' = f1))).
Proof.
  unfold install, fs_exists. destruct (f src) as [n|] eqn:Es.
  - destruct (R _ f) as [c0 f1] eqn:ER. destruct (Z.eqb_spec c0 0) as [->|Hc]; intros [= <- <- <- <-]; right; exists f1;
      (split; [done|]); (split; [done|]); (split; [done|]); [by left|by right].
  - intros [= <- <- <- <-]. by left.
Qed.

Lemma write_description_exists s r lib g q : write_description s r lib g q <> None <-> g q <> None.
Proof.
  unfold write_description. destruct (g (join_path _ _)) as [[c|]|] eqn:E; [|done|done].
  destruct (s_read s c); [|done].
  destruct (decide (q = join_path (join_path lib (q_pkg r)) "DESCRIPTION")) as [->|Hq].
  - rewrite bool_decide_eq_true_2 by done. rewrite E. done.
  - rewrite bool_decide_eq_false_2 by done. done.
Qed.

Lemma removed_exists s r f1 f2 (q : list string) :
  f2 = f1 \/ f2 = remove_all (join_path (s_tmp s) (q_pkg r)) f1 -> f2 q <> None -> f1 q <> None.
Proof. intros [->| ->]; [done|]. unfold remove_all. by destruct (below _ q). Qed.

Lemma library_call s r f o f' t c : q_library r <> s_tmp s ->
  install_through_binary R s r f = (o, f', t) -> c ∈ t -> rc_library c = q_library r ->
  rc_build c = false /\
  ((t = [c] /\ cache_path s r = Some (rc_source c) /\ f (rc_source c) <> None) \/
   exists c0 f0 f1, t = [c0; c] /\ rc_library c0 = s_tmp s /\ rc_dir c0 = s_tmp s /\
     mkdir_all (s_tmp s) f = Some f0 /\ R c0 f0 = (0%Z, f1) /\ f1 (rc_source c) <> None).
Proof.
  intros Hl H Hc Hlib. apply run_cases in H.
  destruct H as [Hp| |bp code err f' t Hp Hca Hb Hi|f0 code err f1 f2 t o Hp H0 Hi H2 Ho1 Ho2|
                 f0 f1 f2 t1 n code2 err2 f3 t2 Hp H0 Hi H2 Hx H3].
  - by apply elem_of_nil in Hc.
  - by apply elem_of_nil in Hc.
  - destruct (install_call _ _ _ _ _ _ _ _ _ _ _ Hi) as [(? & ? & ? & ? & ->)|(f1 & -> & _)]; [by apply elem_of_nil in Hc|].
    apply elem_of_list_singleton in Hc as ->. split; [done|]. by left.
  - destruct (install_call _ _ _ _ _ _ _ _ _ _ _ Hi) as [(? & ? & ? & ? & ->)|(f1' & -> & _)]; [by apply elem_of_nil in Hc|].
    apply elem_of_list_singleton in Hc as ->. cbn in Hlib. congruence.
  - destruct (install_call _ _ _ _ _ _ _ _ _ _ _ Hi) as [(_ & ? & _)|(f1' & -> & HR & _ & He)]; [done|].
    destruct He as [(_ & _ & ->)|(? & _)]; [|done].
    destruct (install_call _ _ _ _ _ _ _ _ _ _ _ H3) as [(? & _)|(f3' & -> & _)]; [done|].
    rewrite elem_of_app, !elem_of_list_singleton in Hc. destruct Hc as [-> | ->]; [cbn in Hlib; congruence|].
    split; [done|]. right. eexists _, f0, f1'. split; [reflexivity|]. repeat (split; [done|]).
    cbn [rc_source]. apply (write_description_exists s r (s_tmp s)). by eapply removed_exists.
Qed.

Lemma build_failure s r f f0 f1 code : r_only R name -> r_name (q_pkg r) ->
  f (join_path (q_library r) (q_pkg r)) <> Some Dir ->
  (exists bp, cache_path s r = Some bp /\ f bp = None) -> mkdir_all (s_tmp s) f = Some f0 ->
  f0 (resolve (s_cwd s) (q_path r)) <> None ->
  R {| rc_dir := s_tmp s; rc_library := s_tmp s; rc_build := q_build r; rc_source := resolve (s_cwd s) (q_path r) |} f0
    = (code, f1) -> code <> 0%Z ->
  exists f', install_through_binary R s r f =
    (Done code true None, f', [{| rc_dir := s_tmp s; rc_library := s_tmp s; rc_build := q_build r;
                                  rc_source := resolve (s_cwd s) (q_path r) |}]) /\
    forall q, ~ in_dir (s_tmp s) q -> ~ in_dir q (s_tmp s) -> f' q = f q.
Proof.
  intros Ho Hn Hp (bp & Hc & Hb) H0 Hs HR Hcode.
  assert (install R s r (resolve (s_cwd s) (q_path r)) (s_tmp s) (q_build r) (s_tmp s) f0 =
    (code, true, f1, [{| rc_dir := s_tmp s; rc_library := s_tmp s; rc_build := q_build r;
                                  rc_source := resolve (s_cwd s) (q_path r) |}])) as Hi.
  { unfold install, fs_exists. destruct (f0 (resolve (s_cwd s) (q_path r))); [|done]. rewrite HR.
    destruct (Z.eqb_spec code 0); [done|]. done. }
  set (f2 := if fs_dir_exists f1 (join_path (s_tmp s) (q_pkg r)) then remove_all (join_path (s_tmp s) (q_pkg r)) f1 else f1).
  assert (install_through_binary R s r f =
    (Done code true None, f2, [{| rc_dir := s_tmp s; rc_library := s_tmp s; rc_build := q_build r;
                                  rc_source := resolve (s_cwd s) (q_path r) |}])) as E.
  { unfold install_through_binary. assert (fs_dir_exists f (join_path (q_library r) (q_pkg r)) = false) as ->.
    { unfold fs_dir_exists. by destruct (f _) as [[|]|]. }
    rewrite Hc. assert (fs_exists f bp = false) as -> by (unfold fs_exists; by rewrite Hb).
    rewrite H0, Hi. done. }
  exists f2. split; [done|]. intros q Hq1 Hq2. apply run_cases in E.
  destruct (decide (f2 q = f q)) as [?|Hne]; [done|exfalso].
  assert (f2 = f1 \/ f2 = remove_all (join_path (s_tmp s) (q_pkg r)) f1) as H2.
  { unfold f2. destruct (fs_dir_exists f1 _); [by right|by left]. }
  destruct (decide (f2 q = f1 q)) as [E2|E2]; [|apply Hq1; by apply (removed_inside s r f1 f2)].
  rewrite E2 in Hne. destruct (decide (f1 q = f0 q)) as [E1|E1].
  + rewrite E1 in Hne. apply Hq2. by apply (mkdir_changes _ f f0).
  + apply Hq1. destruct (install_frame_one R name Ho _ _ _ _ _ _ _ _ _ _ _ q Hn Hi E1) as (Hd & _).
    destruct Hd as [?|[?|[?|[_ ?]]]]; try done; by eapply in_dir_left.
Qed.

Lemma success_means s r f code b f' t : r_installs R name -> r_name (q_pkg r) ->
  install_through_binary R s r f = (Done code false b, f', t) -> named r t ->
  (code = (-999)%Z /\ f' = f /\ f (q_library r ++ [q_pkg r])%list = Some Dir) \/
  (code = 0%Z /\ f' (q_library r ++ [q_pkg r])%list = Some Dir) \/
  (code = 1%Z /\ t = [] /\ exists f0, mkdir_all (s_tmp s) f = Some f0 /\ f0 (resolve (s_cwd s) (q_path r)) = None).
Proof.
  intros Hins Hn H Hm. apply run_cases in H.
  remember (Done code false b) as o eqn:Eo.
  destruct H as [Hp| |bp code' err f' t Hp Hca Hb Hi|f0 code' err f1 f2 t o Hp H0 Hi H2 Ho1 Ho2|
                 f0 f1 f2 t1 n code2 err2 f3 t2 Hp H0 Hi H2 Hx H3].
  - injection Eo as <- <-. left. by rewrite <- (join_name _ _ Hn).
  - done.
  - injection Eo as -> -> <-. right. left.
    destruct (install_call _ _ _ _ _ _ _ _ _ _ _ Hi) as [(? & _)|(f1 & -> & HR & _ & He)]; [done|].
    destruct He as [(-> & _ & ->)|(_ & ? & _)]; [|done]. split; [done|].
    apply write_description_dir. rewrite <- (Hm _ f (elem_of_list_here _ _)). exact (Hins _ _ _ HR).
  - right. right. destruct (install_call _ _ _ _ _ _ _ _ _ _ _ Hi) as [(Hs & -> & -> & -> & ->)|(f1' & -> & HR & _ & He)].
    + rewrite Ho1 in Eo by (by right). injection Eo as <- <-. split; [done|]. split; [done|]. by exists f0.
    + exfalso. destruct He as [(-> & -> & _)|(Hc & -> & _)].
      * destruct (Ho2 eq_refl eq_refl) as [-> | ->]; done.
      * rewrite Ho1 in Eo by (by left). done.
  - injection Eo as -> -> <-. right. left.
    destruct (install_call _ _ _ _ _ _ _ _ _ _ _ H3) as [(? & _)|(f3' & -> & HR & _ & He)]; [done|].
    destruct He as [(-> & _ & ->)|(_ & ? & _)]; [|done]. split; [done|].
    apply write_description_dir.
    assert (name f2 (join_path (s_tmp s) n) = q_pkg r) as <-.
    { apply (Hm {| rc_dir := s_tmp s; rc_library := q_library r; rc_build := false; rc_source := join_path (s_tmp s) n |} f2).
      apply elem_of_app. right. by left. }
    exact (Hins _ _ _ HR).
Qed.

End cases.

Lemma install_sources R s r src lib build dir f code err f' t c :
  install R s r src lib build dir f = (code, err, f', t) -> c ∈ t -> rc_source c = src.
Proof.
  intros Hi Hc. destruct (install_call _ _ _ _ _ _ _ _ _ _ _ _ Hi) as [(_ & _ & _ & _ & ->)|(f1 & -> & _)].
  - by apply elem_of_nil in Hc.
  - by apply elem_of_list_singleton in Hc as ->.
Qed.

Lemma sources R s r f o f' t c : has_prefix "/" (q_path r) = true ->
  install_through_binary R s r f = (o, f', t) -> c ∈ t ->
  rc_source c = join_path [] (q_path r) \/ cache_path s r = Some (rc_source c) \/
  exists n, binary_ext (s_os s) (base_name (join_path [] (q_path r))) (q_platform r) = Some n /\
            rc_source c = join_path (s_tmp s) n.
Proof.
  intros Hp. assert (resolve (s_cwd s) (q_path r) = join_path [] (q_path r)) as Er by (unfold resolve; by rewrite Hp).
  unfold install_through_binary. rewrite Er.
  destruct (fs_dir_exists f _); [intros [= <- <- <-] Hc; by apply elem_of_nil in Hc|].
  destruct (cache_path s r) as [bp|] eqn:Ec; [|intros [= <- <- <-] Hc; by apply elem_of_nil in Hc].
  destruct (fs_exists f bp).
  { destruct (install R s (as_binary r) bp (q_library r) false (s_cwd s) f) as [[[code err] g] u] eqn:Ei.
    intros [= <- <- <-] Hc. right. left. f_equal. symmetry. by eapply install_sources. }
  destruct (mkdir_all (s_tmp s) f) as [f0|]; [|intros [= <- <- <-] Hc; by apply elem_of_nil in Hc].
  destruct (install R s r (join_path [] (q_path r)) (s_tmp s) (q_build r) (s_tmp s) f0) as [[[code err] f1] t1] eqn:E1.
  cbv zeta. destruct (negb err && (code =? 0)%Z).
  - destruct (binary_ext _ _ _) as [n|] eqn:En.
    + destruct (fs_exists _ (join_path (s_tmp s) n)).
      * destruct (install R s r (join_path (s_tmp s) n) _ _ _ _) as [[[code2 err2] f3] t2] eqn:E3.
        intros [= <- <- <-] Hc. apply elem_of_app in Hc as [Hc|Hc].
        -- left. by eapply install_sources.
        -- right. right. exists n. split; [done|]. by eapply install_sources.
      * intros [= <- <- <-] Hc. left. by eapply install_sources.
    + intros [= <- <- <-] Hc. left. by eapply install_sources.
  - intros [= <- <- <-] Hc. left. by eapply install_sources.
Qed.

Lemma installs_cwd R s r f f0 : q_path r = "" -> f (join_path (q_library r) (q_pkg r)) <> Some Dir ->
  (exists bp, cache_path s r = Some bp /\ f bp = None) -> mkdir_all (s_tmp s) f = Some f0 -> f0 (s_cwd s) = Some Dir ->
  exists c, c ∈ (install_through_binary R s r f).2 /\ rc_source c = s_cwd s.
Proof.
  intros Hq Hp (bp & Hc & Hb) H0 Hs. unfold install_through_binary.
  assert (fs_dir_exists f (join_path (q_library r) (q_pkg r)) = false) as ->.
  { unfold fs_dir_exists. by destruct (f _) as [[|]|]. }
  rewrite Hc. assert (fs_exists f bp = false) as -> by (unfold fs_exists; by rewrite Hb).
  rewrite H0, Hq. change (resolve (s_cwd s) "") with (s_cwd s).
  destruct (install R s r (s_cwd s) (s_tmp s) (q_build r) (s_tmp s) f0) as [[[code err] f1] t1] eqn:E1.
  destruct (install_call _ _ _ _ _ _ _ _ _ _ _ _ E1) as [(? & _)|(f1' & -> & _)]; [congruence|].
  exists {| rc_dir := s_tmp s; rc_library := s_tmp s; rc_build := q_build r; rc_source := s_cwd s |}.
  split; [|reflexivity]. cbv zeta.
  destruct (negb err && (code =? 0)%Z).
  - destruct (binary_ext _ _ _) as [n|].
    + destruct (fs_exists _ (join_path (s_tmp s) n)).
      * destruct (install R s r (join_path (s_tmp s) n) _ _ _ _) as [[[code2 err2] f3] t2]. cbn. by left.
      * by left.
    + by left.
  - by left.
Qed.
