(** Proofs about the processes of R. *)
From stdpp Require Import strings list gmap.
From Coq Require Import Ascii ZArith Lia.
From Verif.model Require Import GoStr Fs Env RepoDb Install Download Urls Yml Config Start Calls.
From Verif.spec Require Import StrSpec EnvSpec CallsSpec.
From Verif.proofs Require Import GoStrLemmas EnvProofs StartProofs.

Local Open Scope string_scope.

Lemma in_concat_elem {A} (x : A) (ls : list (list A)) : x ∈ concat ls -> exists l, l ∈ ls /\ x ∈ l.
Proof.
  intros H. apply elem_of_list_In, in_concat in H as (l & H1 & H2). exists l. by rewrite !elem_of_list_In.
Qed.

(** The settings of configureEnv for a use. *)
Lemma env_of o tmp c library u : ~ is_load u ->
  exists es, pr_env (process_of o tmp c library u) = configure_env (ow_env o) es tmp /\
    e_global es = [] /\ e_rpath es = cf_rpath c /\
    e_libs es = match site_library c library u with Some l => [l] | None => [] end /\
    (forall kv, kv ∈ e_package es -> exists p, for_package u p /\ customized c p kv.1).
Proof.
  intros Hl.
  assert (forall p kv, kv ∈ run_env p (cf_customs c) -> customized c p kv.1) as Hr.
  { intros p kv H. destruct (run_env_in p (cf_customs c)) as [(e & H1 & H2)|[_ H2]]; rewrite H2 in H; [|by apply elem_of_nil in H].
    destruct e as [e|]; [|by apply elem_of_nil in H]. cbn [default from_option id] in H.
    apply in_concat_elem in H1 as (m & Hm1 & Hm2). exists m, e, kv.2. by destruct kv. }
  assert (forall p kv, kv ∈ default [] (install_envs (cf_customs c) !! p) -> customized c p kv.1) as Hi.
  { intros p kv. unfold install_envs.
    assert (forall (cs : list (string * option (list (string * string)))) (m : gmap string (list (string * string))) e,
      foldl (fun m kv => match kv.2 with Some e => <[kv.1 := e]> m | None => m end) m cs !! p = Some e ->
      m !! p = Some e \/ (p, Some e) ∈ cs) as H.
    { induction cs as [|[q [eq|]] cs IH]; intros m e; cbn [foldl fst snd]; intros H; [by left| |].
      - apply IH in H as [H|H]; [|by right; right]. destruct (decide (q = p)) as [-> |Hq].
        + rewrite lookup_insert in H. injection H as ->. right. by left.
        + rewrite lookup_insert_ne in H by done. by left.
      - apply IH in H as [H|H]; [by left|by right; right]. }
    destruct (foldl _ _ _ !! p) as [e|] eqn:E; [|by intros ?%elem_of_nil].
    cbn [default from_option id]. intros Hkv. apply H in E as [E|E]; [by rewrite lookup_empty in E|].
    apply in_concat_elem in E as (m & Hm1 & Hm2). exists m, e, kv.2. by destruct kv. }
  destruct u as [| |p|x|p s t d|p s d|p s|p s d|x d]; cbn [process_of site_library for_package];
    try (eexists; split; [reflexivity|]; split; [done|]; split; [done|]; split; [done|]; cbn [settings_for e_package unasked with_lib with_packages rs_packages]; try (rewrite lookup_empty; by intros ? ?%elem_of_nil); intros kv Hkv).
  - exists p. split; [done|]. rewrite lookup_singleton in Hkv. by apply Hr.
  - exists p. split; [done|]. by apply Hi.
  - exists p. split; [done|]. by apply Hi.
  - exists p. split; [done|]. by apply Hi.
  - exists p. split; [done|]. by apply Hi.
  - destruct Hl. by exists x, d.
Qed.

Lemma libs_nowhere rs tmpdir p : e_libs rs = [] -> p ∈ libs_part rs tmpdir -> n_name p = "R_LIBS_USER".
Proof.
  intros E H. unfold libs_part in H. rewrite E in H. cbn [lib_paths_env] in H.
  apply elem_of_cons in H as [-> |H]; [done|by apply elem_of_nil in H].
Qed.

Lemma call_libraries o tmp c library u : ~ is_load u -> unpadded tmp ->
  env_value (pr_env (process_of o tmp c library u)) "R_LIBS_USER" tmp /\
  (forall l, site_library c library u = Some l -> l <> "" -> without "=" l -> unpadded l ->
     env_value (pr_env (process_of o tmp c library u)) "R_LIBS_SITE" l) /\
  (plain_environment (ow_env o) -> plain_customs c -> site_library c library u = None ->
     forall w, ~ ("R_LIBS_SITE=" +:+ w) ∈ pr_env (process_of o tmp c library u)).
Proof.
  intros Hl Ht. destruct (env_of o tmp c library u Hl) as (es & -> & Eg & _ & El & Hk). split; [by apply libs_user|]. split.
  - intros l E H1 H2 H3. rewrite E in El.
    assert (join ":" (e_libs es) = l) as Ej by (by rewrite El).
    assert (e_libs es <> [""]) as H4 by (rewrite El; by intros [= ->]). assert (e_libs es <> []) as H5 by (by rewrite El). rewrite <- Ej in H2, H3 |- *. by apply libs_site.
  - intros Hp Hc E w H. rewrite E in El.
    destruct (libs_not_inherited (ow_env o) es tmp "R_LIBS_SITE" w) as (q & Hq & E1 & _); [by right|done| | |done|].
    + rewrite Eg. by intros ? ?%elem_of_nil.
    + intros kv Hkv. destruct (Hk kv Hkv) as (p & _ & H'). destruct (Hc p kv.1 H') as (? & _ & ?). done.
    + rewrite (libs_nowhere _ _ _ El Hq) in E1. discriminate E1.
Qed.

Lemma call_variables o tmp c library u name w : ~ is_load u -> plain_environment (ow_env o) -> plain_customs c -> var_name name ->
  name <> "R_LIBS_USER" -> name <> "R_LIBS_SITE" ->
  (name +:+ "=" +:+ w) ∈ pr_env (process_of o tmp c library u) ->
  (exists v, (name +:+ "=" +:+ v) ∈ ow_env o) \/ exists p, for_package u p /\ customized c p name.
Proof.
  intros Hl Hp Hc Hn N1 N2 H. destruct (env_of o tmp c library u Hl) as (es & Ee & Eg & _ & El & Hk). rewrite Ee in H.
  destruct (decide (name ∈ map fst (e_package es))) as [Hin|Hout].
  - right. apply elem_of_list_fmap in Hin as (kv & -> & Hkv). by apply Hk.
  - left. destruct (only_system (ow_env o) es tmp name w) as (v & Hv & _); try done; [| |by exists v].
    + rewrite Eg. by intros ? ?%elem_of_nil.
    + intros kv Hkv. destruct (Hk kv Hkv) as (p & _ & H'). destruct (Hc p kv.1 H') as (? & _ & _). split; [done|].
      intros E. apply Hout. rewrite <- E. by apply elem_of_list_fmap_1.
Qed.

Lemma call_secrets o tmp c library u name w : ~ is_load u -> plain_environment (ow_env o) -> plain_customs c -> var_name name ->
  sensitive name -> (forall p, for_package u p -> ~ customized c p name) ->
  (name +:+ "=" +:+ w) ∈ pr_env (process_of o tmp c library u) -> w = "**HIDDEN**".
Proof.
  intros Hl Hp Hc Hn Hs Hno H. destruct (env_of o tmp c library u Hl) as (es & Ee & Eg & _ & El & Hk). rewrite Ee in H.
  apply (secret_hidden (ow_env o) es tmp name w); try done.
  - by apply sensitive_censored.
  - rewrite Eg. by intros ? ?%elem_of_nil.
  - intros kv Hkv. destruct (Hk kv Hkv) as (p & Hfor & H'). destruct (Hc p kv.1 H') as (? & _ & _). split; [done|].
    intros E. apply (Hno p Hfor). by rewrite <- E.
Qed.

(** ** The version *)

Lemma version_again answer rs : rs_version rs <> (0, 0, (rs_version rs).2)%Z -> get_r_version answer rs = Known rs false.
Proof.
  intros H. unfold get_r_version. destruct (rs_version rs) as [[ma mi] pa]. cbn [snd] in H.
  destruct (Z.eqb_spec ma 0) as [-> |]; [|done]. destruct (Z.eqb_spec mi 0) as [-> |]; done.
Qed.

Lemma ask_known answer n rs ran : rs_version rs <> (0, 0, (rs_version rs).2)%Z -> ask_again answer n rs ran = Some (rs, ran).
Proof. intros H. induction n as [|n IH]; [done|]. cbn [ask_again]. by rewrite version_again. Qed.

Lemma ask_unknown out n rs ran pa : get_r_version (Some out) rs = Known rs true -> rs_version rs = (0, 0, pa)%Z ->
  ask_again (fun _ => Some out) n rs ran = Some (rs, n + ran)%nat.
Proof.
  intros H E. revert ran. induction n as [|n IH]; intros ran; [done|]. cbn [ask_again]. rewrite H, IH. f_equal. f_equal. lia.
Qed.

(** Asking twice gives the same. *)
Lemma ask_fixed out rs rs' pa : get_r_version (Some out) rs = Known rs' true -> rs_version rs' = (0, 0, pa)%Z ->
  get_r_version (Some out) rs' = Known rs' true.
Proof.
  unfold get_r_version. destruct (rs_version rs) as [[a b] d]. destruct (Z.eqb a 0 && Z.eqb b 0)%bool; [|done].
  destruct (parse_version_data out) as [ma mi p pl| |]; [|done|done]. intros [= <-]. cbn [rs_version rs_libs rs_rpath rs_global rs_packages].
  intros [= -> -> ->]. done.
Qed.

Lemma new_ran answer rpath rs b : new_r_settings answer rpath = Known rs b -> b = true /\ exists out, answer = Some out.
Proof.
  unfold new_r_settings, get_r_version. cbn [unasked rs_version]. change (Z.eqb 0 0 && Z.eqb 0 0)%bool with true. cbv iota.
  destruct answer as [out|]; [|done]. destruct (parse_version_data out); [|done|done]. intros [= _ <-]. split; [done|by exists out].
Qed.
