(** C139: certificates of web servers. *)
From stdpp Require Import strings list gmap.
From Coq Require Import Ascii ZArith NArith Lia.
From Verif.model Require Import GoStr Desc Nexus RepoDb Control Fs Install Download Urls Fetching Config Start Rollback Flags Web.
From Verif.spec Require Import FetchingSpec WebSpec.
From Verif.proofs Require Import GoStrLemmas UrlProofs FetchingProofs RunLink WebProofs.
From Verif.props Require Import P_Together P_Fetching.

Local Open Scope string_scope.

(** The user has not asked for --no-secure. *)
Definition wants_secure (a : flags) (k : file_keys) : Prop :=
  fl_no_secure a <> Some true /\ (fl_no_secure a = None -> fi_no_secure k <> Some true).

Lemma secure_setting cpus a v k : se_no_secure (init_settings cpus a v k) = false <-> wants_secure a k.
Proof.
  unfold wants_secure, init_settings. destruct (fl_update a); cbn [se_no_secure unmarshal]; unfold setting;
    destruct (fl_no_secure a) as [[]|], (fi_no_secure k) as [[]|]; cbn; intuition congruence.
Qed.

(** What arrives when the user has not asked for --no-secure: exactly what comes along
    routes on which all https servers have shown good certificates. *)
Theorem C139_exact cpus a v k n url st b ok : wants_secure a k ->
  client_get (se_no_secure (init_settings cpus a v k)) n url (SAnswer st b ok) <->
  exists l, checked_route n (n_proxy n) url l (SAnswer st b ok).
Proof. intros H. rewrite (proj2 (secure_setting cpus a v k) H). apply secure_route. Qed.

(** And with --no-secure: what comes along any route, without the proxy. *)
Theorem C139_no_secure_exact cpus a v k n url st b ok : ~ wants_secure a k ->
  client_get (se_no_secure (init_settings cpus a v k)) n url (SAnswer st b ok) <->
  exists l, head l = Some url /\ length l <= 10 /\ follows n (fun _ => false) l (SAnswer st b ok) /\
    forall u, u ∈ l -> http u \/ https u.
Proof.
  intros H. destruct (se_no_secure (init_settings cpus a v k)) eqn:E; [|by apply secure_setting in E]. apply insecure_route.
Qed.

(** Every package that is downloaded, and every index, has come along such a route. *)
Theorem C139_packages cpus a v k n x ds f m f' w d url : wants_secure a k ->
  let y := web_env (se_no_secure (init_settings cpus a v k)) n x in
  fetch_ok y ds -> fetched y ds f m f' -> w ∈ ds -> m !! w_pkg w = Some d -> d_new d = true ->
  address x w = Some url -> is_http url = true ->
  exists c l, f' (place x w) = Some (File c) /\ checked_route n (n_proxy n) url l (SAnswer 200 c true).
Proof.
  intros Hs y Hok Hf Hw Hm Hd Ha Hu. destruct (C130_results y ds f m f' Hok Hf) as [H _]. specialize (H w Hw). rewrite Hm in H.
  destruct H as [_ [(_ & K & _)|[(_ & _ & _ & c & Hc & Hg)|(_ & K & _)]]]; [congruence| |congruence].
  assert (address y w = Some url) as Ha' by exact Ha.
  destruct Hc as [(u & E & _ & s & G & R)|(q & (u & E & E2 & _) & _)]; rewrite Ha' in E; injection E as <-; [|congruence].
  exists c. destruct s as [|to|st b ok]; try discriminate. cbn in R. destruct (N.eqb_spec st 200) as [-> |]; [|discriminate].
  injection R as -> <-. apply (C139_exact cpus a v k n url 200 b true Hs) in G as [l G]. exists l. by split.
Qed.

Theorem C139_indexes cpus a v k n url b : wants_secure a k ->
  web_index (se_no_secure (init_settings cpus a v k)) n url b <->
  exists l, checked_route n (n_proxy n) url l (SAnswer 200 b true).
Proof.
  intros Hs. rewrite <- (C139_exact cpus a v k n url 200 b true Hs). split.
  - intros ([|to|st b' ok] & G & R); try discriminate. cbn in R. destruct (N.eqb_spec st 200) as [-> |]; [|discriminate].
    destruct ok; [|discriminate]. by injection R as ->.
  - intros G. by exists (SAnswer 200 b true).
Qed.

(** If https servers only send clients to https servers, everything from an https address
    comes from servers with good certificates.  Missing: servers that send clients on to
    http addresses, see C139_redirect_refuted; files that are in the cache, see
    C139_cached_refuted. *)
Theorem C139_partial cpus a v k n url st b ok : wants_secure a k -> stays_https n -> https url ->
  client_get (se_no_secure (init_settings cpus a v k)) n url (SAnswer st b ok) ->
  exists l, head l = Some url /\ follows n (n_proxy n) l (SAnswer st b ok) /\ forall u, u ∈ l -> vouched n (n_proxy n) u.
Proof.
  intros Hs Hn Hu H. apply (C139_exact cpus a v k n url st b ok Hs) in H as (l & L1 & L2 & L3 & L4).
  exists l. split; [done|]. split; [done|]. by apply (route_https n (n_proxy n) l (SAnswer st b ok) url).
Qed.

(** Without a proxy and with good certificates only, --no-secure makes no difference.
    Missing: proxies, see C139_proxy_refuted. *)
Theorem C139_same_partial n url s : no_proxy n -> (forall p u, https u -> n_trusted n p u = true) ->
  client_get true n url s <-> client_get false n url s.
Proof. apply get_same. Qed.

(** ** Examples *)

Definition no_flags : flags := {| fl_no_update := None; fl_update := false; fl_no_rollback := None; fl_no_secure := None;
  fl_strict := None; fl_library := None; fl_threads := None |}.
Definition no_variables : variables := {| va_rpath := None; va_library := None |}.
Definition no_keys : file_keys := {| fi_no_update := None; fi_no_rollback := None; fi_no_secure := None; fi_strict := None;
  fi_library := None; fi_rpath := None; fi_threads := None |}.
Definition no_secure_flags : flags := {| fl_no_update := None; fl_update := false; fl_no_rollback := None; fl_no_secure := Some true;
  fl_strict := None; fl_library := None; fl_threads := None |}.

Definition b_address : string := "https://r.org/src/contrib/b_1.0.tar.gz".
Definition b_mirror : string := "https://mirror.org/b_1.0.tar.gz".

(** b is at a mirror; bad.org has no good certificate. *)
Definition ex_net : network := {|
  n_served := fun _ u s => s = if String.eqb u b_address then SRedirect b_mirror else
                               if String.eqb u b_mirror then SAnswer 200 "source of b" true else
                               if String.eqb u "https://bad.org" then SAnswer 200 "other" true else SAnswer 404 "" true;
  n_trusted := fun _ u => negb (String.eqb u "https://bad.org"); n_proxy := fun _ => false
|}.

(** The same with good certificates only. *)
Definition ex_good : network := {| n_served := n_served ex_net; n_trusted := fun _ _ => true; n_proxy := fun _ => false |}.

Lemma ex_secure : wants_secure no_flags no_keys.
Proof. by split. Qed.

Lemma ex_not_secure : ~ wants_secure no_secure_flags no_keys.
Proof. by intros [H _]. Qed.

Example C139_exact_example : checked_route ex_net (n_proxy ex_net) b_address [b_address; b_mirror] (SAnswer 200 "source of b" true) /\
  ~ (exists st b ok, client_get (se_no_secure (init_settings 4 no_flags no_variables no_keys)) ex_net "https://bad.org" (SAnswer st b ok)) /\
  client_get (se_no_secure (init_settings 4 no_secure_flags no_variables no_keys)) ex_net "https://bad.org" (SAnswer 200 "other" true).
Proof.
  split; [|split].
  - split; [done|]. split; [cbn; lia|]. split; [by split|]. intros u Hu. left.
    apply elem_of_cons in Hu as [-> | Hu]; [by split; [eexists|]|]. apply elem_of_list_singleton in Hu as ->. by split; [eexists|].
  - intros (st & b & ok & H). apply (C139_exact 4 no_flags no_variables no_keys _ _ _ _ _ ex_secure) in H as (l & L1 & L2 & L3 & L4).
    destruct l as [|u l]; [done|]. injection L1 as ->. destruct (L4 "https://bad.org") as [[_ K]|[r K]]; [by left|done|done].
  - apply (C139_no_secure_exact 4 no_secure_flags no_variables no_keys _ _ _ _ _ ex_not_secure). exists ["https://bad.org"].
    split; [done|]. split; [cbn; lia|]. split; [reflexivity|]. intros u Hu. apply elem_of_list_singleton in Hu as ->. right. by eexists.
Qed.

Definition wv_env (no_secure : bool) (n : network) : fetch_env := web_env no_secure n wz_env.

Lemma wv_fetch_ok s n : fetch_ok (wv_env s n) [wz_a; wz_b].
Proof. by destruct (wz_fetch_ok [wz_a; wz_b]) as [K1 K2 K3 K4 K5 K6]; [left|split]. Qed.

Lemma wv_fetched s n c : client_get s n b_address (SAnswer 200 c true) ->
  exists m f', fetched (wv_env s n) [wz_a; wz_b] (fs_of wz_files) m f' /\
    m !! "b" = Some {| d_path := Some (place wz_env wz_b); d_new := true; d_wanted := wz_b |} /\
    (c <> "" -> f' (place wz_env wz_b) = Some (File c)).
Proof.
  intros Hg. destruct (decide (c = "")) as [-> | Hc].
  - eexists _, _. split.
    { eexists _, _. split; [|split; [|split; reflexivity]].
    + eapply (fetching_on _ _ _ [wz_repo]); [vm_compute; reflexivity|dirs_made|].
      unfold finitial. cbn [map]. begin_get 0. begin_get 1.
      get 0; [apply k_there; vm_compute; reflexivity|].
      get 1; [apply k_absent; vm_compute; reflexivity|].
      get 1; [eapply (k_ask _ _ _ _ (Download.Body "" true)); [vm_compute; reflexivity|apply an_web; [vm_compute; reflexivity|by eexists]]|].
      get 1; [apply k_make; vm_compute; reflexivity|]. get 1; [apply k_done|]. end_get 0. end_get 1. all_done.
    + reflexivity. }
    split; [reflexivity|done].
  - eexists _, _. split.
    { eexists _, _. split; [|split; [|split; reflexivity]].
    + eapply (fetching_on _ _ _ [wz_repo]); [vm_compute; reflexivity|dirs_made|].
      unfold finitial. cbn [map]. begin_get 0. begin_get 1.
      get 0; [apply k_there; vm_compute; reflexivity|].
      get 1; [apply k_absent; vm_compute; reflexivity|].
      get 1; [eapply (k_ask _ _ _ _ (Download.Body c true)); [vm_compute; reflexivity|apply an_web; [vm_compute; reflexivity|by eexists]]|].
      get 1; [apply k_make; vm_compute; reflexivity|].
      get 1; [rewrite <- (app_nil_str c) at 1; by apply (k_copy _ _ _ _ c "")|].
      get 1; [apply k_done|]. end_get 0. end_get 1. all_done.
    + reflexivity. }
    split; [reflexivity|]. intros _. unfold write_file. cbn [f_fs]. rewrite bool_decide_eq_true_2 by reflexivity. by cbn.
Qed.

Example C139_packages_example : wants_secure no_flags no_keys /\
  let y := web_env (se_no_secure (init_settings 4 no_flags no_variables no_keys)) ex_net wz_env in
  fetch_ok y [wz_a; wz_b] /\ address wz_env wz_b = Some b_address /\
  exists m f', fetched y [wz_a; wz_b] (fs_of wz_files) m f' /\
    m !! "b" = Some {| d_path := Some (place wz_env wz_b); d_new := true; d_wanted := wz_b |} /\
    f' (place wz_env wz_b) = Some (File "source of b").
Proof.
  split; [exact ex_secure|]. split; [apply wv_fetch_ok|]. split; [reflexivity|].
  destruct (wv_fetched false ex_net "source of b") as (m & f' & H1 & H2 & H3).
  { apply secure_route. eexists. exact (proj1 C139_exact_example). }
  exists m, f'. split; [exact H1|]. split; [done|]. by apply H3.
Qed.

Example C139_indexes_example : web_index (se_no_secure (init_settings 4 no_flags no_variables no_keys)) ex_net b_address "source of b".
Proof. apply (C139_indexes 4 no_flags no_variables no_keys _ _ _ ex_secure). eexists. exact (proj1 C139_exact_example). Qed.

Example C139_partial_example : stays_https ex_net /\ https b_address /\ ~ https "http://r.org".
Proof.
  split; [|split; [by eexists|by intros [r H]]]. intros p u v _ H. cbn in H.
  destruct (String.eqb u b_address); [injection H as ->; by eexists|]. destruct (String.eqb u b_mirror), (String.eqb u "https://bad.org"); discriminate.
Qed.

Example C139_same_partial_example : no_proxy ex_good /\ (forall p u, https u -> n_trusted ex_good p u = true) /\
  client_get true ex_good b_address (SAnswer 200 "source of b" true).
Proof.
  split; [done|]. split; [done|]. apply insecure_route. exists [b_address; b_mirror]. split; [done|]. split; [cbn; lia|]. split; [by split|].
  intros u Hu. right. apply elem_of_cons in Hu as [-> | Hu]; [by eexists|]. apply elem_of_list_singleton in Hu as ->. by eexists.
Qed.

(** ** Where it does not hold *)

(** The user wants certificates to be checked, and the repository has an https address, but
    an http server decides what is in the cache. *)
Theorem C139_redirect_refuted : exists n m f' c, wants_secure no_flags no_keys /\
  let y := web_env (se_no_secure (init_settings 4 no_flags no_variables no_keys)) n wz_env in
  fetch_ok y [wz_a; wz_b] /\ (exists url, address wz_env wz_b = Some url /\ https url) /\
  fetched y [wz_a; wz_b] (fs_of wz_files) m f' /\ f' (place wz_env wz_b) = Some (File c) /\
  (forall p u, https u -> ~ n_served n p u (SAnswer 200 c true)) /\ n_served n false "http://r.org/b" (SAnswer 200 c true).
Proof.
  set (n := {| n_served := fun _ u s => s = if String.eqb u b_address then SRedirect "http://r.org/b" else
                               if String.eqb u "http://r.org/b" then SAnswer 200 "of b" true else SAnswer 404 "" true;
               n_trusted := fun _ _ => true; n_proxy := fun _ => false |}).
  destruct (wv_fetched false n "of b") as (m & f' & H1 & H2 & H3).
  { apply secure_route. exists [b_address; "http://r.org/b"]. split; [done|]. split; [cbn; lia|]. split; [by split|].
    intros u Hu. apply elem_of_cons in Hu as [-> | Hu]; [left; by split; [eexists|]|]. apply elem_of_list_singleton in Hu as ->. right. by eexists. }
  exists n, m, f', "of b". split; [exact ex_secure|]. split; [apply wv_fetch_ok|].
  split; [exists b_address; split; [reflexivity|by eexists]|]. split; [exact H1|]. split; [by apply H3|]. split; [|reflexivity].
  intros p u [r ->]. cbn [n_served n]. destruct (String.eqb ("https://" +:+ r) b_address); [discriminate|].
  destruct (String.eqb_spec ("https://" +:+ r) "http://r.org/b"); discriminate.
Qed.

(** A file that was fetched with --no-secure from a server without a good certificate is
    used by a later run without it. *)
Theorem C139_cached_refuted : exists n m f' m2 f2 d, wants_secure no_flags no_keys /\
  fetched (web_env (se_no_secure (init_settings 4 no_secure_flags no_variables no_keys)) n wz_env) [wz_a; wz_b] (fs_of wz_files) m f' /\
  fetched (web_env (se_no_secure (init_settings 4 no_flags no_variables no_keys)) n wz_env) [wz_a; wz_b] f' m2 f2 /\
  f' (place wz_env wz_b) = Some (File "of b") /\ m2 !! "b" = Some d /\ d_path d = Some (place wz_env wz_b) /\
  f2 (place wz_env wz_b) = Some (File "of b") /\
  forall st b ok, ~ client_get (se_no_secure (init_settings 4 no_flags no_variables no_keys)) n b_address (SAnswer st b ok).
Proof.
  set (n := {| n_served := fun _ u s => s = if String.eqb u b_address then SAnswer 200 "of b" true else SAnswer 404 "" true;
               n_trusted := fun _ _ => false; n_proxy := fun _ => false |}).
  exists n. eexists _, _, _, _, _. split; [exact ex_secure|]. split.
  { eexists _, _. split; [|split; [|split; reflexivity]].
    - eapply (fetching_on _ _ _ [wz_repo]); [vm_compute; reflexivity|dirs_made|].
      unfold finitial. cbn [map]. begin_get 0. begin_get 1.
      get 0; [apply k_there; vm_compute; reflexivity|].
      get 1; [apply k_absent; vm_compute; reflexivity|].
      get 1; [eapply (k_ask _ _ _ _ (Download.Body "of b" true)); [vm_compute; reflexivity|apply an_web; [vm_compute; reflexivity|]]|].
      { exists (SAnswer 200 "of b" true). split; [|reflexivity]. apply insecure_route. exists [b_address].
        split; [done|]. split; [cbn; lia|]. split; [reflexivity|]. intros u Hu. apply elem_of_list_singleton in Hu as ->. right. by eexists. }
      get 1; [apply k_make; vm_compute; reflexivity|].
      get 1; [by apply (k_copy _ _ _ _ "of b" "")|].
      get 1; [apply k_done|]. end_get 0. end_get 1. all_done.
    - reflexivity. }
  cbn [f_fs]. split.
  { eexists _, _. split; [|split; [|split; reflexivity]].
    - eapply (fetching_on _ _ _ [wz_repo]); [vm_compute; reflexivity|dirs_made|].
      unfold finitial. cbn [map]. begin_get 0. begin_get 1.
      get 0; [apply k_there; vm_compute; reflexivity|].
      get 1; [apply k_there; vm_compute; reflexivity|].
      end_get 0. end_get 1. all_done.
    - reflexivity. }
  cbn [f_fs f_map]. split; [vm_compute; reflexivity|]. split; [reflexivity|]. split; [reflexivity|]. split; [vm_compute; reflexivity|].
  intros st b ok H. apply (C139_exact 4 no_flags no_variables no_keys _ _ _ _ _ ex_secure) in H as (l & L1 & L2 & L3 & L4).
  destruct l as [|u l]; [done|]. injection L1 as ->. destruct (L4 b_address) as [[_ K]|[r K]]; [by left|done|done].
Qed.

(** A server that is reached through a proxy only: with --no-secure nothing arrives. *)
Theorem C139_proxy_refuted : exists n, (forall p u, n_trusted n p u = true) /\
  client_get false n b_address (SAnswer 200 "source of b" true) /\
  forall st b ok, ~ client_get true n b_address (SAnswer st b ok).
Proof.
  exists {| n_served := fun p u s => s = if p then SAnswer 200 "source of b" true else SNothing;
            n_trusted := fun _ _ => true; n_proxy := fun _ => true |}.
  split; [done|]. split.
  - apply secure_route. exists [b_address]. split; [done|]. split; [cbn; lia|]. split; [reflexivity|].
    intros u Hu. apply elem_of_list_singleton in Hu as ->. left. by split; [eexists|].
  - intros st b ok H. apply insecure_route in H as (l & L1 & L2 & L3 & L4). destruct l as [|u [|u' l]]; [done| |]; cbn in L3; [discriminate|].
    destruct L3 as [L3 _]. discriminate.
Qed.

Print Assumptions C139_exact.
Print Assumptions C139_no_secure_exact.
Print Assumptions C139_packages.
Print Assumptions C139_indexes.
Print Assumptions C139_partial.
Print Assumptions C139_same_partial.
Print Assumptions C139_redirect_refuted.
Print Assumptions C139_cached_refuted.
Print Assumptions C139_proxy_refuted.
