(** C130: downloading packages into the cache; C99: whole runs with the downloads. *)
From stdpp Require Import strings list gmap.
From Coq Require Import Ascii ZArith Lia.
From Verif.model Require Import GoStr Version Desc Nexus RepoDb Pacman Graph Plan Fs Rollback Stamp Yml Sched Install Download Tarballs Together Urls Fetching.
From Verif.spec Require Import RepoSpec GraphSpec PlanSpec SchedSpec LibSpec DownloadSpec InstallSpec TarballSpec TogetherSpec ApartSpec FetchingSpec EndSpec.
From Verif.proofs Require Import GraphProofs PlanProofs PlanProps FsProofs RollbackProofs RunProofs RunProps RunLink ExampleWorlds RunProps2 SchedProofs SchedProps SchedLink
  DownloadProofs TogetherProofs WholeProofs TogetherEnd ToyR FetchingProofs EndProofs.
From Verif.props Require Import P_Graph P_Library P_Sched P_Together.

Local Open Scope string_scope.

(** ** C130: downloading *)

(** When DownloadPackages returns, it is known of each package what has become of it. *)
Theorem C130_results : forall x ds f m f', fetch_ok x ds -> fetched x ds f m f' ->
  (forall w, w ∈ ds -> match m !! w_pkg w with
                       | Some d => d_wanted d = meant x w /\ (FetchingSpec.kept x f f' w d \/ arrived x f f' w d \/ not_had x f f' w d)
                       | None => spoiled x f f' w
                       end) /\
  (forall p, ~ p ∈ map w_pkg ds -> m !! p = None).
Proof.
  intros x ds f m f' Hok (ls & s & [repos f0 ls' s' R1 R2 R3] & Hr & <- & <-). by apply (fetch_results x ds f Hok repos f0 R1 R2 ls' s' R3 Hr).
Qed.

(** At all times: what has been there before is unchanged, nothing appears outside of the
    cache, and at most ten downloads are going on. *)
Theorem C130_always : forall x ds f ls s, fetch_ok x ds -> fetching x ds f ls s ->
  (forall q n, f q = Some n -> f_fs s q = Some n) /\ cache_only x f (f_fs s) /\ (tree_ok f -> tree_ok (f_fs s)) /\
  begun ls <= ended ls + 10.
Proof.
  intros x ds f ls s Hok [repos f0 ls' s' R1 R2 R3].
  split; [by apply (fetch_keeps x ds f Hok repos f0 R1 R2 _ _ R3)|]. split; [by apply (fetch_frame x ds f Hok repos f0 R1 R2 _ _ R3)|].
  split; [by apply (fetch_tree x ds f Hok repos f0 R1 R2 _ _ R3)|].
  eapply download_bound; [exact (fk_names _ _ Hok)|]. by eapply shadow_exec.
Qed.

(** It goes on until it returns, unless the program is stopped because a local repository
    does not have a file, and it does not go on for ever. *)
Theorem C130_ends : forall x ds,
  (forall f ls s, fetch_ok x ds -> answering x -> fetching x ds f ls s -> f_returned s = false -> f_stopped s = false ->
     exists l s', fstep x s l s') /\
  (forall run : nat -> fstate, ~ (forall n, exists l, fstep x (run n) l (run (S n)))).
Proof.
  intros x ds. split; [|apply fetch_ends]. intros f ls s Hok Ha [repos f0 ls' s' R1 R2 R3] Hr Hs.
  eapply fetch_goes_on; try done. exact (fk_names _ _ Hok).
Qed.

(** ** C99: whole runs with the downloads *)

Theorem C99_downloaded : forall c i e x ws Rs j R l name ds f fd f3,
  run_ok c i f -> job_ok j -> e_library e = Rollback.rc_library c ->
  j_starting j = ip_starting (ri_plan i) -> j_depdb j = ip_depdb (ri_plan i) ->
  (forall p, p ∈ ri_keys i <-> is_Some (ip_depdb (ri_plan i) !! p)) ->
  fetch_ok x ws -> covers ws j -> arranged e x j name ds ->
  l.*1 ≡ₚ ri_additional i -> installable (fun _ => name) (e_library e) l ->
  (forall p a, (p, a) ∈ l -> in_some ds (removelast (ad_path a))) ->
  rs_only Rs name -> rs_installs Rs name -> r_only R (fun _ => name) -> r_trees R -> r_installs R (fun _ => name) ->
  tarballs_there e j l (run_ops (prepare_ops c i) f) ->
  fetched x ws (run_ops (prepare_ops c i) f) (e_downloads e) fd -> all_fetched ws (e_downloads e) ->
  installs e Rs j R l fd false false f3 ->
  let run := r_install c i (RunWorld false (fun _ => f3) false false) f in
  let g := run_final c i (RunWorld false (fun _ => f3) false false) f in
  rt_outcome run = Exit 0 ->
  (forall p, p ∈ required i -> g (Rollback.rc_library c ++ [p])%list = Some Dir) /\
  (forall p, replaced c i p -> no_dir (Rollback.rc_library c) (backup_of p) g) /\
  (ip_create_library (ri_plan i) = false -> forall q, ~ leftovers e i ds q ->
     (forall x, x ∈ required i \/ (exists p, replaced c i p /\ x = backup_of p) -> ~ in_dir (Rollback.rc_library c ++ [x])%list q) ->
     g q = f q).
Proof.
  intros c i e x ws Rs j R l name ds f fd f3 Hrun Hj Hlib Hst Hdb Hk Hok Hcov Har Hl Hin Hun HR HI HR2 HT HI2 Ht Hf Hall Hi run g Ho.
  pose proof (WholeProofs.exit_library c i f Hrun _ Ho) as Hd.
  destruct (linked_whole c i e x ws j l name ds f fd) as (W1 & W2 & W3 & W4); try done.
  by apply (C99_whole_run c i e Rs j R l name ds f fd f3).
Qed.

(** The downloads of a plan are for the packages of the plan, each once. *)
Theorem C99_downloads_cover : forall nx nr o pkgs pre cfg update le ip keys n,
  nexus_ok nx -> ~ available nx "R" -> oracle_ok o -> standard_config nr cfg ->
  (forall p, p ∈ pkgs -> available nx p) ->
  resolve_installation_reqs o pkgs pre cfg nx update le nr = PlanOk ip ->
  covers (wants ip) (Job (ip_starting ip) (ip_depdb ip) keys n) /\ NoDup (map w_pkg (wants ip)).
Proof.
  intros nx nr o pkgs pre cfg update le ip keys n H1 H2 H3 H4 H5 H6.
  destruct (C26_downloads nx nr o pkgs pre cfg update le ip H1 H2 H3 H4 H5 H6) as (_ & D1 & D2).
  unfold wants. rewrite map_map. cbn [w_pkg]. split; [|done].
  intros p Hp. unfold wants. rewrite map_map. cbn [w_pkg]. rewrite D1. destruct Hp as [Hp|[d Hp]]; cbn in Hp;
    unfold planned_names; apply elem_of_app; [by left|right]. apply elem_of_list_fmap. exists (p, d). split; [done|]. by apply elem_of_map_to_list.
Qed.

(** From the request to the library. *)
Theorem C99_request_downloaded : forall c f dirs nx nr o pkgs cfg update ip keys add add' n e x Rs R l name ds fd f3,
  nexus_ok nx -> ~ available nx "R" -> oracle_ok o -> standard_config nr cfg ->
  (forall p, p ∈ pkgs -> available nx p) -> tree_ok f -> lists_library f (Rollback.rc_library c) dirs ->
  resolve_installation_reqs o pkgs (found f (Rollback.rc_library c) dirs) cfg nx update (fs_dir_exists f (Rollback.rc_library c)) nr = PlanOk ip ->
  keys ≡ₚ (map_to_list (ip_depdb ip)).*1 -> add' ≡ₚ add -> NoDup add ->
  (forall p, p ∈ get_all_packages ip keys add -> r_name p) ->
  let i := RunInput ip keys add add' (found f (Rollback.rc_library c) dirs) in
  let j := Job (ip_starting ip) (ip_depdb ip) keys n in
  e_library e = Rollback.rc_library c -> fetch_ok x (wants ip) -> arranged e x j name ds ->
  l.*1 ≡ₚ add -> installable (fun _ => name) (e_library e) l ->
  (forall p a, (p, a) ∈ l -> in_some ds (removelast (ad_path a))) ->
  rs_only Rs name -> rs_installs Rs name -> r_only R (fun _ => name) -> r_trees R -> r_installs R (fun _ => name) ->
  tarballs_there e j l (run_ops (prepare_ops c i) f) ->
  fetched x (wants ip) (run_ops (prepare_ops c i) f) (e_downloads e) fd -> all_fetched (wants ip) (e_downloads e) ->
  installs e Rs j R l fd false false f3 ->
  let w := RunWorld false (fun _ => f3) false false in
  rt_outcome (r_install c i w f) = Exit 0 ->
  forall p, closure cfg nx pkgs p \/ p ∈ add -> run_final c i w f (Rollback.rc_library c ++ [p])%list = Some Dir.
Proof.
  intros c f dirs nx nr o pkgs cfg update ip keys add add' n e x Rs R l name ds fd f3 H1 H2 H3 H4 H5 H6 H7 H8 H9 H10 H11 H12
    i j Hlib Hok Har Hl Hin Hun HR HI HR2 HT HI2 Ht Hf Hall Hi w Ho.
  assert (run_ok c i f) as Hrun by (by eapply C33_planned_runs).
  destruct (C99_downloads_cover nx nr o pkgs _ cfg update _ ip keys n H1 H2 H3 H4 H5 H8) as [Hcov _].
  pose proof (WholeProofs.exit_library c i f Hrun _ Ho) as Hd.
  destruct (linked_whole c i e x (wants ip) j l name ds f fd) as (W1 & W2 & W3 & W4); try done.
  { intros p. cbn [ri_keys ri_plan i]. rewrite H9, elem_of_list_fmap. split.
    - intros ([q d] & -> & H). apply elem_of_map_to_list in H. by exists d.
    - intros [d H]. exists (p, d). split; [done|]. by apply elem_of_map_to_list. }
  by eapply C99_request_installed.
Qed.

(** ** Example: as in P_Together, b needs a; the source of a is in the cache already, that
    of b comes from the server, that of c is not there. *)
Definition wz_md5 : string -> string := fun _ => "00000000000000000000000000000000".
Definition wz_repo : repo_url := RepoURL "https://r.org" "r" "".
Definition wz_a : Download.wanted := {| w_pkg := "a"; w_version := "2.0"; w_type := STSource; w_repo := wz_repo |}.
Definition wz_b : Download.wanted := {| w_pkg := "b"; w_version := "1.0"; w_type := STSource; w_repo := wz_repo |}.
Definition wz_c : Download.wanted := {| w_pkg := "c"; w_version := "1.0"; w_type := STSource; w_repo := wz_repo |}.

Definition wz_env : fetch_env := {|
  x_md5 := wz_md5; x_os := Linux; x_rel := None; x_cache := ["cache"]; x_rv := RVersion 4 0 5; x_cwd := ["home"];
  x_serve := fun url r => r = (if String.eqb url "https://r.org/src/contrib/b_1.0.tar.gz" then Body "source of b" true else BadStatus 404)
|}.

Definition wz_files : list (list string * node) :=
  [([], Dir); (["lib"], Dir); (["lib"; "a"], Dir); (["lib"; "a"; "DESCRIPTION"], File "a old"); (["lib"; "a"; "R"], File "code");
   (["lib"; "z"], Dir); (["lib"; "z"; "DESCRIPTION"], File "z old"); (["tmp"], Dir); (["home"], Dir); (["cache"], Dir);
   (["cache"; "r-000000000000"], Dir); (["cache"; "r-000000000000"; "src"], Dir);
   (["cache"; "r-000000000000"; "src"; "a_2.0.tar.gz"], File "source of a"); (["cache"; "h"], Dir); (["cache"; "h"; "t"], Dir);
   (["mine"], File "mine")].

Lemma fx_cons x s l s' ls s'' : fstep x s l s' -> fexec x s' ls s'' -> fexec x s (l ++ ls)%list s''.
Proof.
  intros H1 H2. induction H2 as [|ls s2 l2 s3 H2 IH H3].
  - rewrite app_nil_r. apply (fexec_snoc _ _ [] s l s'); [constructor|done].
  - rewrite app_assoc. by eapply fexec_snoc.
Qed.

Lemma wz_fetch_ok l : l = [wz_a; wz_b] \/ l = [wz_a; wz_b; wz_c] -> fetch_ok wz_env l.
Proof.
  intros Hl. assert (forall w, w ∈ l -> w = wz_a \/ w = wz_b \/ w = wz_c) as Hw.
  { destruct Hl as [-> | ->]; intros w H; set_solver. }
  split.
  - intros s. split; [reflexivity|]. vm_compute. repeat (split; [discriminate|]). done.
  - done.
  - intros w H. assert (r_name (w_pkg w)) as Hr.
    { apply (r_nameb_all ["a"; "b"; "c"]); [vm_compute; reflexivity|]. destruct (Hw w H) as [-> |[-> | ->]]; cbn; set_solver. }
    split; [done|]. destruct (Hw w H) as [-> |[-> | ->]]; vm_compute; repeat split; discriminate.
  - destruct Hl as [-> | ->]; cbn; repeat constructor; set_solver.
  - intros w1 w2 H1 H2 _. by destruct (Hw w1 H1) as [-> |[-> | ->]], (Hw w2 H2) as [-> |[-> | ->]].
  - intros w q H (url & Hu & Hh & _). destruct (Hw w H) as [-> |[-> | ->]]; vm_compute in Hu; injection Hu as <-; vm_compute in Hh; discriminate Hh.
Qed.

(** Steps of the goroutine [n]. *)
Ltac front n k := match goal with |- fexec _ (FState ?l _ _ _ _ _) _ _ => let p := eval cbn [take] in (take n l) in k p end.
Ltac begin_get n := front n ltac:(fun p => eapply fx_cons; [eapply (x_acquire _ _ p); vm_compute; lia|cbn [app]]).
Ltac get n := front n ltac:(fun p => eapply fx_cons; [eapply (x_work _ _ _ _ p)|cbn [app after_answer]]).
Ltac end_get n :=
  front n ltac:(fun p => eapply fx_cons; [eapply (x_end _ _ _ p)|cbn [app]]);
  front n ltac:(fun p => eapply fx_cons; [eapply (x_put _ _ _ p)|cbn [app]]);
  front n ltac:(fun p => eapply fx_cons; [eapply (x_release _ _ p)|cbn [app]]).
Ltac dirs_made := unfold make_dirs; rewrite mkdir_yes by (vm_compute; reflexivity); rewrite mkdir_yes by (vm_compute; reflexivity); reflexivity.
Ltac replied r := eapply (k_ask _ _ _ _ r); [vm_compute; reflexivity|apply an_web; vm_compute; reflexivity].
Ltac all_done := eapply fx_cons; [apply x_return|constructor];
  let w := fresh in let g := fresh in let H := fresh in intros w g H; repeat (apply elem_of_cons in H as [H|H]; [by injection H as _ ->|]); by apply elem_of_nil in H.

Example C130_example : fetch_ok wz_env [wz_a; wz_b; wz_c] /\ answering wz_env /\
  exists m f', fetched wz_env [wz_a; wz_b; wz_c] (fs_of wz_files) m f' /\
    m !! "a" = Some {| d_path := Some ["cache"; "r-000000000000"; "src"; "a_2.0.tar.gz"]; d_new := false; d_wanted := wz_a |} /\
    m !! "b" = Some {| d_path := Some ["cache"; "r-000000000000"; "src"; "b_1.0.tar.gz"]; d_new := true; d_wanted := wz_b |} /\
    m !! "c" = Some {| d_path := None; d_new := false; d_wanted := wz_c |} /\
    f' ["cache"; "r-000000000000"; "src"; "a_2.0.tar.gz"] = Some (File "source of a") /\
    f' ["cache"; "r-000000000000"; "src"; "b_1.0.tar.gz"] = Some (File "source of b") /\
    f' ["cache"; "r-000000000000"; "src"; "c_1.0.tar.gz"] = None /\ f' ["cache"; "r-000000000000"; "binary"; "4.0"] = Some Dir.
Proof.
  split; [apply wz_fetch_ok; by right|]. split; [intros url _; by eexists|].
  eexists _, _. split.
  { eexists _, _. split; [|split; [|split; reflexivity]].
    - eapply (fetching_on _ _ _ [wz_repo]); [vm_compute; reflexivity| |].
      + dirs_made.
      + unfold finitial. cbn [map].
        begin_get 1. begin_get 0.
        get 1; [apply k_absent; vm_compute; reflexivity|].
        get 0; [apply k_there; vm_compute; reflexivity|].
        get 1; [replied (Body "source of b" true)|].
        begin_get 2. get 2; [apply k_absent; vm_compute; reflexivity|].
        get 1; [apply k_make; vm_compute; reflexivity|].
        get 2; [replied (BadStatus 404)|].
        get 1; [apply (k_copy _ _ _ _ "source" " of b"); discriminate|].
        end_get 0. end_get 2.
        get 1; [apply (k_copy _ _ _ _ " of b" ""); discriminate|].
        get 1; [apply k_done|].
        end_get 1. all_done.
    - reflexivity. }
  split; [reflexivity|]. split; [reflexivity|]. split; [reflexivity|].
  split; [vm_compute; reflexivity|]. split; [vm_compute; reflexivity|]. split; vm_compute; reflexivity.
Qed.

Definition wz_download (w : Download.wanted) (new : bool) : download :=
  {| d_path := Some (place wz_env w); d_new := new; d_wanted := meant wz_env w |}.

Definition wz : Together.setting := {|
  e_downloads := <["b" := wz_download wz_b true]> (<["a" := wz_download wz_a false]> ∅); e_library := ["lib"]; e_pkgr := "3.0";
  e_rversion := RVersion 4 0 5; e_platform := "x";
  e_where := {| s_cwd := ["home"]; s_tmp := ["tmp"]; s_cache := ["cache"]; s_os := Linux; s_md5 := wz_md5; s_read := fun _ => None |};
  e_tmp := fun p => ["tmp"; p]
|}.

Definition wz_staged : fsys := run_ops (prepare_ops wx_conf wx_input) (fs_of wz_files).
Definition wz_dirs (f : fsys) : fsys := fun q =>
  if below q ["cache"; "r-000000000000"; "binary"; "4.0"] then Some Dir else
  if below q ["cache"; "r-000000000000"; "src"] then Some Dir else f q.
Definition wz_after : fsys := write_file (place wz_env wz_b) "source of b" (write_file (place wz_env wz_b) "" (wz_dirs wz_staged)).

Lemma before_under p y : version_name p -> before_underscore (p +:+ String "_" y) = p.
Proof.
  induction p as [|c p IH]; intros H; [reflexivity|]. destruct H as [[_ Hc] H]. cbn [append before_underscore].
  destruct (Ascii.eqb_spec c "_"); [done|]. by rewrite IH.
Qed.

Lemma toy_named : named_after toy_name.
Proof. intros d p y Hp. unfold toy_name. rewrite CacheProofs.base_snoc. apply before_under. by apply ApartProofs.r_name_chars. Qed.

Lemma wz_run_ok : run_ok wx_conf wx_input (fs_of wz_files).
Proof.
  split.
  - apply r_nameb_all. vm_compute. reflexivity.
  - done.
  - cbn. repeat constructor; set_solver.
  - cbn. repeat constructor; set_solver.
  - intros x Hx. cbn in Hx. apply elem_of_list_singleton in Hx as ->. eexists. vm_compute. reflexivity.
  - apply tree_okb_sound. vm_compute. reflexivity.
  - split; [done|]. intros H. exfalso. apply H. vm_compute. reflexivity.
  - intros p [d Hd]. cbn in Hd. unfold wx_found in Hd. apply lookup_singleton_Some in Hd as [<- _]. vm_compute. reflexivity.
Qed.

Lemma wz_covers : covers [wz_a; wz_b] wx_job.
Proof. intros p H. wx_case H; cbn; set_solver. Qed.

Lemma wz_arranged m : arranged {| e_downloads := m; e_library := e_library wz; e_pkgr := e_pkgr wz; e_rversion := e_rversion wz;
    e_platform := e_platform wz; e_where := e_where wz; e_tmp := e_tmp wz |} wz_env wx_job toy_name wx_dirs.
Proof.
  split; try done.
  - intros p H a b E. assert (String.length p = 1) as K by (by wx_case H). rewrite E, !UrlProofs.append_length in K.
    cbn [String.length] in K. lia.
  - exact toy_named.
  - intros y H. apply elem_of_list_singleton in H as ->. by repeat split.
  - intros d H. unfold wx_dirs in H. apply elem_of_cons in H as [-> | H]; [by apply wx_apart|].
    apply elem_of_list_singleton in H as ->. by apply wx_apart.
  - intros p H. apply (wx_in ["tmp"]); [set_solver|]. done.
  - intros p p' H H' Hne. wx_case H; wx_case H'; try done; by apply wx_apart.
  - apply (wx_in ["cache"]); [set_solver|]. done.
  - intros p H. by apply wx_apart.
Qed.

Lemma wz_fetched : fetched wz_env [wz_a; wz_b] wz_staged (e_downloads wz) wz_after.
Proof.
  eexists _, _. split; [|split; [|split]].
  - eapply (fetching_on _ _ _ [wz_repo]); [vm_compute; reflexivity|dirs_made|].
    unfold finitial. cbn [map].
    begin_get 1. begin_get 0.
    get 0; [apply k_there; vm_compute; reflexivity|].
    get 1; [apply k_absent; vm_compute; reflexivity|].
    get 1; [replied (Body "source of b" true)|].
    get 1; [apply k_make; vm_compute; reflexivity|].
    end_get 0.
    get 1; [apply (k_copy _ _ _ _ "source of b" ""); discriminate|].
    get 1; [apply k_done|]. end_get 1. all_done.
  - reflexivity.
  - reflexivity.
  - reflexivity.
Qed.

Lemma wz_tarballs_there m : tarballs_there {| e_downloads := m; e_library := e_library wz; e_pkgr := e_pkgr wz; e_rversion := e_rversion wz;
    e_platform := e_platform wz; e_where := e_where wz; e_tmp := e_tmp wz |} wx_job wx_tarballs wz_staged.
Proof.
  intros p a H. apply elem_of_list_singleton in H as [= -> ->]. split; [vm_compute; done|].
  split; [apply not_below; vm_compute; reflexivity|]. intros p' H'. apply not_below. wx_case H'; vm_compute; reflexivity.
Qed.

Ltac zball := match goal with |- context [ball_for ?e ?p] => let b := eval vm_compute in (ball_for e p) in change (ball_for e p) with b end.
Ltac zone :=
  unfold tinitial, initial, wx_job; cbn [j_starting j_workers replicate];
  sched main_add; sched main_send; sched req_mark; sched req_push;
  (eapply tg_cons; [apply ts_start, work_start with (w1 := [])|cbn [app]]);
  sched main_wait;
  build; r_good; use_binary; r_good; zball; finish (ROk true); copy; post;
  (eapply tg_cons; [apply ts_sched; [apply upd_ok|done]|]); change (dependents _ "a") with ["b"];
  sched upd_suggest; sched upd_send; sched req_mark; sched req_push; sched upd_copied; sched upd_done;
  (eapply tg_cons; [apply ts_start, work_start with (w1 := [])|cbn [app]]).

Example C99_downloaded_example :
  run_ok wx_conf wx_input (fs_of wz_files) /\ job_ok wx_job /\
  fetch_ok wz_env [wz_a; wz_b] /\ covers [wz_a; wz_b] wx_job /\ arranged wz wz_env wx_job toy_name wx_dirs /\
  installable (fun _ => toy_name) (e_library wz) wx_tarballs /\
  rs_only (toy_process []) toy_name /\ rs_installs (toy_process []) toy_name /\ r_only (toy []) (fun _ => toy_name) /\
  r_trees (toy []) /\ r_installs (toy []) (fun _ => toy_name) /\
  tarballs_there wz wx_job wx_tarballs (run_ops (prepare_ops wx_conf wx_input) (fs_of wz_files)) /\
  (run_ops (prepare_ops wx_conf wx_input) (fs_of wz_files)) (place wz_env wz_b) = None /\
  exists fd f3, fetched wz_env [wz_a; wz_b] (run_ops (prepare_ops wx_conf wx_input) (fs_of wz_files)) (e_downloads wz) fd /\
    all_fetched [wz_a; wz_b] (e_downloads wz) /\ fd (place wz_env wz_b) = Some (File "source of b") /\
    installs wz (toy_process []) wx_job (toy []) wx_tarballs fd false false f3 /\
    let w := RunWorld false (fun _ => f3) false false in
    rt_outcome (r_install wx_conf wx_input w (fs_of wz_files)) = Exit 0 /\
    let g := run_final wx_conf wx_input w (fs_of wz_files) in
    g ["lib"; "a"; "DESCRIPTION"] = Some (File "a new") /\ g ["lib"; "a"; "R"] = None /\ g ["lib"; "b"] = Some Dir /\
    g ["lib"; "t"] = Some Dir /\ g ["lib"; "__OLD__a"] = None /\ g ["mine"] = Some (File "mine").
Proof.
  split; [exact wz_run_ok|]. split; [exact wx_job_ok|]. split; [apply wz_fetch_ok; by left|]. split; [exact wz_covers|].
  split; [exact (wz_arranged (e_downloads wz))|]. split; [exact (ho_installable _ _ _ _ _ _ _ wx_whole_ok)|]. split; [apply toy_rs_only|].
  split; [apply toy_rs_installs|]. split; [apply toy_r_only|]. split; [apply toy_trees|]. split; [apply toy_installs|].
  split; [exact (wz_tarballs_there (e_downloads wz))|]. split; [vm_compute; reflexivity|].
  exists wz_after. eexists. split; [exact wz_fetched|].
  split. { intros w H. apply elem_of_cons in H as [-> | H]; [by eexists|]. apply elem_of_list_singleton in H as ->. by eexists. }
  split; [vm_compute; reflexivity|]. split.
  - eapply (installs_all _ _ _ _ _ _ _ _ None).
    + zone. build. r_good. use_binary. r_good. zball. finish (ROk true). copy. post.
      eapply tg_cons; [apply ts_sched; [apply upd_ok|done]|]. change (dependents _ "b") with (@nil string).
      sched upd_copied. sched upd_done. at_end.
    + reflexivity.
    + reflexivity.
    + reflexivity.
    + apply add_one; [vm_compute; reflexivity|]. apply toy_good; [vm_compute; reflexivity|vm_compute; set_solver].
  - cbn zeta. split; [vm_compute; reflexivity|]. split; [vm_compute; reflexivity|]. split; [vm_compute; reflexivity|].
    split; [vm_compute; reflexivity|]. split; [vm_compute; reflexivity|]. split; vm_compute; reflexivity.
Qed.

(** ** C98: a package that the server does not have *)

(** The server has neither package b nor anything else. *)
Definition wr_env : fetch_env := {|
  x_md5 := wz_md5; x_os := Linux; x_rel := None; x_cache := ["cache"]; x_rv := RVersion 4 0 5; x_cwd := ["home"];
  x_serve := fun _ r => r = BadStatus 404
|}.
Definition wr : Together.setting := {|
  e_downloads := <["b" := {| d_path := None; d_new := false; d_wanted := meant wr_env wz_b |}]> (<["a" := wz_download wz_a false]> ∅);
  e_library := e_library wz; e_pkgr := e_pkgr wz; e_rversion := e_rversion wz; e_platform := e_platform wz; e_where := e_where wz; e_tmp := e_tmp wz
|}.

Lemma wr_fetch_ok : fetch_ok wr_env [wz_a; wz_b].
Proof. by destruct (wz_fetch_ok [wz_a; wz_b]) as [K1 K2 K3 K4 K5 K6]; [left|split]. Qed.

Lemma wr_arranged : arranged wr wr_env wx_job toy_name wx_dirs.
Proof. by destruct (wz_arranged (e_downloads wr)) as [? ? ? ? ? ? ? ? ? ? ? ? ?]; split. Qed.

Lemma wr_fetched : fetched wr_env [wz_a; wz_b] wz_staged (e_downloads wr) (wz_dirs wz_staged).
Proof.
  eexists _, _. split; [|split; [|split]].
  - eapply (fetching_on _ _ _ [wz_repo]); [vm_compute; reflexivity|dirs_made|].
    unfold finitial. cbn [map].
    begin_get 1. begin_get 0.
    get 0; [apply k_there; vm_compute; reflexivity|].
    get 1; [apply k_absent; vm_compute; reflexivity|].
    get 1; [replied (BadStatus 404)|].
    end_get 0. end_get 1. all_done.
  - reflexivity.
  - reflexivity.
  - reflexivity.
Qed.

(** When the server does not have package b, and pkgr is started in the directory of the
    R package home: home is installed in place of b, and b is taken to be installed.  (What
    has been built cannot be copied to the cache then, so that pkgr waits for ever: C46.) *)
Theorem C98_refused_refuted : exists e x ws Rs j name ds f fd ls st,
  job_ok j /\ fetch_ok x ws /\ covers ws j /\ arranged e x j name ds /\ rs_only Rs name /\ rs_installs Rs name /\
  tree_ok f /\ f (e_library e) = Some Dir /\ fetched x ws f (e_downloads e) fd /\
  together e Rs j (tinitial _ j fd) ls st /\
  succeeded ls "b" /\ t_fs st (e_library e ++ ["b"])%list = None /\
  ~ in_plan j "home" /\ fd (e_library e ++ ["home"])%list = None /\ t_fs st (e_library e ++ ["home"])%list = Some Dir.
Proof.
  exists wr, wr_env, [wz_a; wz_b], (toy_process []), wx_job, toy_name, wx_dirs, wz_staged, (wz_dirs wz_staged).
  eexists _, _. split; [exact wx_job_ok|]. split; [exact wr_fetch_ok|].
  split; [exact wz_covers|]. split; [exact wr_arranged|]. split; [apply toy_rs_only|]. split; [apply toy_rs_installs|].
  split; [by apply (staged_tree wx_conf wx_input _ wz_run_ok)|]. split; [vm_compute; reflexivity|]. split; [exact wr_fetched|]. split.
  - zone. build. r_good. use_binary. r_good. zball. finish (ROk false). constructor.
  - split; [exists false; vm_compute; set_solver|]. split; [vm_compute; reflexivity|].
    split; [intros H; apply wx_planned in H as [H|H]; discriminate H|]. split; vm_compute; reflexivity.
Qed.

Print Assumptions C130_results.
Print Assumptions C130_always.
Print Assumptions C130_ends.
Print Assumptions C99_downloaded.
Print Assumptions C99_downloads_cover.
Print Assumptions C99_request_downloaded.
Print Assumptions C98_refused_refuted.
