(** What the program does in the cases left out by C43, C49, C72, C78, C84, C85, C112,
    C113, C117, C126 and C127. *)
From stdpp Require Import strings list gmap relations.
From Coq Require Import Ascii ZArith NArith Lia.
From Verif.model Require Import GoStr Version Desc Nexus RepoDb Fs Env Stamp Yml Install Download Urls OsRelease Config Logging LoadCmd Status Temp.
From Verif.model Require Import Start Commands.
From Verif.spec Require Import StrSpec VersionSpec RepoSpec LibSpec EnvSpec UrlSpec ExtractSpec OsReleaseSpec InstallSpec StartSpec LoadCmdSpec
  LogSpec TempSpec Exact7Spec.
From Verif.proofs Require Import GoStrLemmas RepoProofs FsProofs ExtractProofs CleanProofs TarballProofs InstallProofs StartProofs LoadCmdProofs LogProofs Exact7Proofs.
From Verif.props Require Import P_Graph P_Install P_Log P_Temp.

Local Open Scope string_scope.

(** ** C43, C49: when an installation without an error has installed nothing *)

Theorem C43_exact R name s r f code b f' t :
  r_installs R name -> request_ok s r f -> install_through_binary R s r f = (Install.Done code false b, f', t) ->
  (forall c g, c ∈ t -> name g (rc_source c) = q_pkg r) ->
  f' (q_library r ++ [q_pkg r])%list <> Some Dir <->
  code = 1%Z /\ exists f0, mkdir_all (s_tmp s) f = Some f0 /\ f0 (Install.resolve (s_cwd s) (q_path r)) = None.
Proof.
  intros Hi (Hn & Ht & Ha1 & Ha2) H Hm. split.
  - intros Hf. destruct (success_means R name s r f code b f' t Hi Hn H Hm) as [(_ & -> & E)|[(_ & E)|(-> & _ & K)]]; done.
  - intros [-> (f0 & H0 & Hs)]. pose proof (run_cases _ _ _ _ _ _ _ H) as Hc. remember (Install.Done 1 false b) as o eqn:Eo.
    assert (forall q, in_dir (q_library r) q -> f0 q = f q) as Hk.
    { intros q Hq. destruct (mkdir_spec _ _ _ H0) as (_ & H2 & _). apply H2. intros Hd. apply Ha2. by eapply TarballProofs.in_dir_trans. }
    assert (in_dir (q_library r) (q_library r ++ [q_pkg r])%list) as Hl by (by exists [q_pkg r]).
    destruct Hc as [Hp| |bp code' err f' t Hp Hca Hb Hx|f1 code' err f2 f3 t o Hp H1 Hx H2 Ho1 Ho2|
                   f1 f2 f3 t1 n code2 err2 f4 t2 Hp H1 Hx H2 Hy H3].
    + done.
    + done.
    + injection Eo as -> -> <-. destruct (install_call _ _ _ _ _ _ _ _ _ _ _ _ Hx) as [(? & _)|(f2 & -> & HR & _ & He)]; [done|].
      by destruct He as [(? & _)|(_ & ? & _)].
    + rewrite H0 in H1. injection H1 as <-.
      destruct (install_call _ _ _ _ _ _ _ _ _ _ _ _ Hx) as [(_ & -> & -> & -> & ->)|(f2' & -> & HR & Hn' & He)]; [|done].
      rewrite (join_name _ _ Hn) in Hp. intros Hf. apply Hp. rewrite <- Hk by done.
      destruct H2 as [-> | ->]; [done|]. destruct (CleanProofs.remove_cases (join_path (s_tmp s) (q_pkg r)) f0 (q_library r ++ [q_pkg r])%list) as [[_ E]|[_ E]]; congruence.
    + rewrite H0 in H1. injection H1 as <-.
      destruct (install_call _ _ _ _ _ _ _ _ _ _ _ _ Hx) as [(_ & ? & _)|(f2' & _ & _ & Hn' & _)]; done.
Qed.

Example C43_exact_example :
  let run := install_through_binary toy_R toy_surroundings (toy_request "/cache/none.tar.gz") (toy_fs "ok") in
  run.1.1 = Install.Done 1 false None /\ run.1.2 ["lib"; "MASS"] = None /\ run.2 = [] /\
  (install_through_binary toy_R toy_surroundings (toy_request "/cache/MASS_7.3.tar.gz") (toy_fs "ok")).1.2 ["lib"; "MASS"] = Some Dir.
Proof. vm_compute. done. Qed.

(** ** C72: which records are kept *)

Theorem C72_exact d rv : rv_ok rv ->
  is_r_compatible d rv = true <->
  d_depends d !! "R" = None \/
  exists c op, d_depends d !! "R" = Some c /\ op_of_constraint (dep_constraint c) = Some op /\
    relop_holds op (lex_compare (rv_values rv) [v_major (dep_version c); v_minor (dep_version c); v_patch (dep_version c);
                                                 v_dev (dep_version c); v_other (dep_version c)]).
Proof.
  intros H. rewrite is_r_compatible_spec by done. unfold r_satisfied. destruct (d_depends d !! "R") as [c|].
  - destruct (op_of_constraint (dep_constraint c)) as [op|] eqn:E.
    + split; [intros K; right; by exists c, op|]. intros [?|(c' & op' & [= <-] & E' & K)]; [done|]. rewrite E in E'. by injection E' as <-.
    + split; [done|]. intros [?|(c' & op' & [= <-] & E' & _)]; congruence.
  - split; [by left|done].
Qed.

Example C72_exact_example :
  let d deps := Desc "app" "1.0" "" "" false ∅ ∅ (default ∅ (parse_deps deps ∅)) ∅ "" "" "" in
  is_r_compatible (d ["R (>= 4.1)"]) (RVersion 4 1 0) = true /\ is_r_compatible (d ["R (>= 4.1)"]) (RVersion 4 0 5) = false /\
  is_r_compatible (d ["MASS"]) (RVersion 3 0 0) = true /\ is_r_compatible (d ["R"]) (RVersion 4 1 0) = false.
Proof. vm_compute. done. Qed.

(** ** C78: what is handed to R, for every path *)

Theorem C78_exact R s r f o f' t c : install_through_binary R s r f = (o, f', t) -> c ∈ t ->
  rc_source c = Install.resolve (s_cwd s) (q_path r) \/ cache_path s r = Some (rc_source c) \/
  exists n, binary_ext (s_os s) (base_name (Install.resolve (s_cwd s) (q_path r))) (q_platform r) = Some n /\
            rc_source c = join_path (s_tmp s) n.
Proof.
  unfold install_through_binary.
  destruct (fs_dir_exists f _); [intros [= <- <- <-] Hc; by apply elem_of_nil in Hc|].
  destruct (cache_path s r) as [bp|] eqn:Ec; [|intros [= <- <- <-] Hc; by apply elem_of_nil in Hc].
  destruct (fs_exists f bp).
  { destruct (install R s (as_binary r) bp (q_library r) false (s_cwd s) f) as [[[code err] g] u] eqn:Ei.
    intros [= <- <- <-] Hc. right. left. f_equal. symmetry. by eapply install_sources. }
  destruct (mkdir_all (s_tmp s) f) as [f0|]; [|intros [= <- <- <-] Hc; by apply elem_of_nil in Hc].
  destruct (install R s r (Install.resolve (s_cwd s) (q_path r)) (s_tmp s) (q_build r) (s_tmp s) f0) as [[[code err] f1] t1] eqn:E1.
  cbv zeta. destruct (negb err && (code =? 0)%Z).
  - destruct (binary_ext _ _ _) as [n|] eqn:En.
    + destruct (fs_exists _ (join_path (s_tmp s) n)).
      * destruct (install R s r (join_path (s_tmp s) n) _ _ _ _) as [[[code2 err2] f3] t2] eqn:E3.
        intros [= <- <- <-] Hc. apply elem_of_app in Hc as [Hc|Hc].
        -- left. by eapply install_sources.
        -- right. right. exists n. split; [done|]. by eapply install_sources.
      * intros [= <- <- <-] Hc. left. by eapply install_sources.
    + intros [= <- <- <-] Hc. left. by eapply install_sources.
  - intros [= <- <- <-] Hc. left. by eapply install_sources.
Qed.

Example C78_exact_example :
  Install.resolve (s_cwd toy_surroundings) (q_path (toy_request "")) = ["home"] /\
  Install.resolve (s_cwd toy_surroundings) (q_path (toy_request "x/../MASS_7.3.tar.gz")) = ["home"; "MASS_7.3.tar.gz"].
Proof. done. Qed.

(** ** C84: which files are read, and with which values *)

Theorem C84_exact ls : Forall os_line_ok ls ->
  forall r, read_os_release (Some (os_text ls)) = Some r <->
  exists kvs, accepted ls kvs /\ NoDup kvs.*1 /\ value_among kvs "ID" (or_id r) /\
    value_among kvs "VERSION_ID" (or_version_id r) /\ value_among kvs "VERSION_CODENAME" (or_codename r).
Proof.
  intros Hok r. unfold read_os_release, read_toml.
  assert (forall kvs m, add_pairs kvs ∅ = Some m -> NoDup kvs.*1 -> forall k v, value_among kvs k v <-> v = default "" (m !! k)) as Hv.
  { intros kvs m Hm Hn k v. pose proof (add_pairs_value kvs ∅ m Hm k) as K. split.
    - intros [H|[-> H]].
      + assert (m !! k = Some v) as ->; [|done]. apply K. by left.
      + destruct (m !! k) as [w|] eqn:E; [|done]. exfalso. destruct (proj1 (K w) eq_refl) as [Hw|Hw]; [by apply (H w)|by rewrite lookup_empty in Hw].
    - intros ->. destruct (m !! k) as [w|] eqn:E.
      + left. destruct (proj1 (K w) eq_refl) as [Hw|Hw]; [done|by rewrite lookup_empty in Hw].
      + right. split; [done|]. intros w Hw. specialize (K w). destruct K as [_ K]. by specialize (K (or_introl Hw)). }
  split.
  - destruct (read_toml_lines (split_char line_feed (quote_values false (os_text ls))) ∅) as [m|] eqn:E; [|done].
    intros [= <-]. cbn [or_id or_version_id or_codename]. destruct (read_accepted ls Hok _ _ E) as [kvs Ha]. exists kvs. split; [done|].
    rewrite (accepted_read ls kvs Ha Hok) in E. assert (NoDup kvs.*1) as Hn. { apply (add_pairs_some kvs ∅). by rewrite E. }
    split; [done|]. split; [by apply (Hv kvs m)|]. split; by apply (Hv kvs m).
  - intros (kvs & Ha & Hn & H1 & H2 & H3). rewrite (accepted_read ls kvs Ha Hok).
    destruct (add_pairs kvs ∅) as [m|] eqn:E.
    + apply (Hv kvs m E Hn) in H1. apply (Hv kvs m E Hn) in H2. apply (Hv kvs m E Hn) in H3. destruct r. cbn in *. by subst.
    + exfalso. apply (proj2 (add_pairs_some kvs ∅)); [|done]. split; [done|]. intros. apply lookup_empty.
Qed.

(** The value is cut after the first equals sign. *)
Example C84_exact_example :
  read_os_release (Some (os_text [LComment " a="; LComment "b"; LQuoted "ID" "a= #b"])) =
    Some {| or_id := "a="; or_version_id := ""; or_codename := "" |} /\
  read_os_release (Some (os_text [LComment " a="; LQuoted "ID" "ubuntu"])) = None.
Proof. split; vm_compute; reflexivity. Qed.

(** ** C85, C117: when the file that is read is also the one that is changed, and R is run
    beside it *)

Lemma depth_exact cwd flag dir f q : has_prefix "/" flag = false -> ends_in flag f ->
  stands_for cwd flag (dir ++ [f])%list -> stands_for dir flag q ->
  Start.resolve dir flag = q /\ (q = (dir ++ [f])%list <-> length dir = length cwd).
Proof.
  intros Hr [Hp Hf] H1 H2. pose proof (resolve_stands _ _ _ H1) as E1. pose proof (resolve_stands _ _ _ H2) as E2. split; [done|].
  assert (exists l, split_slash flag = (l ++ [f])%list) as [l El].
  { destruct Hf as [-> |[a ->]]; [exists []; by apply split_slash_plain|]. exists (split_slash a). rewrite split_slash_app.
    by rewrite (split_slash_plain f). }
  pose proof Hp as (P1 & P2 & P3 & P4).
  assert (String.eqb f "" || String.eqb f "." = false /\ String.eqb f ".." = false) as [F1 F2].
  { destruct (String.eqb_spec f ""); [done|]. destruct (String.eqb_spec f "."); [done|]. destruct (String.eqb_spec f ".."); done. }
  destruct (ups_downs 0 [] l) as [up down] eqn:Eu.
  assert (forall d, Start.resolve d flag = (take (length d - up) d ++ down ++ [f])%list) as K.
  { intros d. unfold Start.resolve, join_path. rewrite Hr, El.
    pose proof (ups_downs_spec (l ++ [f])%list 0 [] d) as S. rewrite Nat.sub_0_r, app_nil_r, firstn_all in S. rewrite S.
    rewrite ups_downs_snoc by done. by rewrite Eu. }
  assert (forall d p, stands_for d flag p -> up <= length d) as B.
  { intros d p (x & k & Hk & Hc). apply split_slash_pieces in Hk. rewrite El in Hk. destruct Hc as [(-> & Hk' & _)|(Hx & Hc)].
    - exfalso. destruct l as [|y l]; cbn in Hk; injection Hk as Hk _; subst; [by destruct Hk'|].
      assert (has_prefix "/" flag = true); [|congruence]. rewrite <- (split_slash_join flag), El. cbn [app join]. by destruct (l ++ [f])%list eqn:El'; [destruct l|].
    - rewrite <- Hk in Hc. pose proof (names_ups _ _ _ Hc d 0 []) as N. rewrite Nat.sub_0_r, app_nil_r, firstn_all, ups_downs_snoc, Eu in N by done.
      apply N; [done|lia]. }
  pose proof (B _ _ H1) as B1. pose proof (B _ _ H2) as B2. rewrite K in E1, E2. rewrite app_assoc in E1. apply app_inj_tail in E1 as [E1 _].
  rewrite <- E2. split.
  - intros E. rewrite app_assoc in E. apply app_inj_tail in E as [E _]. rewrite <- E1 in E at 3. apply app_inv_tail in E.
    apply (f_equal length) in E. rewrite !take_length in E. lia.
  - intros El'. rewrite app_assoc. f_equal. rewrite <- E1 at 3. f_equal. rewrite <- E1 at 2. rewrite El', take_app_alt; [done|].
    rewrite take_length. lia.
Qed.

Theorem C85_exact home cwd flag dir f q : flag <> "" -> no_tilde flag -> ends_in flag f ->
  stands_for cwd flag (dir ++ [f])%list -> stands_for dir flag q ->
  exists name, config_name home flag = Some name /\ loaded_file cwd name = (dir ++ [f])%list /\ edited_file cwd name = q /\
    (edited_file cwd name = loaded_file cwd name <-> (exists r, flag = "/" +:+ r) \/ length dir = length cwd).
Proof.
  intros Hn Ht He Hf Hq. exists (clean flag). split; [by apply config_name_plain|]. destruct (command_dir_file _ _ _ _ Hf) as [H1 H2].
  split; [done|]. unfold edited_file. rewrite H2, resolve_clean, H1. rewrite (resolve_stands _ _ _ Hq). split; [done|].
  destruct (has_prefix "/" flag) eqn:Ep.
  - apply has_prefix_true in Ep as [r Er]. split; [intros _; left; by exists r|]. intros _.
    rewrite <- (resolve_stands _ _ _ Hq), <- (resolve_stands _ _ _ Hf), Er. apply resolve_rooted.
  - destruct (depth_exact cwd flag dir f q Ep He Hf Hq) as [_ ->]. split; [by right|]. intros [[r ->]|?]; [|done].
    by rewrite has_prefix_app in Ep.
Qed.

(** From /w/a, pkgr remove --config ../b/pkgr.yml changes the file it reads. *)
Example C85_exact_example :
  loaded_file ["w"; "a"] "../b/pkgr.yml" = ["w"; "b"; "pkgr.yml"] /\ edited_file ["w"; "a"] "../b/pkgr.yml" = ["w"; "b"; "pkgr.yml"] /\
  edited_file ["w"; "a"] "../pkgr.yml" = ["pkgr.yml"].
Proof. done. Qed.

Theorem C117_exact home cwd flag dir f q : flag <> "" -> no_tilde flag -> ends_in flag f ->
  stands_for cwd flag (dir ++ [f])%list -> stands_for dir flag (q ++ [f])%list ->
  exists name, config_name home flag = Some name /\ load_dir cwd name flag = q /\
    (load_dir cwd name flag = dir <-> (exists r, flag = "/" +:+ r) \/ length dir = length cwd).
Proof.
  intros Hn Ht He Hf Hq. destruct (C85_exact home cwd flag dir f _ Hn Ht He Hf Hq) as (name & E1 & E2 & E3 & E4).
  exists name. split; [done|]. rewrite config_name_plain in E1 by done. injection E1 as <-.
  destruct (command_dir_file _ _ _ _ Hf) as [H1 H2].
  assert (load_dir cwd (clean flag) flag = q) as ->.
  { unfold load_dir. destruct (String.eqb_spec flag ""); [done|]. rewrite H2.
    pose proof (resolve_dir dir flag f He) as E. rewrite (resolve_stands _ _ _ Hq) in E. by apply app_inj_tail in E as [E _]. }
  split; [done|]. rewrite <- E4, E2, E3. split; [by intros ->|]. intros E. by apply app_inj_tail in E as [E _].
Qed.

Example C117_exact_example : load_dir ["w"; "a"] "../b/pkgr.yml" "../b/pkgr.yml" = ["w"; "b"] /\
  load_dir ["w"; "a"] "../pkgr.yml" "../pkgr.yml" = [].
Proof. done. Qed.

(** ** C112: the log files of add --install *)

Lemma add_log_lookup can_open f o g q :
  lg_files (add_log_file can_open f o g) !! q =
  if decide (q = f /\ f <> "" /\ can_open f = true) then Some (if o then [] else default [] (lg_files g !! q)) else lg_files g !! q.
Proof.
  unfold add_log_file. destruct (String.eqb_spec f "") as [-> |Hf]; cbn [orb].
  { destruct (decide _) as [(_ & ? & _)|_]; done. }
  destruct (can_open f) eqn:Ec; cbn [negb].
  - cbn [lg_files]. destruct (decide _) as [(-> & _ & _)|H]; [by rewrite lookup_insert|]. rewrite lookup_insert_ne; [done|]. intros ->. by apply H.
  - destruct (decide _) as [(_ & _ & ?)|_]; done.
Qed.

Lemma add_log_hooks can_open f o g :
  lg_hooks (add_log_file can_open f o g) =
  if decide (f <> "" /\ can_open f = true) then (lg_hooks g ++ [f])%list else lg_hooks g.
Proof.
  unfold add_log_file. destruct (String.eqb_spec f "") as [-> |Hf]; cbn [orb].
  { destruct (decide _) as [(? & _)|_]; done. }
  destruct (can_open f) eqn:Ec; cbn [negb]; destruct (decide _) as [H|H]; try done; [by destruct H|by destruct H].
Qed.

Lemma add_log_level can_open f o g : lg_level (add_log_file can_open f o g) = lg_level g.
Proof. unfold add_log_file. by destruct (String.eqb f "" || negb (can_open f)). Qed.

Definition hooked (g : logging) : Prop := forall h, h ∈ lg_hooks g -> is_Some (lg_files g !! h).

Lemma hooked_add can_open f o g : hooked g -> hooked (add_log_file can_open f o g).
Proof.
  intros Hg h. rewrite add_log_hooks, add_log_lookup. destruct (decide (f <> "" /\ can_open f = true)) as [H|H].
  - rewrite elem_of_app, elem_of_list_singleton. intros [Hh| ->].
    + destruct (decide _); [by eexists|by apply Hg].
    + rewrite decide_True by done. by eexists.
  - intros Hh. destruct (decide _); [by eexists|by apply Hg].
Qed.

Lemma hooked_emit rs g : hooked g -> hooked (emit_all rs g).
Proof. intros Hg h. rewrite emit_all_hooks, emit_all_lookup by done. intros Hh. destruct (Hg h Hh) as [x ->]. by eexists. Qed.

Lemma times_app a b q : times (a ++ b) q = times a q + times b q.
Proof. unfold times. by rewrite List.filter_app, app_length. Qed.

Lemma flat_two {A} (l : list A) : flat_map (fun r => repeat r 2) l = flat_map (fun r => [r; r]) l.
Proof. done. Qed.

(** [opened can_open f]: there is a file of this name to write to. *)
Definition opened (can_open : string -> bool) (f : string) : Prop := f <> "" /\ can_open f = true.

Global Instance opened_dec can_open f : Decision (opened can_open f).
Proof. unfold opened. apply _. Defined.

Theorem C112_exact can_open c before body again rest files ws1 ws2 ws3 q :
  LogSpec.kept (first_level c) body ws1 -> LogSpec.kept (second_level c) again ws2 -> LogSpec.kept (second_level c) rest ws3 ->
  let all := lc_all c in
  let inst := if decide (lc_install c = "") then lc_all c else lc_install c in
  let start (old : list record) := if lc_overwrite c then [] else old in
  let old := default [] (files !! q) in
  let files' := lg_files (run_logging can_open c (Add true) before body again rest files) in
  (q <> all -> q <> inst -> files' !! q = files !! q) /\
  (~ opened can_open q -> files' !! q = files !! q) /\
  (opened can_open q -> q = all -> q = inst -> files' !! q = Some (start (start old ++ ws1 ++ ws2) ++ flat_map (fun r => [r; r]) ws3)%list) /\
  (opened can_open q -> q = all -> q <> inst -> files' !! q = Some (start old ++ ws1 ++ ws2 ++ ws3)%list) /\
  (opened can_open q -> q <> all -> q = inst -> files' !! q = Some (start old ++ ws3)%list).
Proof.
  intros K1 K2 K3 all inst start old files'. apply kept_unique in K1 as ->. apply kept_unique in K2 as ->. apply kept_unique in K3 as ->.
  unfold files', run_logging. clear files'. set (g0 := emit_all before _).
  assert (lg_level g0 = first_level c /\ lg_hooks g0 = [] /\ lg_files g0 = files) as (L0 & Hh0 & F0).
  { unfold g0. rewrite emit_all_level, emit_all_hooks, emit_all_quiet; done. }
  change (set_up can_open c (Add true) g0) with (add_log_file can_open all (lc_overwrite c) g0).
  assert (forall g, install_log can_open c g = add_log_file can_open inst (lc_overwrite c) g) as Ei.
  { intros g. unfold install_log, inst, all. destruct (decide (lc_install c = "")) as [E|E].
    - rewrite E. done.
    - apply String.eqb_neq in E. by rewrite E. }
  rewrite Ei. clear Ei. clearbody g0 inst all.
  assert (hooked g0) as G0 by (intros h; rewrite Hh0; intros Hh; by apply elem_of_nil in Hh).
  set (g1 := add_log_file can_open all (lc_overwrite c) g0). assert (hooked g1) as G1 by (by apply hooked_add).
  set (g2 := emit_all body g1). assert (hooked g2) as G2 by (by apply hooked_emit).
  set (g3 := emit_all again (with_level (second_level c) g2)). assert (hooked g3) as G3 by (by apply hooked_emit).
  set (g4 := add_log_file can_open inst (lc_overwrite c) g3). assert (hooked g4) as G4 by (by apply hooked_add).
  assert (lg_hooks g3 = lg_hooks g1) as H3 by (unfold g3; rewrite emit_all_hooks; cbn; unfold g2; by rewrite emit_all_hooks).
  assert (lg_level g4 = second_level c) as L4 by (unfold g4; rewrite add_log_level; unfold g3; by rewrite emit_all_level).
  assert (lg_level g1 = first_level c) as L1 by (unfold g1; by rewrite add_log_level).
  assert (lg_hooks g4 = if decide (inst <> "" /\ can_open inst = true) then (lg_hooks g1 ++ [inst])%list else lg_hooks g1) as H4.
  { unfold g4. by rewrite add_log_hooks, H3. }
  rewrite emit_all_lookup by done. rewrite L4, H4. clear H4.
  unfold g4. rewrite add_log_lookup. unfold g3. rewrite emit_all_lookup by done. cbn [with_level lg_level lg_hooks lg_files].
  unfold g2. rewrite emit_all_hooks, emit_all_lookup by done. rewrite L1. unfold g1. rewrite add_log_hooks, add_log_lookup, Hh0, F0.
  cbn [app]. clear G0 G1 G2 G3 G4 L4 L1 H3 g1 g2 g3 g4.
  set (w1 := List.filter _ body). set (w2 := List.filter _ again). set (w3 := List.filter _ rest).
  assert (forall f, q <> f -> times (if decide (f <> "" /\ can_open f = true) then [f] else []) q = 0) as T0.
  { intros f Hf. destruct (decide _); [|done]. unfold times. cbn [List.filter]. by destruct (String.eqb_spec q f). }
  assert (forall f, q <> f -> times (if decide (f <> "" /\ can_open f = true) then ([f] : list string) else []) q = 0) as T0' by exact T0.
  assert (forall x : option (list record), (fun old => (old ++ [])%list) <$> x = x) as Fn.
  { intros [x|]; [|done]. cbn. by rewrite app_nil_r. }
  assert (times [q] q = 1) as T1 by (unfold times; cbn [List.filter]; by rewrite String.eqb_refl).
  assert (forall f, q <> f -> times [f] q = 0) as T2.
  { intros f Hf. unfold times. cbn [List.filter]. by destruct (String.eqb_spec q f). }
  assert (forall f b, ~ opened can_open f -> (if decide (f <> "" /\ can_open f = true) then (b ++ [f])%list else b) = b) as N.
  { intros f b Hf. by rewrite decide_False. }
  assert (forall f, times (if decide (f <> "" /\ can_open f = true) then [f] else []) q = if decide (q = f /\ f <> "" /\ can_open f = true) then 1 else 0) as T.
  { intros f. destruct (decide (f <> "" /\ can_open f = true)) as [O|O]; destruct (decide (q = f /\ _)) as [P|P]; try done.
    - destruct P as [-> _]. done.
    - apply T2. intros ->. by apply P.
    - by destruct P as [_ P]. }
  assert (forall f b, times (if decide (f <> "" /\ can_open f = true) then (b ++ [f])%list else b) q =
     times b q + if decide (q = f /\ f <> "" /\ can_open f = true) then 1 else 0) as T'.
  { intros f b. rewrite <- T. destruct (decide (f <> "" /\ can_open f = true)); [by rewrite times_app|]. cbn. by rewrite Nat.add_0_r. }
  rewrite T', T. clear T0 T0' T1 T2 N T T'.
  destruct (decide (q = all /\ all <> "" /\ can_open all = true)) as [PA|PA];
    destruct (decide (q = inst /\ inst <> "" /\ can_open inst = true)) as [PI|PI];
    cbn [Nat.add fmap option_fmap option_map default]; rewrite ?flat_none, ?flat_one, ?flat_two, ?Fn.
  - destruct PA as (<- & O). destruct PI as (<- & _). split; [done|]. split; [done|]. split; [|done].
    intros _ _ _. unfold start, old.
    by rewrite <- app_assoc.
  - destruct PA as (<- & O). split; [done|]. split; [done|]. split; [intros O' _ <-; by destruct PI|]. split; [|done].
    intros _ _ _. unfold start, old. by rewrite <- !app_assoc.
  - destruct PI as (<- & O). split; [done|]. split; [done|]. split; [intros O' <-; by destruct PA|]. split; [intros O' <-; by destruct PA|].
    intros _ _ _. done.
  - split; [done|]. split; [done|]. split; [intros O' <-; by destruct PA|]. split; [intros O' <-; by destruct PA|]. intros O' _ <-. by destruct PI.
Qed.

(** Two files: what was logged before the installation is in the first only. *)
Example C112_exact_example :
  let c := {| lc_all := "all.log"; lc_install := "install.log"; lc_overwrite := true; lc_flag := None; lc_key := None |} in
  let files := lg_files (run_logging yes c (Add true) [] [(LInfo, "added")] [] [(LInfo, "installed")] {["install.log" := [(LInfo, "old")]]}) in
  files !! "all.log" = Some [(LInfo, "added"); (LInfo, "installed")] /\ files !! "install.log" = Some [(LInfo, "installed")].
Proof. split; vm_compute; reflexivity. Qed.

(** ** C113: the level of every command *)

Theorem C113_exact can_open c cmd before body again rest files :
  lg_level (run_logging can_open c cmd before body again rest files) =
  match cmd with
  | Add true => set_level (match lc_flag c with Some s => s | None => default "info" (lc_key c) end)
  | Inspect true | LoadCmd true => LFatal
  | _ => set_level (default "" (lc_flag c))
  end.
Proof.
  assert (forall g, lg_level (install_log can_open c g) = lg_level g) as L.
  { intros g. unfold install_log. destruct (negb _); apply add_log_level. }
  destruct cmd as [[]| | | | |[]| |[]| |]; unfold run_logging, set_up, all_log; cbn zeta;
    rewrite ?emit_all_level, ?L, ?add_log_level, ?emit_all_level; cbn [with_level lg_level]; rewrite ?add_log_level, ?emit_all_level; done.
Qed.

(** The key of the file has no effect on load and plan. *)
Example C113_exact_example :
  let c := {| lc_all := ""; lc_install := ""; lc_overwrite := false; lc_flag := None; lc_key := Some "trace" |} in
  lg_level (run_logging yes c PlanCmd [] [] [] [] ∅) = LInfo /\ lg_level (run_logging yes c (LoadCmd true) [] [] [] [] ∅) = LFatal /\
  lg_level (run_logging yes c (Add true) [] [] [] [] ∅) = LTrace.
Proof. done. Qed.

(** ** C126: the configuration file after add and remove *)

Definition fits (c : config_file) (t : string) : Prop :=
  match cn_room c with Some n => String.length t <= n | None => True end.

Lemma overwrite_exact c t ok c' : overwrite c t = (ok, c') ->
  (ok = true <-> cn_writable c = true /\ fits c t) /\
  (cn_writable c = false -> c' = c) /\
  (cn_writable c = true -> cn_content c' = cut (cn_room c) t /\ cn_readable c' = None /\ cn_writable c' = true /\ cn_room c' = cn_room c).
Proof.
  unfold overwrite, fits. destruct (cn_writable c); intros [= <- <-].
  - split; [|by split]. destruct (cn_room c) as [n|]; [rewrite Nat.leb_le|]; tauto.
  - split; [|done]. split; [done|by intros []].
Qed.

Lemma cut_fits c t : fits c t -> cut (cn_room c) t = t.
Proof.
  unfold fits, cut. destruct (cn_room c) as [n|]; [|done]. revert t. induction n as [|n IH]; intros [|a t] H; cbn in *; try done; [lia|].
  by rewrite IH by lia.
Qed.

Theorem C126_add_exact yaml c pkgs e c' : pkgs <> [] -> add_ends yaml c pkgs = (e, c') ->
  (exit_status e = 0 <-> cn_readable c = None /\ cn_writable c = true /\ exists listed t, yaml (cn_content c) = Some listed /\
     add_packages (cn_content c) listed pkgs = Some t /\ fits c t) /\
  (c' = c \/ exists listed t, yaml (cn_content c) = Some listed /\ add_packages (cn_content c) listed pkgs = Some t /\
     cn_content c' = cut (cn_room c) t /\ (exit_status e = 0 -> cn_content c' = t)).
Proof.
  intros Hp E. unfold add_ends in E. destruct pkgs as [|p pkgs]; [done|]. set (ps := p :: pkgs) in *. clearbody ps.
  destruct (cn_readable c) eqn:Er. { injection E as <- <-. split; [|by left]. split; [discriminate|by intros (? & _)]. }
  destruct (yaml (cn_content c)) as [listed|] eqn:Ey.
  2: { injection E as <- <-. split; [|by left]. split; [discriminate|by intros (_ & _ & l & t & ? & _)]. }
  destruct (add_packages (cn_content c) listed ps) as [t|] eqn:Et.
  2: { injection E as <- <-. split; [|by left]. split; [discriminate|]. intros (_ & _ & l & t & [= <-] & Et' & _). congruence. }
  destruct (overwrite c t) as [ok c1] eqn:Eo. injection E as <- <-. destruct (overwrite_exact _ _ _ _ Eo) as (H1 & H2 & H3). split.
  - destruct ok; cbn.
    + split; [|done]. intros _. destruct (proj1 H1 eq_refl) as [Hw Hf]. split; [done|]. split; [done|]. by exists listed, t.
    + split; [discriminate|]. intros (_ & Hw & l & t' & [= <-] & Et' & Hf). rewrite Et in Et'. injection Et' as <-.
      by discriminate (proj2 H1 (conj Hw Hf)).
  - destruct (cn_writable c); [right|left; by apply H2]. exists listed, t. split; [done|]. split; [done|]. destruct (H3 eq_refl) as [E _].
    split; [done|]. destruct ok; [|discriminate]. intros _. rewrite E. apply cut_fits. by destruct (proj1 H1 eq_refl).
Qed.

(** The first removal works on what can be read, the others on what was written. *)
Lemma remove_rest names : forall c e c', cn_readable c = None -> cn_writable c = true -> remove_ends c names = (e, c') ->
  exit_status e = 0 /\ cn_content c' = remove_packages (cn_content c) names \/
  exit_status e = 1 /\ exists done n rest, names = (done ++ n :: rest)%list /\
    ~ fits c (remove_packages (cn_content c) (done ++ [n])) /\ cn_content c' = cut (cn_room c) (remove_packages (cn_content c) (done ++ [n])).
Proof.
  induction names as [|n names IH]; intros c e c' Hr Hw E; [injection E as <- <-; by left|].
  cbn [remove_ends] in E. rewrite Hr in E. cbn [cut] in E. destruct (overwrite c _) as [ok c1] eqn:Eo.
  destruct (overwrite_exact _ _ _ _ Eo) as (H1 & _ & H3). destruct (H3 Hw) as (C1 & C2 & C3 & C4). destruct ok.
  - destruct (proj1 H1 eq_refl) as [_ Hf]. rewrite (cut_fits _ _ Hf) in C1. destruct (IH c1 e c' C2 C3 E) as [[He Hc]|(He & d & m & r & -> & Hf' & Hc)].
    + left. split; [done|]. by rewrite Hc, C1.
    + right. split; [done|]. exists (n :: d), m, r. split; [done|]. unfold fits in *. rewrite C4, C1 in Hf'. rewrite C4, C1 in Hc. done.
  - injection E as <- <-. right. split; [done|]. exists [], n, names. split; [done|]. split; [|done]. intros Hf. by discriminate (proj2 H1 (conj Hw Hf)).
Qed.

Theorem C126_remove_exact names c e c' : names <> [] -> remove_ends c names = (e, c') ->
  let text := cut (cn_readable c) (cn_content c) in
  exit_status e = 0 /\ cn_writable c = true /\ cn_content c' = remove_packages text names \/
  exit_status e = 1 /\ cn_writable c = false /\ c' = c \/
  exit_status e = 1 /\ cn_writable c = true /\ exists done n rest, names = (done ++ n :: rest)%list /\
    ~ fits c (remove_packages text (done ++ [n])) /\ cn_content c' = cut (cn_room c) (remove_packages text (done ++ [n])).
Proof.
  intros Hn E text. destruct names as [|n names]; [done|]. cbn [remove_ends] in E. fold text in E.
  destruct (overwrite c _) as [ok c1] eqn:Eo. destruct (overwrite_exact _ _ _ _ Eo) as (H1 & H2 & H3). destruct ok.
  - destruct (proj1 H1 eq_refl) as [Hw Hf]. destruct (H3 Hw) as (C1 & C2 & C3 & C4). rewrite (cut_fits _ _ Hf) in C1.
    destruct (remove_rest _ _ _ _ C2 C3 E) as [[He Hc]|(He & d & m & r & -> & Hf' & Hc)].
    + left. by rewrite Hc, C1.
    + right. right. split; [done|]. split; [done|]. exists (n :: d), m, r. split; [done|]. unfold fits in *. rewrite C4, C1 in Hf'. rewrite C4, C1 in Hc. done.
  - injection E as <- <-. right. destruct (cn_writable c) eqn:Hw; [right|left; split; [done|]; split; [done|]; by apply H2].
    split; [done|]. split; [done|]. exists [], n, names. split; [done|]. split; [|by destruct (H3 eq_refl) as [? _]].
    intros Hf. by discriminate (proj2 H1 (conj eq_refl Hf)).
Qed.

(** Removing one package is enough to lose the end of the file. *)
Example C126_exact_example :
  let c := {| cn_content := "abc" +:+ newline +:+ "- dplyr" +:+ newline; cn_readable := Some 3; cn_writable := true; cn_room := None |} in
  exists c', remove_ends c ["dplyr"] = (Returns false, c') /\ cn_content c' = remove_packages "abc" ["dplyr"].
Proof. eexists. split; vm_compute; reflexivity. Qed.

(** ** C127: what is in the directories given to R *)

Theorem C127_exact draw tmp f0 st d : rtc (temp_step draw tmp) (temp_start f0) st -> d ∈ tp_users st ->
  (d ∉ tp_builds st -> forall x s, tp_fs st (d ++ x :: s)%list = f0 (d ++ x :: s)%list) /\
  (d ∈ tp_builds st -> exists st', temp_step draw tmp st st' /\ ~ nothing_in (tp_fs st') d).
Proof.
  intros H Hu. split.
  - intros Hb. destruct (users_stay _ _ _ _ H d Hu Hb) as [[now ->] _]. clear Hu. unfold temp_dir in *. set (x := random_string draw now 12) in *.
    clearbody x. revert st H Hb.
    refine (rtc_ind_r (fun st => (tmp ++ [x])%list ∉ tp_builds st -> forall y s, tp_fs st ((tmp ++ [x]) ++ y :: s)%list = f0 ((tmp ++ [x]) ++ y :: s)%list) (temp_start f0) _ _).
    { done. }
    intros st st' Hst Hs IH Hb y s. pose proof (builds_are _ _ _ _ Hst) as Hn.
    destruct Hs as [now' f f' bs us Hm|now' f f' bs us Hm|f f' bs us Hr]; cbn [tp_fs tp_builds] in *.
    + apply not_elem_of_cons in Hb as [_ Hb]. destruct (mkdir_spec _ _ _ Hm) as (_ & H2 & _). rewrite H2; [by apply IH|]. apply below_new.
    + destruct (mkdir_spec _ _ _ Hm) as (_ & H2 & _). rewrite H2; [by apply IH|]. apply below_new.
    + rewrite <- (IH Hb). destruct (decide (f' ((tmp ++ [x]) ++ y :: s)%list = f ((tmp ++ [x]) ++ y :: s)%list)) as [E|E]; [done|].
      exfalso. destruct (Hr _ E) as [(d & r & Hd & Eq)|Hd].
      * destruct (Hn d Hd) as [n ->]. destruct (decide (x = random_string draw n 12)) as [Ex|Hx].
        -- apply Hb. unfold temp_dir in Hd. by rewrite Ex.
        -- unfold temp_dir in Eq. by apply different_names in Eq.
      * rewrite <- app_assoc, strip_prefix in Hd. discriminate Hd.
  - intros Hb. destruct st as [f bs us]. cbn in *.
    exists {| tp_fs := fun q => if decide (q = (d ++ ["MASS"])%list) then Some Dir else f q; tp_builds := bs; tp_users := us |}. split.
    + apply tp_r. intros q. destruct (decide (q = (d ++ ["MASS"])%list)) as [-> |]; [|done]. intros _. left. by exists d, ["MASS"].
    + intros K. specialize (K "MASS" []). cbn in K. by rewrite decide_True in K.
Qed.

Example C127_exact_example : exists st,
  rtc (temp_step same_draw ["tmp"]) (temp_start (fun q => if bool_decide (q = ["tmp"; "AAAAAAAAAAAA"; "MASS"]) then Some Dir else None)) st /\
  tp_users st = [["tmp"; "AAAAAAAAAAAA"]] /\ tp_builds st = [] /\ tp_fs st ["tmp"; "AAAAAAAAAAAA"; "MASS"] = Some Dir.
Proof.
  eexists. split; [eapply rtc_l; [apply (tp_user _ _ 0); reflexivity|]; apply rtc_refl|]. split; [vm_compute; reflexivity|].
  split; vm_compute; reflexivity.
Qed.

Print Assumptions C43_exact.
Print Assumptions C72_exact.
Print Assumptions C78_exact.
Print Assumptions C84_exact.
Print Assumptions C85_exact.
Print Assumptions C117_exact.
Print Assumptions C112_exact.
Print Assumptions C113_exact.
Print Assumptions C126_add_exact.
Print Assumptions C126_remove_exact.
Print Assumptions C127_exact.
