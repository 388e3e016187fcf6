(** C163: from the command lines of add, remove and clean to the files. *)
From stdpp Require Import strings list gmap.
From Coq Require Import Ascii ZArith NArith Lia.
From Verif.model Require Import GoStr Env Fs Yml Config Start Customs Flags Cli Desc Nexus RepoDb Install Extract Tarballs Clean Commands Status LoadLine Lines.
From Verif.spec Require Import StrSpec YmlSpec ConfigSpec LibSpec EnvSpec InstallSpec StartSpec CleanSpec CliSpec LoadLineSpec LinesSpec.
From Verif.proofs Require Import GoStrLemmas StartProofs FsProofs CleanProofs CliProofs.
From Verif.props Require Import P_Tarball P_Clean P_Cmd P_Start P_Exact7 P_Cli.

Local Open Scope string_scope.

(** What add and remove leave when they end well. *)
Lemma add_ends_well yaml c pkgs : pkgs <> [] -> exit_status (add_ends yaml c pkgs).1 = 0 ->
  exists listed t, yaml (cn_content c) = Some listed /\ add_packages (cn_content c) listed pkgs = Some t /\
    cn_content (add_ends yaml c pkgs).2 = t.
Proof.
  intros Hw. unfold add_ends. destruct pkgs as [|w0 ws0]; [done|]. destruct (cn_readable c); [done|].
  destruct (yaml (cn_content c)) as [listed|]; [|done]. destruct (add_packages (cn_content c) listed (w0 :: ws0)) as [t|] eqn:A; [|done].
  destruct (overwrite c t) as [ok c'] eqn:Eo. destruct (overwrite_exact _ _ _ _ Eo) as (H1 & _ & H3). destruct ok; [|done].
  intros _. exists listed, t. split; [done|]. split; [done|]. destruct (proj1 H1 eq_refl) as [Hwr Hf]. cbn [snd].
  destruct (H3 Hwr) as (C & _). by rewrite C, cut_fits.
Qed.

Section lines.
Context (int : string -> option Z) (home : string) (cwd : path).

Lemma bool_last n g ts : (forall n, last_given n g = last_given n (given_in ts)) -> bool_given n g = bool_given n (given_in ts).
Proof. intros L. unfold bool_given. by rewrite L. Qed.

Lemma first_last g ts : (forall n, last_given n g = last_given n (given_in ts)) -> first_config g = first_config (given_in ts).
Proof. intros L. unfold first_config. by rewrite L. Qed.

Lemma not_on n ts : ~ turned_on n ts -> default false (bool_given n (given_in ts)) = false.
Proof. intros H. unfold turned_on in H. by destruct (bool_given n (given_in ts)) as [[]|]. Qed.

(** The file that is read. *)
Lemma named_file ts dir f : names_file cwd ts dir f ->
  exists name, config_name home (first_config (given_in ts)) = Some name /\ loaded_file cwd name = (dir ++ [f])%list /\ command_dir cwd name = dir.
Proof.
  intros [(Hu & -> & ->)|(flag & Hf & Hn & Ht & Hs)].
  - exists "pkgr.yml". unfold first_config. rewrite Hu. split; [done|].
    assert (stands_for cwd "pkgr.yml" (cwd ++ ["pkgr.yml"])%list) as Hs by (by apply plain_stands).
    by destruct (command_dir_file _ _ _ _ Hs) as [H1 H2].
  - exists (clean flag). unfold first_config. rewrite Hf. cbn [default from_option id]. split; [by apply config_name_plain|].
    by destruct (command_dir_file _ _ _ _ Hs) as [H1 H2].
Qed.

(** The file that is edited. *)
Lemma named_edited ts dir f : names_file cwd ts dir f -> names_plainly ts ->
  exists name, config_name home (first_config (given_in ts)) = Some name /\ edited_file cwd name = (dir ++ [f])%list.
Proof.
  intros [(Hu & -> & ->)|(flag & Hf & Hn & Ht & Hs)] Hp.
  - destruct (C85_default_file home cwd "x" (cwd ++ ["x"])%list) as (name & Hn & _ & _ & He); [by apply plain_stands|].
    exists name. unfold first_config. by rewrite Hu.
  - destruct (C85_edited_partial home cwd flag dir f Hn Ht Hs (Hp flag Hf)) as (name & Hname & He).
    exists name. unfold first_config. rewrite Hf. by split.
Qed.

(** pkgr add: the file named in the line gets the packages of the line, and no other file
    is changed.  In full: for every name of the file.  Missing: names with a directory that
    are not absolute, see C163_other_file_refuted. *)
Theorem C163_add_partial : forall yaml ts ws dir f files,
  line_for_command int ["add"] ts ws -> bool_given "help" (given_in ts) <> Some true -> ~ turned_on "install" ts ->
  names_file cwd ts dir f -> names_plainly ts ->
  let q := (dir ++ [f])%list in
  exists e files', edit_line int home cwd yaml (line_of ts) files = Some (e, files') /\
  (forall q', q' <> q -> files' q' = files q') /\
  (ws = [] -> files' q = files q /\ exit_status e = 0) /\
  (ws <> [] -> exit_status e = 0 -> exists listed t, yaml (cn_content (files q)) = Some listed /\
     add_packages (cn_content (files q)) listed ws = Some t /\ cn_content (files' q) = t).
Proof.
  intros yaml ts ws dir f files Hl Hh Hi Hf Hp q.
  destruct (C158_meant int ["add"] ts ws _ _ Hl eq_refl eq_refl) as (g & L & E). rewrite bool_decide_false in E by done.
  destruct (named_edited ts dir f Hf Hp) as (name & Hn & He). unfold edit_line.
  rewrite E, (first_last g ts L), Hn, (bool_last "install" g ts L), (not_on _ _ Hi), He. fold q.
  eexists _, _. split; [reflexivity|]. split; [|split].
  - intros q' Hq. by rewrite bool_decide_false.
  - intros ->. by rewrite bool_decide_true.
  - intros Hw Hz. rewrite bool_decide_true by done. by apply add_ends_well.
Qed.

(** pkgr remove: the packages of the line are removed from that file. *)
Theorem C163_remove_partial : forall yaml ts ws dir f files,
  line_for_command int ["remove"] ts ws -> bool_given "help" (given_in ts) <> Some true ->
  names_file cwd ts dir f -> names_plainly ts ->
  let q := (dir ++ [f])%list in
  exists e files', edit_line int home cwd yaml (line_of ts) files = Some (e, files') /\
  (forall q', q' <> q -> files' q' = files q') /\
  (ws = [] -> files' q = files q /\ exit_status e = 0) /\
  (ws <> [] -> exit_status e = 0 -> cn_content (files' q) = remove_packages (cut (cn_readable (files q)) (cn_content (files q))) ws).
Proof.
  intros yaml ts ws dir f files Hl Hh Hf Hp q.
  destruct (C158_meant int ["remove"] ts ws _ _ Hl eq_refl eq_refl) as (g & L & E). rewrite bool_decide_false in E by done.
  destruct (named_edited ts dir f Hf Hp) as (name & Hn & He). unfold edit_line.
  rewrite E, (first_last g ts L), Hn, He. fold q.
  eexists _, _. split; [reflexivity|]. split; [|split].
  - intros q' Hq. by rewrite bool_decide_false.
  - intros ->. by rewrite bool_decide_true.
  - intros Hw Hz. rewrite bool_decide_true by done. destruct (remove_ends (files q) ws) as [e c'] eqn:Er. cbn [fst snd] in *.
    destruct (C126_remove_exact ws (files q) e c' Hw Er) as [(_ & _ & K)|[(K & _)|(K & _)]]; [exact K|congruence|congruence].
Qed.

(** ** clean *)

(** Flags that the command does not have are not given. *)
Lemma not_given args p given ws n inh c : execute int args = RunsCommand p given ws -> command_at [] pkgr p = Some (inh, c) ->
  existsb (fun f => String.eqb (cf_name f) n) (help_flag :: flags_at inh c) = false -> last_given n given = None.
Proof.
  intros E Hc Hn. destruct (C158_sound int args p given ws E) as (inh' & c' & Hc' & _ & _ & _ & K). rewrite Hc in Hc'. injection Hc' as <- <-.
  assert (forall v, (n, v) ∉ given) as Hg.
  { intros v Hv. destruct (K n v Hv) as (fl & Hfl & Hname & _). apply not_true_iff_false in Hn. apply Hn. apply existsb_exists.
    exists fl. split; [by apply elem_of_list_In|]. rewrite Hname. apply String.eqb_refl. }
  clear -Hg. induction given as [|[m v] l IH]; [done|]. cbn [last_given]. rewrite IH.
  - destruct (String.eqb m n) eqn:Em; [|done]. apply String.eqb_eq in Em as ->. exfalso. apply (Hg v). by left.
  - intros u Hu. apply (Hg u). by right.
Qed.

(** What the line asks for is what is chosen. *)
Lemma asked_chosen w g ts dir d q : (forall n, last_given n g = last_given n (given_in ts)) ->
  let c := clean_flags g dir (cl_user w) (cl_cache w) (cl_hashes w) in
  (cache_dir w dir d <-> cache_of c d) /\ (forall x, asks_repo ts x <-> chosen_folder c x) /\ (asked_for ts d q <-> CleanSpec.chosen c d q).
Proof.
  intros L c. assert (forall x, asks_repo ts x <-> chosen_folder c x) as Kx.
  { intros x. unfold asks_repo, chosen_folder, untouched. subst c. cbn [clean_flags cc_repos]. rewrite L.
    destruct (last_given "repos" (given_in ts)) as [s|]; cbn [default from_option id].
    - split; [intros [?|[[= ->]|(s' & [= <-] & _ & H)]]; [done|by left|by right]|].
      destruct (String.eqb_spec s "ALL") as [->|Hs]; [by right; left|]. intros [?|H]; [done|]. right. right. by exists s.
    - split; [by left|]. by left. }
  assert (forall sub, asks_sub ts sub <-> chosen_sub c sub) as Ks.
  { intros sub. unfold asks_sub, chosen_sub, turned_on. subst c. cbn [clean_flags cc_binaries_only cc_src_only].
    rewrite !(bool_last _ g ts L). destruct (bool_given "binaries-only" (given_in ts)) as [[]|], (bool_given "src-only" (given_in ts)) as [[]|];
      cbn [default from_option id]; split; (intros [[-> H]|[-> H]]; [left|right]; split; try done; congruence). }
  split; [done|]. split; [exact Kx|]. unfold asked_for, CleanSpec.chosen. split; intros (x & sub & H1 & H2 & H3); exists x, sub;
    (split; [by apply Kx|split; [by apply Ks|done]]).
Qed.

(** pkgr clean without --all changes nothing. *)
Theorem C163_clean_nothing : forall w ts f e,
  command_line int ["clean"] ts -> ~ turned_on "all" ts -> clean_line int home cwd w (line_of ts) f e -> e = Done f.
Proof.
  intros w ts f e [[ws H] Hh] Ha (p & g & ws' & name & E & _ & K).
  destruct (C158_meant int ["clean"] ts ws _ _ H eq_refl eq_refl) as (g' & L & E'). rewrite bool_decide_false in E' by done.
  rewrite E in E'. injection E' as -> -> _. cbn in K. rewrite (bool_last "all" g' ts L), (not_on _ _ Ha) in K. done.
Qed.

(** pkgr clean --all, without tarballs in the configuration: sources, binaries and the
    databases of the configured repositories are gone, and nothing else but the folders
    that held them. *)
Theorem C163_clean_all_partial : forall w ts dir cf d f f',
  command_line int ["clean"] ts -> turned_on "all" ts -> names_file cwd ts dir cf -> cache_dir w dir d -> tree_ok f ->
  cl_hashes w = [] -> cl_tarballs w = [] -> (forall g q, ~ in_dir (cl_dbs_dir w) q -> cl_fetch w g q = g q) ->
  clean_line int home cwd w (line_of ts) f (Done f') ->
  (forall x sub q, sub = "src" \/ sub = "binary" -> in_dir (d ++ [x; sub])%list q -> ~ in_dir (cl_dbs_dir w) q -> f' q = None) /\
  (forall db, db ∈ cl_dbs w -> ru_name (db_repo db) ∈ cl_configured w ->
     f' (cl_dbs_dir w ++ [cl_md5 w (hash_text (cl_binary w) (db_repo db) (db_types db) (rv_full (cl_version w)))])%list = None) /\
  (forall q, ~ in_dir (cl_dbs_dir w) q -> f' q = f q \/
     (f' q = None /\ ((exists x sub, (sub = "src" \/ sub = "binary") /\ in_dir (d ++ [x; sub])%list q) \/ exists x, q = (d ++ [x])%list))).
Proof.
  intros w ts dir cf d f f' [[ws H] Hh] Ha Hf Hd Ht Hhs Hts Hfetch (p & g & ws' & name & E & Hn & K).
  destruct (C158_meant int ["clean"] ts ws _ _ H eq_refl eq_refl) as (g' & L & E'). rewrite bool_decide_false in E' by done.
  rewrite E in E'. injection E' as -> -> _. cbn zeta iota in K. rewrite (bool_last "all" g' ts L) in K. unfold turned_on in Ha. rewrite Ha in K.
  cbn [default from_option id] in K. destruct (named_file ts dir cf Hf) as (name' & Hn' & _ & Hcd).
  rewrite (first_last g' ts L), Hn' in Hn. injection Hn as ->. rewrite Hcd, Hts in K.
  assert (last_given "repos" g' = None /\ bool_given "src-only" g' = None /\ bool_given "binaries-only" g' = None) as (R1 & R2 & R3).
  { unfold bool_given. by rewrite !(fun n => not_given _ _ _ _ n _ _ E eq_refl). }
  eapply C115_all_partial; [|exact Ht| | | | |exact Hfetch|exact K].
  - by apply (asked_chosen w g' ts dir d [] L).
  - cbn. by rewrite R1.
  - cbn. by rewrite R2.
  - cbn. by rewrite R3.
  - done.
Qed.

(** pkgr clean cache: what the line asks for is gone, and nothing else but folders that have
    become empty (without tarballs in the configuration). *)
Theorem C163_cache_partial : forall w ts dir cf d f f',
  command_line int ["clean"; "cache"] ts -> ~ (turned_on "src-only" ts /\ turned_on "binaries-only" ts) ->
  names_file cwd ts dir cf -> cache_dir w dir d -> tree_ok f -> cl_hashes w = [] ->
  clean_line int home cwd w (line_of ts) f (Done f') ->
  (forall q, asked_for ts d q -> f' q = None) /\
  (forall q, f' q = f q \/ (f' q = None /\ (asked_for ts d q \/
     exists x, asks_repo ts x /\ q = (d ++ [x])%list /\ forall s, f' (q ++ s)%list = None))).
Proof.
  intros w ts dir cf d f f' [[ws H] Hh] Hb Hf Hd Ht Hhs (p & g & ws' & name & E & Hn & K).
  destruct (C158_meant int ["clean"; "cache"] ts ws _ _ H eq_refl eq_refl) as (g' & L & E'). rewrite bool_decide_false in E' by done.
  rewrite E in E'. injection E' as -> -> _. cbn zeta iota in K. destruct (named_file ts dir cf Hf) as (name' & Hn' & _ & Hcd).
  rewrite (first_last g' ts L), Hn' in Hn. injection Hn as ->. rewrite Hcd in K. destruct K as (r & K & Er).
  set (c := clean_flags g' dir (cl_user w) (cl_cache w) (cl_hashes w)) in *.
  assert (r = Cleaned f' false) as ->.
  { destruct r as [|f1 []]; [done| |by injection Er as ->]. exfalso. unfold clean_cache in K.
    destruct (cc_src_only c && cc_binaries_only c) eqn:Eb.
    - apply Hb. apply andb_true_iff in Eb as [B1 B2]. subst c. cbn in B1, B2. rewrite (bool_last _ g' ts L) in B1. rewrite (bool_last _ g' ts L) in B2. unfold turned_on.
      by destruct (bool_given "src-only" (given_in ts)) as [[]|], (bool_given "binaries-only" (given_in ts)) as [[]|].
    - destruct K as (r1 & K1 & K2).
      assert (forall cache repos sub f1 g1, ~ delete_sub cache repos sub f1 (Cleaned g1 true)) as Hx.
      { intros cache repos sub f2 g1. unfold delete_sub. destruct (f2 cache) as [[]|]; [by intros [= ]| |done]. by intros (? & ? & _ & _ & [= ]). }
      destruct r1 as [|g1 []]; [done| |done]. destruct (negb _ && negb _).
      + destruct K1 as (r2 & K3 & K4). destruct r2 as [|g2 []]; [done|by eapply Hx|by eapply Hx].
      + destruct (cc_src_only c); by eapply Hx. }
  destruct (C66_no_tarballs c d f f') as [G1 G2]; [by apply (asked_chosen w g' ts dir d [] L)|done|done|done|]. split.
  - intros q Hq. apply G1. by apply (asked_chosen w g' ts dir d q L).
  - intros q. destruct (G2 q) as [G|(G & [G'|(x & X1 & X2 & X3)])]; [by left|right; split; [done|]..].
    + left. by apply (asked_chosen w g' ts dir d q L).
    + right. exists x. split; [by apply (asked_chosen w g' ts dir d q L)|by split].
Qed.

(** pkgr clean pkgdbs, without tarballs: the databases of the repositories asked for are gone,
    and outside of the directory of the databases nothing is changed. *)
Theorem C163_pkgdbs_partial : forall w ts f f',
  command_line int ["clean"; "pkgdbs"] ts -> cl_tarballs w = [] ->
  clean_line int home cwd w (line_of ts) f (Done f') ->
  let file db := (cl_dbs_dir w ++ [cl_md5 w (hash_text (cl_binary w) (db_repo db) (db_types db) (rv_full (cl_version w)))])%list in
  let named n := (exists s, last_given "repos" (given_in ts) = Some s /\ s <> "ALL" /\ listed n s) \/
    ((untouched "repos" ts \/ last_given "repos" (given_in ts) = Some "ALL") /\ n ∈ cl_configured w) in
  (forall db, db ∈ cl_dbs w -> named (ru_name (db_repo db)) -> f' (file db) = None) /\
  (forall q, (forall db, db ∈ cl_dbs w -> named (ru_name (db_repo db)) -> ~ in_dir (file db) q) -> f' q = cl_fetch w f q).
Proof.
  intros w ts f f' [[ws H] Hh] Hts (p & g & ws' & name & E & Hn & K) file named.
  destruct (C158_meant int ["clean"; "pkgdbs"] ts ws _ _ H eq_refl eq_refl) as (g' & L & E'). rewrite bool_decide_false in E' by done.
  rewrite E in E'. injection E' as -> -> _. cbn zeta iota in K. rewrite Hts in K. cbn [unpack_tarballs unpack_loop] in K. injection K as ->.
  cbn [clean_flags cc_repos]. set (arg := default "ALL" (last_given "repos" g')).
  destruct (C79_databases (cl_md5 w) (cl_binary w) (cl_dbs_dir w) arg (cl_configured w) (cl_dbs w) (cl_version w) (cl_fetch w f)) as [G1 G2].
  assert (forall n, named n <-> (arg = "ALL" /\ n ∈ cl_configured w) \/ (arg <> "ALL" /\ listed n arg)) as Kn.
  { intros n. subst named arg. unfold untouched. rewrite L. destruct (last_given "repos" (given_in ts)) as [s|]; cbn [default from_option id].
    - split.
      + intros [(s' & [= <-] & H1 & H2)|[[?|[= ->]] H2]]; [by right|done|by left].
      + intros [[-> H2]|[H1 H2]]; [right; split; [by right|done]|left; by exists s].
    - split; [intros [(s' & ? & _)|[_ H2]]; [done|by left]|]. intros [[_ H2]|[? _]]; [right; split; [by left|done]|done]. }
  split.
  - intros db Hdb Hnm. apply G1; [done|]. by apply Kn.
  - intros q Hq. apply G2. intros db Hdb Hnm. apply Hq; [done|]. by apply Kn.
Qed.

(** With --src-only and --binaries-only nothing is removed, and the command ends well. *)
Theorem C163_both_refuted : forall w ts dir cf f e,
  command_line int ["clean"; "cache"] ts -> turned_on "src-only" ts -> turned_on "binaries-only" ts ->
  names_file cwd ts dir cf -> (clean_line int home cwd w (line_of ts) f e <-> e = Done f).
Proof.
  intros w ts dir cf f e [[ws H] Hh] Hs Hb Hf.
  destruct (C158_meant int ["clean"; "cache"] ts ws _ _ H eq_refl eq_refl) as (g & L & E). rewrite bool_decide_false in E by done.
  destruct (named_file ts dir cf Hf) as (name & Hn & _ & Hcd). unfold turned_on in Hs, Hb.
  set (c := clean_flags g dir (cl_user w) (cl_cache w) (cl_hashes w)).
  assert (cc_src_only c = true /\ cc_binaries_only c = true) as [C1 C2].
  { subst c. cbn. by rewrite !(bool_last _ g ts L), Hs, Hb. }
  split.
  - intros (p & g' & ws' & name' & E' & Hn' & K). rewrite E in E'. injection E' as <- <- <-. rewrite (first_last g ts L), Hn in Hn'. injection Hn' as <-.
    cbn zeta iota in K. rewrite Hcd in K. fold c in K. destruct K as (r & K & ->).
    unfold clean_cache in K. rewrite C1, C2 in K. by cbn in K; subst r.
  - intros ->. exists ["clean"; "cache"], g, ws, name. split; [done|]. rewrite (first_last g ts L). split; [done|]. cbn zeta iota. rewrite Hcd. fold c.
    exists (Cleaned f true). split; [|done]. unfold clean_cache. by rewrite C1, C2.
Qed.

(** With a name of the configuration file that has a directory and is not absolute, it is
    not the file named in the line that is edited. *)
Theorem C163_other_file_refuted : forall yaml ts ws sub cf files,
  line_for_command int ["remove"] ts ws -> bool_given "help" (given_in ts) <> Some true ->
  sub <> [] -> (forall x, x ∈ (sub ++ [cf])%list -> plain_name x) -> no_tilde (join "/" (sub ++ [cf])%list) ->
  last_given "config" (given_in ts) = Some (join "/" (sub ++ [cf])%list) ->
  exists e files', edit_line int home cwd yaml (line_of ts) files = Some (e, files') /\
    files' (cwd ++ sub ++ [cf])%list = files (cwd ++ sub ++ [cf])%list /\
    files' (cwd ++ sub ++ sub ++ [cf])%list = (remove_ends (files (cwd ++ sub ++ sub ++ [cf])%list) ws).2.
Proof.
  intros yaml ts ws sub cf files Hl Hh Hs Hp Ht Hc.
  destruct (C158_meant int ["remove"] ts ws _ _ Hl eq_refl eq_refl) as (g & L & E). rewrite bool_decide_false in E by done.
  destruct (C85_edited_refuted home cwd sub cf Hs Hp Ht) as (name & Hn & Hlf & He & Hne).
  assert (first_config g = join "/" (sub ++ [cf])%list) as Hfc by (unfold first_config; by rewrite L, Hc).
  unfold edit_line. rewrite E, Hfc, Hn. eexists _, _. split; [reflexivity|]. rewrite He in *. rewrite Hlf in Hne. split.
  - rewrite bool_decide_false by congruence. done.
  - by rewrite bool_decide_true.
Qed.

End lines.

(** ** Examples *)

(** pkgr remove dplyr --config=/p/pkgr.yml R6 *)
Definition ex_remove : list token := [TWord "remove"; TWord "dplyr"; TSet "config" "/p/pkgr.yml"; TWord "R6"].
Definition ex_files (q : path) : config_file :=
  {| cn_content := text ["Packages:"; "- dplyr"; "- R6"; "- rlang"]; cn_readable := None; cn_writable := true; cn_room := None |}.

Lemma ex_remove_line : line_for_command ex_int ["remove"] ex_remove ["dplyr"; "R6"].
Proof.
  eexists _, _, [], "remove", [TWord "dplyr"; TSet "config" "/p/pkgr.yml"; TWord "R6"].
  split; [reflexivity|]. split; [reflexivity|]. split; [reflexivity|]. split; [reflexivity|]. split; [constructor|].
  split; [|by left]. constructor; [eexists _, _; split; [reflexivity|done]|]. constructor; [eexists _, _; split; [reflexivity|done]|].
  constructor; [eexists; split; [reflexivity|done]|]. constructor; [eexists _, _; split; [reflexivity|done]|]. constructor.
Qed.

Example C163_edit_example : exists files', edit_line ex_int "/home/me" ["work"] (fun _ => None) (line_of ex_remove) ex_files = Some (Returns false, files') /\
  cn_content (files' ["p"; "pkgr.yml"]) = text ["Packages:"; "- rlang"] /\ files' ["work"; "pkgr.yml"] = ex_files ["work"; "pkgr.yml"].
Proof. eexists. split; [reflexivity|]. by vm_compute. Qed.

(** pkgr clean cache --repos A-1 --src-only *)
Definition ex_cleaning : list token := [TWord "clean"; TWord "cache"; TNext "repos" "A-1"; TSwitch "src-only"].
Definition ex_world : clean_world := {|
  cl_user := ["u"; "pkgr"]; cl_cache := "/c"; cl_hashes := []; cl_unpack := tb_unpacking; cl_tarballs := []; cl_fetch := id; cl_md5 := id;
  cl_binary := false; cl_dbs_dir := ["p"]; cl_configured := []; cl_dbs := []; cl_version := RVersion 3 6 1 |}.

Lemma ex_cleaning_line : command_line ex_int ["clean"; "cache"] ex_cleaning.
Proof.
  split; [|done]. exists []. eexists _, _, [TWord "clean"], "cache", [TNext "repos" "A-1"; TSwitch "src-only"].
  split; [reflexivity|]. split; [reflexivity|]. split; [reflexivity|]. split; [reflexivity|]. split; [constructor; [done|constructor]|].
  split; [|by left]. constructor; [eexists _, _; split; [reflexivity|done]|]. constructor; [eexists _, _; split; [reflexivity|done]|].
  constructor; [eexists; split; [reflexivity|done]|]. constructor; [eexists; split; [reflexivity|done]|]. constructor.
Qed.

Example C163_clean_example : exists f', clean_line ex_int "/home/me" ["w"] ex_world (line_of ex_cleaning) ex_cache (Done f') /\
  f' ["c"; "A-1"; "src"] = None /\ f' ["c"; "A-1"; "binary"] = Some Dir /\ f' ["c"; "B-2"; "src"] = Some Dir.
Proof.
  destruct C66_example as (f' & K & E). exists f'. split; [|exact E].
  exists ["clean"; "cache"], [("repos", "A-1"); ("src-only", "true")], [], "pkgr.yml". split; [reflexivity|]. split; [reflexivity|].
  cbn zeta iota. exists (Cleaned f' false). split; [|done]. exact K.
Qed.

Print Assumptions C163_add_partial.
Print Assumptions C163_remove_partial.
Print Assumptions C163_clean_nothing.
Print Assumptions C163_clean_all_partial.
Print Assumptions C163_cache_partial.
Print Assumptions C163_pkgdbs_partial.
Print Assumptions C163_both_refuted.
Print Assumptions C163_other_file_refuted.
