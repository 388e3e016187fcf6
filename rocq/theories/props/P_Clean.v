(** Cleaning: C66, C67, C79. *)
From stdpp Require Import strings list.
From Coq Require Import Ascii NArith.
From Verif.model Require Import GoStr Desc Nexus RepoDb Fs Install Clean.
From Verif.spec Require Import StrSpec LibSpec EnvSpec InstallSpec CleanSpec.
From Verif.proofs Require Import GoStrLemmas FsProofs CacheProofs RepoProofs CleanProofs.

Local Open Scope string_scope.
Local Arguments Ascii.eqb : simpl never.
Local Arguments char_eqb : simpl never.

(** C66.  In full: what is chosen with the flags is removed, folders that have
    become empty too, and nothing else.  Proved: this, except that the unpacked
    tarballs are removed whatever is chosen.  Missing: a cache directory that
    does not exist, see the refutations. *)
Theorem C66_chosen_partial : forall c d f f',
  cache_of c d -> tree_ok f -> clean_cache c f (Cleaned f' false) ->
  (forall q, chosen c d q -> f' q = None)
  /\ (forall q, f' q = f q \/ (f' q = None
       /\ (chosen c d q \/ emptied c d q f' \/ exists h, h ∈ cc_hashes c /\ in_dir (tarball_dir c h) q))).
Proof. intros c d f f' H1 H2 H3. by destruct (clean_cache_spec c d f f' H1 H2 H3) as (? & ? & _). Qed.
Print Assumptions C66_chosen_partial.

(** Without configured tarballs this is the property in full. *)
Theorem C66_no_tarballs : forall c d f f',
  cache_of c d -> tree_ok f -> cc_hashes c = [] -> clean_cache c f (Cleaned f' false) ->
  (forall q, chosen c d q -> f' q = None)
  /\ (forall q, f' q = f q \/ (f' q = None /\ (chosen c d q \/ emptied c d q f'))).
Proof.
  intros c d f f' H1 H2 H3 H4. destruct (clean_cache_spec c d f f' H1 H2 H4) as (G & F & _).
  split; [done|]. intros q. destruct (F q) as [|(E & [C|[C|(h & Hh & _)]])]; [by left|right; by split; [|left]|right; by split; [|right]|].
  rewrite H3 in Hh. by apply elem_of_nil in Hh.
Qed.
Print Assumptions C66_no_tarballs.

(** Both flags together are refused and nothing is touched. *)
Theorem C66_both_flags : forall c f r, cc_src_only c = true -> cc_binaries_only c = true ->
  clean_cache c f r <-> r = Cleaned f true.
Proof. intros c f r H1 H2. unfold clean_cache. by rewrite H1, H2. Qed.
Print Assumptions C66_both_flags.

(** Two repositories and an unpacked tarball below /c. *)
Definition ex_cache : fsys := fun q =>
  if below q ["c"; "A-1"; "src"] || below q ["c"; "A-1"; "binary"] || below q ["c"; "B-2"; "src"]
     || below q ["c"; "h"; "MASS"] then Some Dir else None.

Definition ex_clean (repos : string) (src : bool) (hashes : list string) : clean_config :=
  {| cc_cwd := ["w"]; cc_default := ["u"; "pkgr"]; cc_cache := "/c"; cc_repos := repos;
     cc_src_only := src; cc_binaries_only := false; cc_hashes := hashes |}.

Lemma ex_below x p l : below ["c"; x] ("c" :: p :: l) = String.eqb x p.
Proof. unfold below. cbn [strip]. rewrite (String.eqb_refl "c"). by destruct (String.eqb_spec x p). Qed.

Lemma ex_lists : lists_dirs ex_cache ["c"] ["A-1"; "B-2"; "h"].
Proof.
  split.
  - repeat constructor; rewrite ?elem_of_cons, ?elem_of_nil; intros H; naive_solver.
  - intros x. unfold ex_cache. cbn [app]. rewrite !ex_below. rewrite !elem_of_cons, elem_of_nil.
    destruct (String.eqb_spec x "A-1"), (String.eqb_spec x "B-2"), (String.eqb_spec x "h"); cbn; naive_solver.
Qed.

Lemma ex_tree : tree_ok ex_cache.
Proof.
  assert (forall q x p, below (q ++ [x])%list p = true -> below q p = true) as K.
  { intros q x p. rewrite !below_spec. intros [s ->]. exists ([x] ++ s)%list. by rewrite app_assoc. }
  intros q x. unfold ex_cache.
  match goal with |- context [if ?b then _ else _] => destruct b eqn:E end; [|done]. intros _.
  rewrite !orb_true_iff in E. destruct E as [[[E|E]|E]|E]; apply K in E; rewrite E; rewrite ?orb_true_r; done.
Qed.

(** The sources of one repository: its binaries stay. *)
Example C66_example : exists f', clean_cache (ex_clean "A-1" true []) ex_cache (Cleaned f' false)
  /\ f' ["c"; "A-1"; "src"] = None /\ f' ["c"; "A-1"; "binary"] = Some Dir /\ f' ["c"; "B-2"; "src"] = Some Dir.
Proof.
  exists (remove_all ["c"; "A-1"; "src"] ex_cache). split; [|split; [|split]; reflexivity].
  eexists (Cleaned _ false). split; [|reflexivity]. change (delete_sub ["c"] (Some ["A-1"]) "src" ex_cache
    (Cleaned (remove_all ["c"; "A-1"; "src"] ex_cache) false)).
  exists ["A-1"; "B-2"; "h"]. eexists. split; [apply ex_lists|]. split; [|reflexivity].
  eexists. split; [|reflexivity]. right. split; [|reflexivity].
  intros [_ H]. specialize (H "binary"). discriminate H.
Qed.

(** Cleaning the sources of one repository also removes the unpacked tarballs. *)
Theorem C66_tarballs_refuted : exists c d f f' q,
  cache_of c d /\ tree_ok f /\ clean_cache c f (Cleaned f' false) /\ f q = Some Dir /\ f' q = None
  /\ ~ chosen c d q /\ ~ emptied c d q f'.
Proof.
  exists (ex_clean "A-1" true ["h"]), ["c"], ex_cache.
  exists (remove_all ["c"; "h"] (remove_all ["c"; "A-1"; "src"] ex_cache)), ["c"; "h"; "MASS"].
  split; [right; by split|]. split; [apply ex_tree|]. split; [|split; [reflexivity|split; [reflexivity|split]]].
  - eexists (Cleaned _ false). split; [|reflexivity]. change (delete_sub ["c"] (Some ["A-1"]) "src" ex_cache
      (Cleaned (remove_all ["c"; "A-1"; "src"] ex_cache) false)).
    exists ["A-1"; "B-2"; "h"]. eexists. split; [apply ex_lists|]. split; [|reflexivity].
    eexists. split; [|reflexivity]. right. split; [|reflexivity].
    intros [_ H]. specialize (H "binary"). discriminate H.
  - intros (x & sub & _ & Hs & [s E]). injection E as <- E _. destruct Hs as [[-> _]|[-> _]]; discriminate E.
  - intros (x & _ & E & _). discriminate E.
Qed.
Print Assumptions C66_tarballs_refuted.

(** When the cache directory does not exist, cleaning panics. *)
Theorem C66_missing_cache_refuted : forall c d f r,
  cache_of c d -> f d = None -> cc_src_only c && cc_binaries_only c = false -> clean_cache c f r -> r = Panics.
Proof. intros c d f r H1 H2 H3 H4. by eapply missing_cache. Qed.
Print Assumptions C66_missing_cache_refuted.

Example C66_missing_cache_example : clean_cache (ex_clean "ALL" false []) (fun _ => None) Panics.
Proof. exists Panics. split; [|reflexivity]. exists Panics. by split. Qed.

(** C67.  In full: a full clean leaves nothing in the directories of the unpacked
    tarballs, which are in the cache directory under the hash of the tarball.
    Missing: no configured cache directory, see the refutation. *)
Theorem C67_tarballs_partial : forall c d f f' h,
  cache_of c d -> cc_cache c <> "" -> tree_ok f -> file_name h -> h ∈ cc_hashes c ->
  clean_cache c f (Cleaned f' false) -> forall q, in_dir (d ++ [h])%list q -> f' q = None.
Proof.
  intros c d f f' h H1 H2 H3 H4 H5 H6 q Hq. destruct (clean_cache_spec c d f f' H1 H3 H6) as (_ & _ & G).
  apply (G h); [done|]. by rewrite (tarball_dir_file c d h).
Qed.
Print Assumptions C67_tarballs_partial.

Example C67_example :
  tarball_dir (ex_clean "ALL" false ["h"]) "h" = ["c"; "h"] /\
  clean_tarballs (ex_clean "ALL" false ["h"]) ex_cache ["c"; "h"; "MASS"] = None.
Proof. split; reflexivity. Qed.

(** With the default cache the tarballs are unpacked there, but "h" is removed
    from the working directory instead. *)
Definition ex_default : clean_config :=
  {| cc_cwd := ["w"]; cc_default := ["c"]; cc_cache := ""; cc_repos := "ALL";
     cc_src_only := false; cc_binaries_only := false; cc_hashes := ["h"] |}.

Definition ex_unpacked : fsys := fun q => if below q ["c"; "h"; "MASS"] then Some Dir else None.

Lemma ex_unpacked_lists sub : sub <> "h" ->
  lists_dirs (remove_all ["c"; "h"; sub] ex_unpacked) ["c"] ["h"].
Proof.
  intros Hs. split; [apply NoDup_singleton|]. intros x. rewrite elem_of_list_singleton.
  cbn [app]. rewrite remove_other by (intros [s E]; discriminate E). unfold ex_unpacked. rewrite ex_below.
  destruct (String.eqb_spec x "h"); naive_solver.
Qed.

Theorem C67_default_cache_refuted : exists c d f f' h,
  cache_of c d /\ tree_ok f /\ h ∈ cc_hashes c /\ cc_repos c = "ALL" /\ cc_src_only c = false
  /\ cc_binaries_only c = false /\ clean_cache c f (Cleaned f' false) /\ f' (d ++ [h; "MASS"])%list = Some Dir.
Proof.
  exists ex_default, ["c"], ex_unpacked.
  exists (remove_all ["w"; "h"] (remove_all ["c"; "h"; "binary"] (remove_all ["c"; "h"; "src"] ex_unpacked))), "h".
  split; [by left|]. split.
  { intros q x. unfold ex_unpacked. destruct (below (q ++ [x]) ["c"; "h"; "MASS"]) eqn:E; [|done]. intros _.
    apply below_spec in E as [s E]. rewrite (proj2 (below_spec q ["c"; "h"; "MASS"])); [done|].
    exists ([x] ++ s)%list. by rewrite app_assoc. }
  split; [by left|]. do 3 (split; [done|]). split; [|reflexivity].
  eexists (Cleaned _ false). split; [|reflexivity].
  change (delete_both ["c"] None ex_unpacked
    (Cleaned (remove_all ["c"; "h"; "binary"] (remove_all ["c"; "h"; "src"] ex_unpacked)) false)).
  exists (Cleaned (remove_all ["c"; "h"; "src"] ex_unpacked) false). split.
  - exists ["h"]. eexists. split; [|split; [|reflexivity]].
    + split; [apply NoDup_singleton|]. intros x. rewrite elem_of_list_singleton.
      cbn [app]. unfold ex_unpacked. rewrite ex_below. destruct (String.eqb_spec x "h"); naive_solver.
    + eexists. split; [|reflexivity]. right. split; [|reflexivity].
      intros [_ H]. specialize (H "MASS"). discriminate H.
  - exists ["h"]. eexists. split; [by apply ex_unpacked_lists|]. split; [|reflexivity].
    eexists. split; [|reflexivity]. right. split; [|reflexivity].
    intros [_ H]. specialize (H "MASS"). discriminate H.
Qed.
Print Assumptions C67_default_cache_refuted.

(** C79 *)
Theorem C79_databases : forall md5 b dir arg configured dbs rv f,
  let f' := clean_pkgdbs md5 b dir arg configured dbs rv f in
  let named n := (arg = "ALL" /\ n ∈ configured) \/ (arg <> "ALL" /\ listed n arg) in
  let file db := (dir ++ [md5 (hash_text b (db_repo db) (db_types db) (rv_full rv))])%list in
  (forall db, db ∈ dbs -> named (ru_name (db_repo db)) -> f' (file db) = None)
  /\ (forall q, (forall db, db ∈ dbs -> named (ru_name (db_repo db)) -> ~ in_dir (file db) q) -> f' q = f q).
Proof.
  intros md5 b dir arg configured dbs rv f f' named file.
  assert (forall n, n ∈ dbs_to_clear arg configured <-> named n) as K.
  { intros n. unfold dbs_to_clear, named. destruct (String.eqb_spec arg "ALL") as [E|E]; [naive_solver|].
    rewrite listed_spec. naive_solver. }
  split.
  - intros db Hd Hn. apply remove_dbs_removes; [by apply K|done].
  - intros q H. apply remove_dbs_frame. intros n db Hn Hd <-. apply H; [done|by apply K].
Qed.
Print Assumptions C79_databases.

Example C79_example :
  let db := RepoDb [] (RepoURL "http://x" "MPN" "") STSource "" in
  let db' := RepoDb [] (RepoURL "http://y" "CRAN" "") STSource "" in
  let f' := clean_pkgdbs id false ["p"] "MPN,Other" ["MPN"; "CRAN"] [db; db'] (RVersion 3 6 1) (fun _ => Some (File "")) in
  f' ["p"; "MPNhttp://xsource3.6.1"] = None /\ f' ["p"; "CRANhttp://ysource3.6.1"] = Some (File "").
Proof. split; reflexivity. Qed.
