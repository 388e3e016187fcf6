From stdpp Require Import strings list gmap.
From Coq Require Import Ascii ZArith Lia.
From Verif.model Require Import GoStr RepoDb Env Fs Config Start Flags.
From Verif.spec Require Import StrSpec LibSpec ExtractSpec ConfigSpec StartSpec FlagSpec.
From Verif.proofs Require Import GoStrLemmas FsProofs ExtractProofs CleanProofs ConfigProofs StartProofs.

Local Open Scope string_scope.
Local Arguments Ascii.eqb : simpl never.
Local Arguments char_eqb : simpl never.

Lemma setting_first {A} (flag env file : option A) d : first_given flag env file d (setting flag env file d).
Proof.
  unfold first_given, setting. destruct flag; [by left|]. destruct env; [by right; left|].
  destruct file; [by right; right; left|]. by right; right; right.
Qed.

Lemma env_variable v : variable v (env_value v).
Proof.
  unfold variable, env_value. destruct v as [[|c s]|]; [by left| |]; right; by split.
Qed.

Lemma no_slash_nonempty s x l : pieces s (x :: l) -> s = "" -> x = "" /\ l = [].
Proof.
  intros (H & _) ->. destruct l as [|y l]; [by cbn in H|]. rewrite join_cons in H. exfalso. by destruct x.
Qed.

(** A name joined to an absolute one. *)
Lemma resolve_below dir home r : has_prefix "/" home = true ->
  Start.resolve dir (clean (home +:+ "/" +:+ r)) = add_components (Start.resolve dir home) (split_slash r).
Proof.
  intros H. rewrite resolve_clean. unfold Start.resolve. rewrite H. apply has_prefix_true in H as [t ->].
  rewrite app_assoc_str, has_prefix_app. unfold join_path. rewrite <- app_assoc_str, split_slash_app. apply add_app.
Qed.

Lemma expand_other home s : (forall r, s <> "~" +:+ r) -> expand_tilde home s = Some s.
Proof.
  intros H. apply expand_home. by constructor.
Qed.

Lemma expand_none home s : expand_tilde home s = None <-> other_home s.
Proof.
  split.
  - destruct s as [|c s]; [done|]. destruct (decide (c = "~"%char)) as [-> |Hc].
    + destruct s as [|d r]; [done|]. cbn [expand_tilde].
      destruct (char_eqb d "/") eqn:E1; [done|]. destruct (char_eqb d "\") eqn:E2; [done|]. intros _.
      exists d, r. split; [done|]. split; by apply char_eqb_neq.
    + rewrite expand_other; [done|]. intros r [= E _]. done.
  - intros (c & r & -> & H1 & H2). cbn [expand_tilde append].
    apply char_eqb_neq in H1, H2. by rewrite H1, H2.
Qed.

Lemma expand_place home H dir s q : (exists t, home = "/" +:+ t) -> stands_for [] home H -> user_place H dir s q ->
  exists x, expand_tilde home s = Some x /\ Start.resolve dir x = q.
Proof.
  intros [t Ht] HH Hu. apply resolve_stands in HH.
  assert (has_prefix "/" home = true) as Hp by (rewrite Ht; apply has_prefix_app).
  assert (forall d, Start.resolve d home = H) as Hd.
  { intros d. rewrite <- HH. unfold Start.resolve. by rewrite Hp. }
  assert (String.eqb home "" = false) as Hne by (by rewrite Ht).
  destruct Hu as [|r l q Hl Hq|s q Hs Hq].
  - eexists. split; [reflexivity|]. unfold join_elems. cbn [List.filter]. rewrite Hne. cbn [negb String.eqb join].
    rewrite resolve_clean. apply Hd.
  - eexists. split; [reflexivity|]. unfold join_elems. cbn [List.filter]. rewrite Hne. cbn [negb].
    change (String.eqb (String "/" r) "") with false. cbn [negb join].
    rewrite resolve_below by done. rewrite Hd.
    change (split_slash (String "/" r)) with ("" :: split_slash r). cbn [add_components].
    change (String.eqb "" "" || String.eqb "" ".") with true. cbv iota.
    rewrite (split_slash_pieces _ _ Hl). by apply names_add0.
  - exists s. split; [by apply expand_other|]. by apply resolve_stands.
Qed.

Lemma expand_tildes_spec home l l' : expand_tildes home l = Some l' <->
  Forall2 (fun s x => expand_tilde home s = Some x) l l'.
Proof. apply mapM_Some. Qed.

Lemma expand_tildes_none home l : expand_tildes home l = None <-> exists s, s ∈ l /\ other_home s.
Proof.
  unfold expand_tildes. rewrite mapM_None, Exists_exists. split; intros (s & H1 & H2); exists s; (split; [done|]); by apply expand_none in H2 || apply expand_none.
Qed.

Lemma expand_repos_spec home l l' : expand_tildes_repos home l = Some l' <->
  Forall2 (Forall2 (fun kv ku => ku.1 = kv.1 /\ expand_tilde home kv.2 = Some ku.2)) l l'.
Proof.
  unfold expand_tildes_repos. rewrite mapM_Some.
  assert (forall m m', mapM (fun kv : string * string => match expand_tilde home kv.2 with Some u => Some (kv.1, u) | None => None end) m = Some m' <->
    Forall2 (fun kv ku => ku.1 = kv.1 /\ expand_tilde home kv.2 = Some ku.2) m m') as K.
  { intros m m'. rewrite mapM_Some. split; intros H; (eapply Forall2_impl; [exact H|]); intros [k v] [k' u]; cbn [fst snd].
    - destruct (expand_tilde home v); [|done]. by intros [= -> ->].
    - by intros [-> ->]. }
  split; intros H; (eapply Forall2_impl; [exact H|]); intros m m' Hm; by apply K.
Qed.

Lemma expand_repos_none home l : expand_tildes_repos home l = None <-> exists m kv, m ∈ l /\ kv ∈ m /\ other_home kv.2.
Proof.
  unfold expand_tildes_repos. rewrite mapM_None, Exists_exists. split.
  - intros (m & Hm & H). apply mapM_None, Exists_exists in H as (kv & Hk & H). exists m, kv. split; [done|]. split; [done|].
    apply (expand_none home). by destruct (expand_tilde home kv.2).
  - intros (m & kv & Hm & Hk & H). exists m. split; [done|]. apply mapM_None, Exists_exists. exists kv. split; [done|].
    apply (expand_none home) in H. by rewrite H.
Qed.
