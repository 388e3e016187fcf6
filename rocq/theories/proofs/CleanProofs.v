(** Cleaning the cache. *)
From stdpp Require Import strings list.
From Coq Require Import Ascii Lia.
From Verif.model Require Import GoStr Desc Nexus RepoDb Fs Install Clean.
From Verif.spec Require Import LibSpec EnvSpec InstallSpec CleanSpec.
From Verif.proofs Require Import GoStrLemmas FsProofs CacheProofs RepoProofs.

Local Open Scope string_scope.
Local Arguments Ascii.eqb : simpl never.
Local Arguments char_eqb : simpl never.

(** ** Lists with commas *)

Lemma split_join c l : l <> [] -> (forall y, y ∈ l -> all_bytes (fun d => negb (char_eqb c d)) y = true) ->
  split_on (char_eqb c) (join (String c "") l) = l.
Proof.
  induction l as [|x [|y l] IH]; intros Hn Hl; [done| |].
  - cbn [join]. apply split_on_none. apply Hl. by left.
  - change (join (String c "") (x :: y :: l)) with (x +:+ String c (join (String c "") (y :: l))).
    rewrite split_on_app; [|apply Hl; by left|by apply char_eqb_eq].
    f_equal. apply IH; [done|]. intros z Hz. apply Hl. by right.
Qed.

Lemma join_split c s : join (String c "") (split_on (char_eqb c) s) = s
  /\ forall y, y ∈ split_on (char_eqb c) s -> all_bytes (fun d => negb (char_eqb c d)) y = true.
Proof.
  induction s as [|a s [IH1 IH2]]; [split; [done|]; intros y Hy; by apply elem_of_list_singleton in Hy as ->|].
  cbn [split_on]. destruct (char_eqb c a) eqn:E.
  - apply char_eqb_eq in E as <-. pose proof (split_on_nonnil (char_eqb c) s) as Hn.
    destruct (split_on (char_eqb c) s) as [|x l]; [done|]. split.
    + change (join (String c "") ("" :: x :: l)) with (String c (join (String c "") (x :: l))). by rewrite IH1.
    + intros y Hy. apply elem_of_cons in Hy as [->|Hy]; [done|]. by apply IH2.
  - pose proof (split_on_nonnil (char_eqb c) s) as Hn.
    destruct (split_on (char_eqb c) s) as [|x l]; [done|]. split.
    + destruct l as [|y l]; [cbn in *; by rewrite IH1|].
      change (String a (join (String c "") (x :: y :: l)) = String a s). by rewrite IH1.
    + intros y Hy. apply elem_of_cons in Hy as [->|Hy].
      * cbn [all_bytes]. rewrite E. cbn [negb andb]. apply IH2. by left.
      * apply IH2. by right.
Qed.

Lemma listed_spec x s : x ∈ split_char "," s <-> listed x s.
Proof.
  unfold split_char, listed. split.
  - intros H. exists (split_on (char_eqb ",") s). destruct (join_split "," s) as [H1 H2]. by split.
  - intros (l & <- & Hl & Hx). rewrite (split_join "," l); [done| |exact Hl].
    intros ->. by apply elem_of_nil in Hx.
Qed.

(** ** Removing *)

Lemma remove_none p f q : in_dir p q -> remove_all p f q = None.
Proof. intros H. unfold remove_all. apply below_spec in H. by rewrite H. Qed.

Lemma remove_other p f q : ~ in_dir p q -> remove_all p f q = f q.
Proof.
  intros H. unfold remove_all. destruct (below p q) eqn:E; [|done]. apply below_spec in E. done.
Qed.

Lemma remove_cases p f q : (in_dir p q /\ remove_all p f q = None) \/ (~ in_dir p q /\ remove_all p f q = f q).
Proof.
  destruct (below p q) eqn:E; [left|right].
  - apply below_spec in E. by rewrite remove_none.
  - assert (~ in_dir p q) as H by (intros H; apply below_spec in H; congruence). by rewrite remove_other.
Qed.

Lemma remove_tree p f : tree_ok f -> tree_ok (remove_all p f).
Proof.
  intros T q x H. destruct (remove_cases p f (q ++ [x])%list) as [[_ E]|[N E]]; [congruence|].
  rewrite E in H. rewrite remove_other; [by apply (T q x)|].
  intros [s Hs]. apply N. exists (s ++ [x])%list. by rewrite Hs, app_assoc.
Qed.

(** Nothing is below what is not a directory. *)
Lemma tree_below f p s : tree_ok f -> f p <> Some Dir -> s <> [] -> f (p ++ s)%list = None.
Proof.
  intros T Hp Hs. induction s as [|x s IH] using rev_ind; [done|].
  rewrite app_assoc. destruct (f ((p ++ s) ++ [x])%list) eqn:E; [|done]. exfalso.
  assert (f (p ++ s)%list = Some Dir) as H by (apply (T _ x); congruence).
  destruct s as [|y s]; [by rewrite app_nil_r in H|]. rewrite IH in H; done.
Qed.

Lemma empty_below f p s : tree_ok f -> is_empty f p -> s <> [] -> f (p ++ s)%list = None.
Proof.
  intros T [_ H] Hs. destruct s as [|x s]; [done|].
  destruct s as [|y s]; [apply H|]. change (p ++ x :: y :: s)%list with (p ++ ([x] ++ y :: s))%list.
  rewrite app_assoc. apply tree_below; [done|by rewrite H|done].
Qed.

(** What one pass over some folders does. *)
Definition pass (cache : list string) (sub : string) (P : string -> Prop) (f f' : fsys) : Prop :=
  tree_ok f' /\
  (forall q, f' q = f q
     \/ (f' q = None /\ exists x, P x /\ (in_dir (cache ++ [x; sub])%list q
                                        \/ (q = (cache ++ [x])%list /\ forall s, f' (q ++ s)%list = None)))).

Lemma clean_one_pass cache sub x f f' : tree_ok f -> clean_one cache sub x f f' ->
  pass cache sub (eq x) f f' /\ (forall q, in_dir (cache ++ [x; sub])%list q -> f' q = None).
Proof.
  intros T H. pose proof (remove_tree (cache ++ [x; sub]) f T) as T1.
  destruct H as [[He ->]|[_ ->]].
  - split; [split; [by apply remove_tree|]|].
    + intros q. destruct (remove_cases (cache ++ [x]) (remove_all (cache ++ [x; sub]) f) q) as [[[s ->] E]|[_ E]].
      * destruct s as [|y s].
        -- right. split; [done|]. exists x. split; [done|]. right. rewrite app_nil_r. split; [done|].
           intros s. apply remove_none. by exists s.
        -- destruct (remove_cases (cache ++ [x; sub]) f ((cache ++ [x]) ++ y :: s)%list) as [[Hi _]|[_ E2]].
           ++ right. split; [done|]. exists x. split; [done|]. by left.
           ++ left. rewrite E, <- E2. symmetry. by apply empty_below.
      * rewrite E. destruct (remove_cases (cache ++ [x; sub]) f q) as [[Hi E2]|[_ E2]]; [|by left].
        right. split; [done|]. exists x. split; [done|]. by left.
    + intros q [s ->]. apply remove_none. exists (sub :: s). by rewrite <- !app_assoc.
  - split; [split; [done|]|].
    + intros q. destruct (remove_cases (cache ++ [x; sub]) f q) as [[Hi E2]|[_ E2]]; [|by left].
      right. split; [done|]. exists x. split; [done|]. by left.
    + intros q H. by apply remove_none.
Qed.

Lemma pass_mono cache sub (P Q : string -> Prop) f f' : (forall x, P x -> Q x) -> pass cache sub P f f' -> pass cache sub Q f f'.
Proof.
  intros H [T F]. split; [done|]. intros q. destruct (F q) as [|(E & x & Hx & C)]; [by left|].
  right. split; [done|]. exists x. split; [by apply H|done].
Qed.

Lemma pass_shrinks cache sub P f f' q : pass cache sub P f f' -> f q = None -> f' q = None.
Proof. intros [_ F] H. destruct (F q) as [->|[E _]]; done. Qed.

Lemma clean_list_pass cache sub xs : forall f f', tree_ok f -> clean_list cache sub xs f f' ->
  pass cache sub (fun x => x ∈ xs) f f'
  /\ forall x q, x ∈ xs -> in_dir (cache ++ [x; sub])%list q -> f' q = None.
Proof.
  induction xs as [|y xs IH]; intros f f' T H.
  { cbn in H. subst f'. split; [split; [done|]; intros q; by left|]. intros x q Hx. by apply elem_of_nil in Hx. }
  destruct H as (f1 & H1 & H2).
  destruct (clean_one_pass _ _ _ _ _ T H1) as [P1 G1].
  destruct (IH f1 f' (proj1 P1) H2) as [P2 G2]. split.
  - split; [apply P2|]. intros q. destruct P2 as [T2 F2], P1 as [T1 F1].
    destruct (F2 q) as [E2|(E2 & x & Hx & C)].
    + destruct (F1 q) as [E1|(E1 & x & <- & C)]; [left; congruence|]. right. split; [congruence|].
      exists y. split; [by left|]. destruct C as [C|[C1 C2]]; [by left|right]. split; [done|].
      intros s. apply (pass_shrinks cache sub (fun x => x ∈ xs) f1); [done|apply C2].
    + right. split; [done|]. exists x. split; [by right|done].
  - intros x q Hx Hq. apply elem_of_cons in Hx as [->|Hx]; [|by apply (G2 x)].
    apply (pass_shrinks _ _ _ _ _ _ P2). by apply G1.
Qed.

(** ** A whole pass over the cache *)

Definition wanted_folder (repos : option (list string)) (x : string) : Prop :=
  match repos with None => True | Some l => x ∈ l end.

Lemma targets_spec repos names x : x ∈ targets repos names <-> wanted_folder repos x /\ x ∈ names.
Proof.
  destruct repos as [l|]; cbn [targets wanted_folder]; [|by split; [|intros [_ ?]]].
  rewrite elem_of_list_In, in_flat_map. split.
  - intros (r & Hr & Hx). apply filter_In in Hx as [Hx E]. apply String.eqb_eq in E as ->. by rewrite !elem_of_list_In.
  - intros [H1 H2]. exists x. rewrite <- elem_of_list_In. split; [done|]. apply filter_In.
    rewrite <- elem_of_list_In. by rewrite String.eqb_refl.
Qed.

Lemma delete_sub_pass cache repos sub f f' b : tree_ok f -> delete_sub cache repos sub f (Cleaned f' b) ->
  b = false /\ pass cache sub (wanted_folder repos) f f'
  /\ forall x q, wanted_folder repos x -> in_dir (cache ++ [x; sub])%list q -> f' q = None.
Proof.
  intros T H. unfold delete_sub in H. destruct (f cache) as [[]|] eqn:Ec; [| |discriminate].
  - injection H as -> ->. split; [done|]. split; [split; [done|]; intros q; by left|].
    intros x q Hx [s ->]. rewrite <- app_assoc. apply tree_below; [done|congruence|done].
  - destruct H as (names & f1 & Hn & Hl & E). injection E as <- <-. split; [done|].
    destruct (clean_list_pass _ _ _ _ _ T Hl) as [P G]. split.
    + eapply pass_mono; [|done]. intros x Hx. by apply targets_spec in Hx as [Hx _].
    + intros x q Hx Hq. destruct (decide (f (cache ++ [x])%list = Some Dir)) as [Hd|Hd].
      * apply (G x); [|done]. apply targets_spec. split; [done|]. by apply Hn.
      * apply (pass_shrinks _ _ _ _ _ _ P). destruct Hq as [s ->].
        replace ((cache ++ [x; sub]) ++ s)%list with ((cache ++ [x]) ++ sub :: s)%list by (by rewrite <- !app_assoc).
        by apply tree_below.
Qed.

Lemma chosen_wanted c x : wanted_folder (repos_to_clear (cc_repos c)) x <-> chosen_folder c x.
Proof.
  unfold repos_to_clear, chosen_folder. destruct (String.eqb_spec (cc_repos c) "ALL") as [E|E]; cbn [wanted_folder].
  - split; [by left|done].
  - rewrite listed_spec. split; [by right|]. intros [|]; done.
Qed.

Lemma cache_of_spec c d : cache_of c d -> user_cache (cc_cwd c) (cc_default c) (cc_cache c) = d.
Proof.
  unfold user_cache. intros [[-> ->]|[H ->]]; [done|]. by destruct (String.eqb_spec (cc_cache c) "").
Qed.

(** The folders only, before the unpacked tarballs. *)
Lemma folders_spec c d f f1 b : cache_of c d -> tree_ok f -> cc_src_only c && cc_binaries_only c = false ->
  (if negb (cc_src_only c) && negb (cc_binaries_only c) then delete_both d (repos_to_clear (cc_repos c)) f (Cleaned f1 b)
   else if cc_src_only c then delete_sub d (repos_to_clear (cc_repos c)) "src" f (Cleaned f1 b)
   else delete_sub d (repos_to_clear (cc_repos c)) "binary" f (Cleaned f1 b)) ->
  b = false /\ tree_ok f1
  /\ (forall q, chosen c d q -> f1 q = None)
  /\ (forall q, f1 q = f q \/ (f1 q = None /\ (chosen c d q \/ emptied c d q f1))).
Proof.
  intros Hd T Hb. destruct (cc_src_only c) eqn:Es, (cc_binaries_only c) eqn:Eb; try discriminate; cbn [negb andb].
  - intros H. apply delete_sub_pass in H as (-> & [T1 F] & G); [|done]. split; [done|]. split; [done|]. split.
    + intros q (x & sub & Hx & Hs & Hq). apply (G x q); [by apply chosen_wanted|].
      destruct Hs as [[-> _]|[_ ?]]; [done|congruence].
    + intros q. destruct (F q) as [|(E & x & Hx & C)]; [by left|]. right. split; [done|].
      apply chosen_wanted in Hx. destruct C as [C|[C1 C2]]; [left; exists x, "src"; split; [done|]; split; [by left|done]|].
      right. by exists x.
  - intros H. apply delete_sub_pass in H as (-> & [T1 F] & G); [|done]. split; [done|]. split; [done|]. split.
    + intros q (x & sub & Hx & Hs & Hq). apply (G x q); [by apply chosen_wanted|].
      destruct Hs as [[_ ?]|[-> _]]; [congruence|done].
    + intros q. destruct (F q) as [|(E & x & Hx & C)]; [by left|]. right. split; [done|].
      apply chosen_wanted in Hx. destruct C as [C|[C1 C2]]; [left; exists x, "binary"; split; [done|]; split; [by right|done]|].
      right. by exists x.
  - intros (r1 & H1 & H2). destruct r1 as [|f0 [|]]; [done| |].
    { apply delete_sub_pass in H1 as [? _]; done. }
    apply delete_sub_pass in H1 as (_ & P0 & G0); [|done].
    apply delete_sub_pass in H2 as (-> & P1 & G1); [|apply P0].
    split; [done|]. split; [apply P1|]. split.
    + intros q (x & sub & Hx & Hs & Hq). apply chosen_wanted in Hx. destruct Hs as [[-> _]|[-> _]].
      * apply (pass_shrinks _ _ _ _ _ _ P1). by apply (G0 x).
      * by apply (G1 x).
    + intros q. destruct (proj2 P1 q) as [E1|(E1 & x & Hx & C)].
      * destruct (proj2 P0 q) as [E0|(E0 & x & Hx & C)]; [left; congruence|]. right. split; [congruence|].
        apply chosen_wanted in Hx. destruct C as [C|[C1 C2]]; [left; exists x, "src"; split; [done|]; split; [by left|done]|].
        right. exists x. split; [done|]. split; [done|]. intros s. apply (pass_shrinks _ _ _ _ _ _ P1). apply C2.
      * right. split; [done|]. apply chosen_wanted in Hx.
        destruct C as [C|[C1 C2]]; [left; exists x, "binary"; split; [done|]; split; [by right|done]|]. right. by exists x.
Qed.

Lemma tarballs_spec c hs f q : let f' := fold_left (fun g h => remove_all (tarball_dir c h) g) hs f in
  (f' q = f q \/ (f' q = None /\ exists h, h ∈ hs /\ in_dir (tarball_dir c h) q))
  /\ forall h, h ∈ hs -> in_dir (tarball_dir c h) q -> f' q = None.
Proof.
  cbv zeta. revert f. induction hs as [|h hs IH]; intros f; cbn [fold_left].
  { split; [by left|]. intros h Hh. by apply elem_of_nil in Hh. }
  destruct (IH (remove_all (tarball_dir c h) f)) as [IH1 IH2]. split.
  - destruct IH1 as [E|(E & h' & Hh & Hi)].
    + rewrite E. destruct (remove_cases (tarball_dir c h) f q) as [[Hi E2]|[_ E2]]; [right|by left].
      split; [done|]. exists h. split; [by left|done].
    + right. split; [done|]. exists h'. split; [by right|done].
  - intros h' Hh Hi. apply elem_of_cons in Hh as [->|Hh]; [|by apply (IH2 h')].
    destruct IH1 as [->|[E _]]; [|done]. by apply remove_none.
Qed.

Lemma tarball_dir_file c d h : cache_of c d -> cc_cache c <> "" -> file_name h -> tarball_dir c h = (d ++ [h])%list.
Proof.
  intros [[H _]|[_ ->]] Hc Hf; [done|]. unfold tarball_dir. destruct (String.eqb_spec (cc_cache c) ""); [done|].
  by apply join_file.
Qed.

Lemma clean_cache_spec c d f f' : cache_of c d -> tree_ok f -> clean_cache c f (Cleaned f' false) ->
  (forall q, chosen c d q -> f' q = None)
  /\ (forall q, f' q = f q \/ (f' q = None
       /\ (chosen c d q \/ emptied c d q f' \/ exists h, h ∈ cc_hashes c /\ in_dir (tarball_dir c h) q)))
  /\ (forall h q, h ∈ cc_hashes c -> in_dir (tarball_dir c h) q -> f' q = None).
Proof.
  intros Hd T H. unfold clean_cache in H. rewrite (cache_of_spec c d Hd) in H.
  destruct (cc_src_only c && cc_binaries_only c) eqn:Hb; [discriminate|].
  destruct H as (r1 & H1 & H2). destruct r1 as [|f1 b]; [discriminate|].
  destruct (folders_spec c d f f1 b Hd T Hb H1) as (-> & T1 & G & F). injection H2 as ->.
  unfold clean_tarballs. split; [|split].
  - intros q Hq. destruct (tarballs_spec c (cc_hashes c) f1 q) as [[E|[E _]] _]; rewrite E; [by apply G|done].
  - intros q. destruct (tarballs_spec c (cc_hashes c) f1 q) as [[E|[E Hh]] _].
    + rewrite E. destruct (F q) as [|(E1 & [C|(x & Hx & -> & Hn)])]; [by left| |]; right; (split; [done|]).
      * by left.
      * right. left. exists x. split; [done|]. split; [done|]. intros s.
        destruct (tarballs_spec c (cc_hashes c) f1 ((d ++ [x]) ++ s)%list) as [[E2|[E2 _]] _]; rewrite E2; [apply Hn|done].
    + right. split; [done|]. right. by right.
  - intros h q Hh Hq. destruct (tarballs_spec c (cc_hashes c) f1 q) as [_ E]. by apply (E h).
Qed.

Lemma missing_cache c d f r : cache_of c d -> f d = None -> clean_cache c f r ->
  cc_src_only c && cc_binaries_only c = false -> r = Panics.
Proof.
  intros Hd Hf H Hb. unfold clean_cache in H. rewrite (cache_of_spec c d Hd), Hb in H.
  destruct H as (r1 & H1 & H2). assert (r1 = Panics) as ->; [|done].
  unfold delete_both, delete_sub in H1. rewrite Hf in H1.
  destruct (negb _ && negb _); [|by destruct (cc_src_only c)]. destruct H1 as (r2 & -> & H1). done.
Qed.

(** ** Package databases *)

Lemma remove_dbs_frame md5 b dir names dbs rv f q :
  (forall n db, n ∈ names -> db ∈ dbs -> ru_name (db_repo db) = n -> ~ in_dir (db_file md5 b dir db rv) q) ->
  remove_dbs md5 b dir names dbs rv f q = f q.
Proof.
  unfold remove_dbs. revert f. induction names as [|n names IH]; intros f H; [done|]. cbn [fold_left].
  rewrite IH; [|intros n' db Hn; apply H; by right].
  assert (forall db, db ∈ dbs -> ru_name (db_repo db) = n -> ~ in_dir (db_file md5 b dir db rv) q) as H1.
  { intros db. apply H. by left. }
  clear H IH. revert f. induction dbs as [|db dbs IH]; intros f; [done|]. cbn [fold_left].
  rewrite IH by (intros d Hd; apply H1; by right).
  destruct (String.eqb_spec (ru_name (db_repo db)) n) as [E|E]; [|done].
  apply remove_other. apply H1; [by left|done].
Qed.

Lemma remove_dbs_removes md5 b dir names dbs rv f db :
  ru_name (db_repo db) ∈ names -> db ∈ dbs -> remove_dbs md5 b dir names dbs rv f (db_file md5 b dir db rv) = None.
Proof.
  assert (forall names f q, f q = None -> remove_dbs md5 b dir names dbs rv f q = None) as K.
  { intros ns. induction ns as [|n ns IH]; intros g q Hq; [done|]. apply IH.
    revert g Hq. generalize dbs. intros l. induction l as [|e l IHl]; intros g Hq; [done|]. apply IHl.
    destruct (String.eqb _ _); [|done]. destruct (remove_cases (db_file md5 b dir e rv) g q) as [[_ ->]|[_ ->]]; done. }
  intros Hn Hd. revert f. induction names as [|n names IH]; intros f; [by apply elem_of_nil in Hn|].
  apply elem_of_cons in Hn as [<-|Hn]; [|by apply IH]. refine (K names _ _ _). clear K IH.
  assert (forall l g q, g q = None -> fold_left (fun g e => if String.eqb (ru_name (db_repo e)) (ru_name (db_repo db))
     then remove_all (db_file md5 b dir e rv) g else g) l g q = None) as K.
  { intros l. induction l as [|e l IHl]; intros g q Hq; [done|]. apply IHl.
    destruct (String.eqb _ _); [|done]. destruct (remove_cases (db_file md5 b dir e rv) g q) as [[_ ->]|[_ ->]]; done. }
  revert f. induction dbs as [|e l IH]; intros f; [by apply elem_of_nil in Hd|]. cbn [fold_left].
  apply elem_of_cons in Hd as [<-|Hd]; [|by apply IH].
  apply K. rewrite String.eqb_refl. apply remove_none. exists []. by rewrite app_nil_r.
Qed.
