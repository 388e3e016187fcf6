(** Unpacking an archive. *)
From stdpp Require Import strings list sets gmap.
From Coq Require Import Ascii Lia.
From Verif.model Require Import GoStr Fs Env Extract.
From Verif.spec Require Import StrSpec LibSpec ExtractSpec.
From Verif.proofs Require Import GoStrLemmas FsProofs.

Local Open Scope string_scope.

Local Arguments Ascii.eqb : simpl never.

(** * Names *)

Lemma split_slash_nonnil s : split_slash s <> [].
Proof. destruct s as [|c s]; [done|]. simpl. destruct (Ascii.eqb c "/"); [done|]. by destruct (split_slash s). Qed.

Lemma join_cons x y l : join "/" (x :: y :: l) = x +:+ "/" +:+ join "/" (y :: l).
Proof. done. Qed.

Lemma split_slash_join s : join "/" (split_slash s) = s.
Proof.
  induction s as [|c s IH]; [done|]. cbn [split_slash]. destruct (Ascii.eqb_spec c "/") as [->|Hc].
  - destruct (split_slash s) as [|x l] eqn:E; [by apply split_slash_nonnil in E|].
    rewrite join_cons, IH. done.
  - destruct (split_slash s) as [|x [|y l]] eqn:E; [by apply split_slash_nonnil in E| |].
    + simpl in *. by rewrite IH.
    + rewrite join_cons in *. simpl. simpl in IH. by rewrite IH.
Qed.

Lemma split_slash_clean s x : x ∈ split_slash s -> forall a b, x <> a +:+ "/" +:+ b.
Proof.
  revert x. induction s as [|c s IH]; simpl; intros x.
  - rewrite elem_of_list_singleton. intros -> [|]; done.
  - destruct (Ascii.eqb_spec c "/") as [->|Hc].
    + rewrite elem_of_cons. intros [->|H]; [intros [|]; done|by apply IH].
    + destruct (split_slash s) as [|h t] eqn:E; [by apply split_slash_nonnil in E|].
      rewrite elem_of_cons. intros [->|H].
      * intros a b Eq. destruct a as [|d a].
        -- simpl in Eq. injection Eq as -> _. done.
        -- simpl in Eq. injection Eq as _ Eq. apply (IH h) in Eq; [done|]. by left.
      * apply IH. by right.
Qed.

Lemma pieces_split s : pieces s (split_slash s).
Proof.
  split; [by rewrite split_slash_join|]. split; [apply split_slash_nonnil|]. intros x Hx a b. by apply (split_slash_clean s).
Qed.

(** Once a ".." is at the bottom it stays there. *)
Lemma clean_dots comps : forall out, exists r, clean_loop false (out ++ [".."])%list comps = ".." :: r.
Proof.
  induction comps as [|c comps IH]; intros out; cbn [clean_loop].
  - rewrite rev_app_distr. by eexists.
  - destruct (String.eqb c "" || String.eqb c "."); [apply IH|].
    destruct (String.eqb c ".."); [|apply (IH (c :: out))].
    destruct out as [|x out]; cbn [app].
    + apply (IH [c]).
    + destruct (String.eqb x ".."); [apply (IH (c :: x :: out))|apply IH].
Qed.

Lemma clean_names comps : forall out, ~ ".." ∈ out ->
  (exists p, names_path (rev out) comps p) \/
  (".." ∈ comps /\ exists r, clean_loop false out comps = ".." :: r).
Proof.
  induction comps as [|c comps IH]; intros out Ho; cbn [clean_loop].
  - left. eexists. constructor.
  - destruct (String.eqb_spec c "") as [->|H1].
    { destruct (IH out Ho) as [[p H]|[H H']]; [left; exists p; constructor; [by left|done]|right].
      split; [by right|done]. }
    destruct (String.eqb_spec c ".") as [->|H2].
    { destruct (IH out Ho) as [[p H]|[H H']]; [left; exists p; constructor; [by right|done]|right].
      split; [by right|done]. }
    cbn [orb]. destruct (String.eqb_spec c "..") as [->|H3].
    + destruct out as [|x out].
      * right. split; [by left|]. apply (clean_dots comps []).
      * destruct (String.eqb_spec x "..") as [->|Hx]; [exfalso; apply Ho; by left|].
        destruct (IH out) as [[p H]|[H H']]; [intros H; apply Ho; by right| |].
        -- left. exists p. cbn [rev]. by constructor.
        -- right. split; [by right|done].
    + destruct (IH (c :: out)) as [[p H]|[H H']].
      * rewrite elem_of_cons. intros [H|H]; [by apply H3|done].
      * left. exists p. by constructor.
      * right. split; [by right|done].
Qed.

Lemma local_names s : is_local s = true -> exists p, names_path [] (split_slash s) p.
Proof.
  unfold is_local. destruct (has_prefix "/" s || String.eqb s "") eqn:E; [done|].
  apply orb_false_iff in E as [E _].
  destruct (clean_names (split_slash s) []) as [H|[H1 (r & H2)]]; [intros Hn; by apply elem_of_nil in Hn|done|].
  assert (has_dots (split_slash s) = true) as ->.
  { unfold has_dots. apply existsb_exists. exists "..". split; [by apply elem_of_list_In|done]. }
  unfold clean. rewrite E, H2. intros H. exfalso. destruct r as [|x r].
  - discriminate H.
  - change (join "/" (".." :: x :: r)) with ("../" +:+ join "/" (x :: r)) in H.
    assert (has_prefix "../" ("../" +:+ join "/" (x :: r)) = true) as Hp.
    { apply has_prefix_true. by eexists. }
    remember ("../" +:+ join "/" (x :: r)) as t eqn:Et.
    assert (String.eqb t "" = false) as E1 by (by rewrite Et).
    rewrite E1, Hp, orb_true_r in H. discriminate H.
Qed.

Lemma names_add root p l q : names_path p l q -> add_components (root ++ p)%list l = (root ++ q)%list.
Proof.
  induction 1 as [p|p c l q Hc _ IH|p x l q _ IH|p c l q H1 H2 H3 _ IH]; cbn [add_components].
  - done.
  - destruct Hc as [-> | ->]; done.
  - cbn [String.eqb orb]. rewrite app_assoc, removelast_last. done.
  - destruct (String.eqb_spec c ""); [done|]. destruct (String.eqb_spec c "."); [done|].
    destruct (String.eqb_spec c ".."); [done|]. cbn [orb]. by rewrite <- app_assoc.
Qed.

Lemma names_follow f root p l q r : names_path p l q ->
  follow f (length p) (root ++ p)%list l = Some r -> r = (root ++ q)%list.
Proof.
  intros H. revert r.
  induction H as [p|p c l q Hc _ IH|p x l q _ IH|p c l q H1 H2 H3 _ IH]; intros r; cbn [follow].
  - congruence.
  - destruct Hc as [-> | ->]; apply IH.
  - cbn [String.eqb orb]. rewrite app_length. cbn [length]. rewrite Nat.add_1_r.
    destruct (fs_dir_exists f _); [|done]. rewrite app_assoc, removelast_last. apply IH.
  - destruct (String.eqb_spec c ""); [done|]. destruct (String.eqb_spec c "."); [done|].
    destruct (String.eqb_spec c ".."); [done|]. cbn [orb].
    destruct (fs_dir_exists f _); [|done]. rewrite <- app_assoc. intros Hf. apply IH. rewrite app_length. cbn [length].
    by rewrite Nat.add_1_r.
Qed.

(** * Changes *)

Lemma prefixes_spec p q : q ∈ prefixes p <-> in_dir q p.
Proof.
  revert q. induction p as [|c p IH]; intros q; cbn [prefixes].
  - rewrite elem_of_list_singleton. split.
    + intros ->. by exists [].
    + intros [s H]. symmetry in H. by apply app_eq_nil in H as [-> _].
  - rewrite elem_of_cons, elem_of_list_fmap. split.
    + intros [->|(q' & -> & H)]; [by exists (c :: p)|]. apply IH in H as [s ->]. by exists s.
    + intros [s H]. destruct q as [|d q]; [by left|right]. simpl in H. injection H as <- H.
      exists q. split; [done|]. apply IH. by exists s.
Qed.

Lemma mkdir_spec p f f' : mkdir_all p f = Some f' ->
  (forall q, in_dir q p -> f' q = Some Dir) /\ (forall q, ~ in_dir q p -> f' q = f q) /\
  (forall q c, f q = Some (File c) -> ~ in_dir q p).
Proof.
  unfold mkdir_all. destruct (existsb _ _) eqn:E; [done|]. intros [= <-]. split; [|split].
  - intros q H. apply below_spec in H. by rewrite H.
  - intros q H. destruct (below q p) eqn:Eb; [by apply below_spec in Eb|done].
  - intros q c Hf H. apply prefixes_spec in H. apply not_true_iff_false in E. apply E.
    apply existsb_exists. exists q. split; [by apply elem_of_list_In|]. by rewrite Hf.
Qed.

Definition dirs_above (root : list string) (f : fsys) : Prop := forall q, in_dir q root -> f q = Some Dir.

Definition only_inside (root : list string) (f g : fsys) : Prop := forall q, ~ in_dir root q -> g q = f q.

Lemma only_inside_trans root f g h : only_inside root f g -> only_inside root g h -> only_inside root f h.
Proof. intros H1 H2 q Hq. by rewrite H2, H1. Qed.

(** A prefix of a path below the root is above or below the root. *)
Lemma in_dir_cases (a b : list string) q : in_dir q (a ++ b)%list -> in_dir q a \/ in_dir a q.
Proof.
  unfold in_dir. revert q. induction a as [|x a IH]; intros q [s H].
  - right. by exists q.
  - destruct q as [|y q]; [left; by exists (x :: a)|]. simpl in H. injection H as <- H.
    destruct (IH q) as [[t ->]|[t ->]]; [by exists s|left; by exists t|right; by exists t].
Qed.

Lemma mkdir_inside root p f f' : dirs_above root f -> mkdir_all (root ++ p)%list f = Some f' ->
  dirs_above root f' /\ only_inside root f f' /\ f' (root ++ p)%list = Some Dir /\
  (forall q n, f q = Some n -> f' q = Some n) /\ (forall q c, f' q = Some (File c) -> f q = Some (File c)).
Proof.
  intros Hd H. destruct (mkdir_spec _ _ _ H) as (H1 & H2 & H3).
  assert (forall q, in_dir q (root ++ p)%list \/ ~ in_dir q (root ++ p)%list) as Hdec.
  { intros q. destruct (below q (root ++ p)%list) eqn:E; [left|right]; rewrite <- below_spec; congruence. }
  split; [|split; [|split; [|split]]].
  - intros q Hq. apply H1. destruct Hq as [s ->]. exists (s ++ p)%list. by rewrite app_assoc.
  - intros q Hq. destruct (Hdec q) as [Hi|Hi]; [|by apply H2].
    destruct (in_dir_cases _ _ _ Hi) as [Ha|Ha]; [|done]. by rewrite (H1 q Hi), (Hd q Ha).
  - apply H1. exists []. by rewrite app_nil_r.
  - intros q n Hf. destruct (Hdec q) as [Hi|Hi]; [|by rewrite H2].
    rewrite (H1 q Hi). destruct n as [c|]; [|done]. by apply H3 in Hf.
  - intros q c Hf. destruct (Hdec q) as [Hi|Hi]; [by rewrite (H1 q Hi) in Hf|by rewrite H2 in Hf].
Qed.

Lemma removelast_app_ne (root p : list string) : p <> [] -> removelast (root ++ p)%list = (root ++ removelast p)%list.
Proof. intros H. by apply removelast_app. Qed.

Lemma create_inside root name content p f f' : dirs_above root f -> names_path [] (split_slash name) p ->
  create_excl root name content f = Some f' ->
  dirs_above root f' /\ only_inside root f f' /\ f' (root ++ p)%list = Some (File content) /\
  (forall q n, f q = Some n -> f' q = Some n) /\
  (forall q c, f' q = Some (File c) -> f q = Some (File c) \/ (q = (root ++ p)%list /\ c = content)).
Proof.
  intros Hd Hn. unfold create_excl. destruct (follow f 0 root (split_slash name)) as [r|] eqn:Ef; [|done].
  assert (r = (root ++ p)%list) as ->.
  { apply (names_follow f root [] (split_slash name) p); [done|]. by rewrite app_nil_r. }
  destruct (fs_exists f (root ++ p)%list || _) eqn:E; [done|]. apply orb_false_iff in E as [E _].
  intros [= <-]. unfold fs_exists in E.
  assert (f (root ++ p)%list = None) as Hx by (by destruct (f (root ++ p)%list)).
  assert (forall q n, f q = Some n -> (if bool_decide (q = (root ++ p)%list) then Some (File content) else f q) = Some n) as Hk.
  { intros q n Hq. rewrite bool_decide_eq_false_2; [done|]. intros ->. congruence. }
  split; [|split; [|split; [|split]]].
  - intros q Hq. apply Hk. by apply Hd.
  - intros q Hq. rewrite bool_decide_eq_false_2; [done|]. intros ->. apply Hq. by exists p.
  - by rewrite bool_decide_eq_true_2.
  - done.
  - intros q c. destruct (decide (q = (root ++ p)%list)) as [->|Hq].
    + rewrite bool_decide_eq_true_2 by done. intros [= <-]. by right.
    + rewrite bool_decide_eq_false_2 by done. by left.
Qed.

(** * Entries *)

Lemma parent_mkdir root p f f1 : dirs_above root f -> mkdir_all (removelast (root ++ p)%list) f = Some f1 ->
  dirs_above root f1 /\ only_inside root f f1 /\
  (forall q n, f q = Some n -> f1 q = Some n) /\ (forall q c, f1 q = Some (File c) -> f q = Some (File c)).
Proof.
  intros Hd H. destruct (decide (p = [])) as [->|Hp].
  - rewrite app_nil_r in H. destruct (mkdir_spec _ _ _ H) as (H1 & H2 & H3).
    assert (forall q, in_dir q (removelast root) -> in_dir q root) as Hr.
    { intros q [s E]. destruct root as [|x root] using rev_ind; [by exists s|].
      rewrite removelast_last in E. rewrite E. exists (s ++ [x])%list. by rewrite app_assoc. }
    assert (forall q, f1 q = f q) as Hsame.
    { intros q. destruct (below q (removelast root)) eqn:E.
      - apply below_spec in E. rewrite H1 by done. symmetry. apply Hd. by apply Hr.
      - apply H2. rewrite <- below_spec. congruence. }
    split; [|split; [|split]].
    + intros q Hq. rewrite Hsame. by apply Hd.
    + intros q _. apply Hsame.
    + intros q n. by rewrite Hsame.
    + intros q c. by rewrite Hsame.
  - rewrite removelast_app_ne in H by done. destruct (mkdir_inside _ _ _ _ Hd H) as (? & ? & _ & ? & ?). done.
Qed.

Lemma entry_inside root e f f' ok : dirs_above root f -> extract_file root e f = (f', ok) ->
  dirs_above root f' /\ only_inside root f f'.
Proof.
  intros Hd. unfold extract_file. destruct (is_local (en_name e)) eqn:El; cbn [negb]; [|by intros [= <- _]].
  destruct (local_names _ El) as [p Hp].
  assert (join_path root (en_name e) = (root ++ p)%list) as ->.
  { unfold join_path. rewrite <- (names_add root [] _ p Hp). by rewrite app_nil_r. }
  assert (forall c b,
    match mkdir_all (removelast (root ++ p)%list) f with
    | None => (f, false)
    | Some f1 => match create_excl root (en_name e) c f1 with None => (f1, false) | Some f2 => (f2, b) end
    end = (f', ok) -> dirs_above root f' /\ only_inside root f f') as Hreg.
  { intros c b. destruct (mkdir_all (removelast (root ++ p)%list) f) as [f1|] eqn:Em; [|by intros [= <- _]].
    destruct (parent_mkdir _ _ _ _ Hd Em) as (H1 & H2 & _).
    destruct (create_excl root (en_name e) c f1) as [f2|] eqn:Ec; [|by intros [= <- _]].
    intros [= <- _]. destruct (create_inside _ _ _ _ _ _ H1 Hp Ec) as (H3 & H4 & _).
    split; [done|]. by eapply only_inside_trans. }
  destruct (en_kind e) as [|c|c|].
  - destruct (mkdir_all (root ++ p)%list f) as [f1|] eqn:Em; [|by intros [= <- _]].
    intros [= <- _]. by destruct (mkdir_inside _ _ _ _ Hd Em) as (? & ? & _).
  - apply Hreg.
  - apply Hreg.
  - by intros [= <- _].
Qed.

Lemma all_inside root l : forall f f' ok, dirs_above root f -> extract_all root l f = (f', ok) ->
  dirs_above root f' /\ only_inside root f f'.
Proof.
  induction l as [|e l IH]; intros f f' ok Hd; cbn [extract_all].
  - by intros [= <- _].
  - destruct (extract_file root e f) as [f1 [|]] eqn:E.
    + destruct (entry_inside _ _ _ _ _ Hd E) as [H1 H2]. intros H. destruct (IH _ _ _ H1 H) as [H3 H4].
      split; [done|]. by eapply only_inside_trans.
    + intros [= <- _]. by apply (entry_inside _ _ _ _ _ Hd E).
Qed.

Lemma mkdir_root root f f' : mkdir_all root f = Some f' -> dirs_above root f'.
Proof. intros H. by apply mkdir_spec in H as (H & _). Qed.

(** C64 *)
Lemma extract_confined a root f f' ok : extract a root f = (f', ok) ->
  forall q, ~ in_dir root q -> f' q = f q \/ (in_dir q root /\ f q = None /\ f' q = Some Dir).
Proof.
  unfold extract. destruct (a_known a); cbn [negb]; [|by intros [= <- _]; left].
  assert (forall q, ~ in_dir root q -> remove_all root f q = f q) as Hr.
  { intros q Hq. unfold remove_all. destruct (below root q) eqn:E; [|done]. by apply below_spec in E. }
  destruct (mkdir_all root (remove_all root f)) as [f1|] eqn:Em.
  - destruct (extract_all root (a_entries a) f1) as [f2 b] eqn:Ee. intros [= <- _] q Hq.
    destruct (all_inside _ _ _ _ _ (mkdir_root _ _ _ Em) Ee) as [_ H]. rewrite (H q Hq).
    destruct (mkdir_spec _ _ _ Em) as (H1 & H2 & H3). destruct (below q root) eqn:E.
    + apply below_spec in E. rewrite (H1 q E).
      destruct (f q) as [[c|]|] eqn:Ef; [|by left|by right].
      exfalso. apply (H3 q c); [by rewrite Hr|done].
    + left. rewrite H2; [by apply Hr|]. rewrite <- below_spec. congruence.
  - intros [= <- _] q Hq. left. by apply Hr.
Qed.

(** * Completeness *)

Definition entry_done (root : list string) (f : fsys) (e : entry) : Prop :=
  exists p, names_path [] (split_slash (en_name e)) p /\
     match en_kind e with
     | KReg c => f (root ++ p)%list = Some (File c)
     | KDir => f (root ++ p)%list = Some Dir
     | _ => False
     end.

Lemma entry_step root e f f' : dirs_above root f -> extract_file root e f = (f', true) ->
  entry_done root f' e /\ (forall q n, f q = Some n -> f' q = Some n) /\
  (forall q c, f' q = Some (File c) -> f q = Some (File c) \/
     exists p, q = (root ++ p)%list /\ en_kind e = KReg c /\ names_path [] (split_slash (en_name e)) p).
Proof.
  intros Hd. unfold extract_file. destruct (is_local (en_name e)) eqn:El; cbn [negb]; [|done].
  destruct (local_names _ El) as [p Hp].
  assert (join_path root (en_name e) = (root ++ p)%list) as ->.
  { unfold join_path. rewrite <- (names_add root [] _ p Hp). by rewrite app_nil_r. }
  unfold entry_done.
  destruct (en_kind e) as [|c|c|] eqn:Ek.
  - destruct (mkdir_all (root ++ p)%list f) as [f1|] eqn:Em; [|done].
    intros [= <-]. destruct (mkdir_inside _ _ _ _ Hd Em) as (H1 & H2 & H3 & H4 & H5).
    split; [by exists p|]. split; [done|]. intros q c Hq. left. by apply H5.
  - destruct (mkdir_all (removelast (root ++ p)%list) f) as [f1|] eqn:Em; [|done].
    destruct (parent_mkdir _ _ _ _ Hd Em) as (H1 & H2 & H3 & H4).
    destruct (create_excl root (en_name e) c f1) as [f2|] eqn:Ec; [|done].
    intros [= <-]. destruct (create_inside _ _ _ _ _ _ H1 Hp Ec) as (H5 & H6 & H7 & H8 & H9).
    split; [by exists p|]. split; [intros q n Hq; by apply H8, H3|].
    intros q d Hq. destruct (H9 q d Hq) as [H|[-> ->]]; [left; by apply H4|right]. by exists p.
  - destruct (mkdir_all (removelast (root ++ p)%list) f) as [f1|] eqn:Em; [|done].
    by destruct (create_excl root (en_name e) c f1).
  - done.
Qed.

Lemma all_step root l : forall f f', dirs_above root f -> extract_all root l f = (f', true) ->
  (forall e, e ∈ l -> entry_done root f' e) /\ (forall q n, f q = Some n -> f' q = Some n) /\
  (forall q c, f' q = Some (File c) -> f q = Some (File c) \/
     exists e p, e ∈ l /\ q = (root ++ p)%list /\ en_kind e = KReg c /\ names_path [] (split_slash (en_name e)) p).
Proof.
  induction l as [|e l IH]; intros f f' Hd; cbn [extract_all].
  - intros [= <-]. split; [intros e He; by apply elem_of_nil in He|]. split; [done|]. by left.
  - destruct (extract_file root e f) as [f1 [|]] eqn:E; [|done]. intros H.
    destruct (entry_inside _ _ _ _ _ Hd E) as [Hd1 _].
    destruct (entry_step _ _ _ _ Hd E) as ((p & Hp & Hk) & H2 & H3). destruct (IH _ _ Hd1 H) as (H4 & H5 & H6).
    split; [|split].
    + intros e' He. apply elem_of_cons in He as [->|He]; [|by apply H4].
      exists p. split; [done|]. destruct (en_kind e) as [|c|c|]; try done; by apply H5.
    + intros q n Hq. by apply H5, H2.
    + intros q c Hq. destruct (H6 q c Hq) as [Hf|(e' & p' & He & ? & ? & ?)].
      * destruct (H3 q c Hf) as [?|(p' & ? & ? & ?)]; [by left|right]. exists e, p'. split; [by left|done].
      * right. exists e', p'. split; [by right|done].
Qed.

Lemma extract_complete a root f f' : extract a root f = (f', true) -> complete a root f'.
Proof.
  unfold extract. destruct (a_known a); cbn [negb]; [|done].
  destruct (mkdir_all root (remove_all root f)) as [f1|] eqn:Em; [|done].
  destruct (extract_all root (a_entries a) f1) as [f2 b] eqn:Ee. intros [= <- Hb].
  apply andb_true_iff in Hb as [-> _].
  pose proof (mkdir_root _ _ _ Em) as Hd.
  destruct (all_inside _ _ _ _ _ Hd Ee) as [Hd2 _]. destruct (all_step _ _ _ _ Hd Ee) as (H1 & H2 & H3).
  split; [|split].
  - apply Hd2. exists []. by rewrite app_nil_r.
  - intros e He. destruct (H1 e He) as (p & Hp & Hk). exists (split_slash (en_name e)), p.
    split; [apply pieces_split|done].
  - intros p c Hf. destruct (H3 _ _ Hf) as [Hf1|(e & p' & He & Ep & Hk & Hn)].
    + exfalso. destruct (mkdir_spec _ _ _ Em) as (M1 & M2 & _).
      destruct (below (root ++ p)%list root) eqn:E.
      * apply below_spec in E. rewrite M1 in Hf1 by done. discriminate Hf1.
      * rewrite M2 in Hf1 by (rewrite <- below_spec; congruence). unfold remove_all in Hf1.
        assert (below root (root ++ p)%list = true) as Hb by (apply below_spec; by exists p).
        rewrite Hb in Hf1. discriminate Hf1.
    + apply app_inv_head in Ep as <-. exists e, (split_slash (en_name e)).
      split; [done|]. split; [done|]. split; [apply pieces_split|done].
Qed.

(** C65 *)
Lemma untar_complete a dir f f' : f dir <> Some Dir -> untar a dir f = (f', true) -> complete a dir f'.
Proof.
  intros Hd. unfold untar, fs_dir_exists. destruct (f dir) as [[c|]|]; [|done|]; apply extract_complete.
Qed.

Lemma untar_again a dir f f' : untar a dir f = (f', true) -> untar a dir f' = (f', true).
Proof.
  unfold untar at 1. destruct (fs_dir_exists f dir) eqn:E.
  - intros [= <-]. unfold untar. by rewrite E.
  - intros H. apply extract_complete in H as [H _]. unfold untar, fs_dir_exists. by rewrite H.
Qed.
