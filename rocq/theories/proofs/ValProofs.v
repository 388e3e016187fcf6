(** Proofs about the validation tools. *)
From stdpp Require Import strings list gmap.
From Coq Require Import Ascii ZArith QArith Lia Lqa.
From Verif.model Require Import GoStr Fs Start Valtools.
From Verif.spec Require Import StrSpec ExtractSpec ConfigSpec StartSpec ValSpec.
From Verif.proofs Require Import GoStrLemmas FsProofs ExtractProofs StartProofs.

Local Open Scope string_scope.
Local Arguments Ascii.eqb : simpl never.
Local Arguments char_eqb : simpl never.

(** * checkmat *)

Lemma plain_bool x : (forall a b, x <> a +:+ "/" +:+ b) ->
  negb (x =? "") && negb (x =? ".") && negb (x =? "..") = true <-> plain_name x.
Proof.
  intros H. apply no_slash_char in H. unfold plain_name. rewrite !andb_true_iff, !negb_true_iff, !String.eqb_neq.
  split; [intros [[H1 H2] H3]|intros (H1 & H2 & H3 & _)]; [|done]. split; [done|]. split; [done|]. split; [done|]. exact H.
Qed.

Lemma valid_path_names f : valid_path f = true <-> f = "." \/ exists l, names f l.
Proof.
  unfold valid_path. rewrite orb_true_iff, String.eqb_eq. split.
  - intros [H|H]; [by left|]. right. exists (split_slash f). split; [apply split_slash_nonnil|].
    split; [|by rewrite split_slash_join]. intros x Hx. rewrite forallb_forall in H.
    apply plain_bool; [by apply split_slash_clean with f|]. apply H. by apply elem_of_list_In.
  - intros [H|(l & H1 & H2 & ->)]; [by left|]. right. rewrite split_join_plain by done. rewrite forallb_forall.
    intros x Hx. apply elem_of_list_In in Hx. pose proof (H2 x Hx) as Hp. apply plain_bool; [|done].
    rewrite <- (split_join_plain l) in Hx by done. by apply split_slash_clean with (join "/" l).
Qed.

Lemma entry_files_of e x : x ∈ entry_files e <-> file_of e x.
Proof.
  unfold entry_files, file_of. rewrite !elem_of_app.
  destruct (String.eqb_spec (en_code e) "") as [E1|E1], (String.eqb_spec (en_doc e) "") as [E2|E2];
    rewrite ?elem_of_list_singleton; set_unfold; naive_solver congruence.
Qed.

Lemma before_last_dot_none s : before_last_dot s = None <-> forall a b, s <> a +:+ "." +:+ b.
Proof.
  split.
  - intros H a b ->. induction a as [|c a IH]; cbn in H.
    + destruct (before_last_dot b); [done|]. by rewrite char_eqb_refl in H.
    + apply IH. change ("." +:+ b) with (String "." b). by destruct (before_last_dot (a +:+ String "." b)).
  - intros H. induction s as [|c s IH]; [done|]. cbn. rewrite IH.
    + destruct (char_eqb c ".") eqn:E; [|done]. apply char_eqb_eq in E as ->. by destruct (H "" s).
    + intros a b ->. by destruct (H (String c a) b).
Qed.

Lemma before_last_dot_app a y : (forall u v, y <> u +:+ "." +:+ v) -> before_last_dot (a +:+ "." +:+ y) = Some a.
Proof.
  intros H. apply before_last_dot_none in H. induction a as [|c a IH]; cbn.
  - rewrite H, char_eqb_refl. done.
  - cbn in IH. by rewrite IH.
Qed.

Lemma without_ext_unique stem ext : extension stem ext -> without_ext (stem +:+ ext) = stem.
Proof.
  unfold without_ext. intros [(-> & H) | (y & -> & H)].
  - rewrite app_nil_str. apply before_last_dot_none in H. by rewrite H.
  - by rewrite before_last_dot_app.
Qed.

Lemma without_ext_ok x : exists ext, x = without_ext x +:+ ext /\ extension (without_ext x) ext.
Proof.
  unfold without_ext. destruct (before_last_dot x) as [a|] eqn:E.
  - assert (exists y, x = a +:+ "." +:+ y /\ forall u v, y <> u +:+ "." +:+ v) as (y & -> & Hy).
    { revert a E. induction x as [|c x IH]; intros a E; [done|]. cbn in E.
      destruct (before_last_dot x) as [b|] eqn:Eb; simplify_eq.
      - destruct (IH b eq_refl) as (y & -> & Hy). exists y. done.
      - destruct (char_eqb c ".") eqn:Ec; simplify_eq. apply char_eqb_eq in Ec as ->.
        exists x. split; [done|]. by apply before_last_dot_none. }
    exists ("." +:+ y). split; [done|]. right. by exists y.
  - exists "". split; [by rewrite app_nil_str|]. left. split; [done|]. by apply before_last_dot_none.
Qed.

Lemma spelled_replace s t : spelled s t <-> replace_byte "_" " " s = t.
Proof.
  split.
  - induction 1 as [|s t H IH|c s t Hc H IH]; [done| |]; cbn.
    + by rewrite char_eqb_refl, IH.
    + destruct (char_eqb c "_") eqn:E; [by apply char_eqb_eq in E|]. by rewrite IH.
  - revert t. induction s as [|c s IH]; intros t <-; [constructor|]. cbn.
    destruct (char_eqb c "_") eqn:E.
    + apply char_eqb_eq in E as ->. constructor. by apply IH.
    + apply char_eqb_neq in E. constructor; [done|]. by apply IH.
Qed.

Lemma documents_point x point : documents x point <-> replace_byte "_" " " (without_ext x) = point.
Proof.
  split.
  - intros (stem & ext & -> & H1 & H2). rewrite without_ext_unique by done. by apply spelled_replace.
  - intros H. destruct (without_ext_ok x) as (ext & H1 & H2). exists (without_ext x), ext.
    split; [done|]. split; [done|]. by apply spelled_replace.
Qed.

Lemma go_base_names l x : (forall y, y ∈ (l ++ [x])%list -> plain_name y) -> go_base (join "/" (l ++ [x])%list) = x.
Proof.
  intros H. unfold go_base. rewrite split_join_plain; [|by destruct l|done].
  assert (List.filter (fun x => negb (x =? "")) (l ++ [x]) = l ++ [x])%list as ->.
  { clear -H. induction (l ++ [x])%list as [|y k IH]; [done|]. cbn.
    destruct (H y) as [Hy _]; [by left|]. apply String.eqb_neq in Hy. rewrite Hy. cbn. f_equal. apply IH.
    intros z Hz. apply H. by right. }
  apply last_last.
Qed.

Lemma doc_point_names d l x point : names d (l ++ [x])%list -> doc_point d = point <-> documents x point.
Proof.
  intros (_ & H & ->). unfold doc_point. rewrite go_base_names by done. by rewrite documents_point.
Qed.

Lemma doc_point_plain x point : plain_name x -> doc_point x = point <-> documents x point.
Proof.
  intros H. apply (doc_point_names x []). split; [done|]. split; [|done].
  intros y Hy. by apply elem_of_list_singleton in Hy as ->.
Qed.

Lemma names_snoc f l : names f l -> exists k x, l = (k ++ [x])%list.
Proof.
  intros (H & _). destruct (exists_last H) as (k & x & E). by exists k, x.
Qed.

Lemma names_join top f l : names f l -> join_path top f = (top ++ l)%list.
Proof.
  intros (H1 & H2 & ->). pose proof (plain_resolve top l H1 H2) as E. unfold Start.resolve in E.
  destruct l as [|x l]; [done|]. rewrite prefix_slash_split in E; [done| |].
  - apply H2. by left.
  - destruct (H2 x) as (_ & _ & _ & Hx); [by left|]. exact Hx.
Qed.

Lemma under_file_blocked f p : forall q, under_file f q p = true <-> exists a x r c, p = (a ++ x :: r)%list /\ f (q ++ a)%list = Some (File c).
Proof.
  induction p as [|x p IH]; intros q; cbn.
  - split; [done|]. intros (a & x & r & c & E & _). by destruct a.
  - destruct (f q) as [[c|]|] eqn:E.
    + split; [|done]. intros _. exists [], x, p, c. rewrite app_nil_r. done.
    + rewrite IH. split.
      * intros (a & y & r & c & -> & H). exists (x :: a), y, r, c. split; [done|]. by rewrite <- app_assoc in H.
      * intros (a & y & r & c & E1 & H). destruct a as [|z a]; [rewrite app_nil_r in H; congruence|].
        injection E1 as -> ->. exists a, y, r, c. split; [done|]. by rewrite <- app_assoc.
    + rewrite IH. split.
      * intros (a & y & r & c & -> & H). exists (x :: a), y, r, c. split; [done|]. by rewrite <- app_assoc in H.
      * intros (a & y & r & c & E1 & H). destruct a as [|z a]; [rewrite app_nil_r in H; congruence|].
        injection E1 as -> ->. exists a, y, r, c. split; [done|]. by rewrite <- app_assoc.
Qed.

Lemma stat_error f p : stat f p = StatError <-> blocked f p.
Proof.
  unfold stat, blocked. destruct (under_file f [] p) eqn:E.
  - split; [|done]. intros _. by apply under_file_blocked in E.
  - split; [by destruct (f p)|]. intros H. apply not_true_iff_false in E. destruct E. by apply under_file_blocked.
Qed.

Lemma stat_missing f p : stat f p = StatMissing <-> ~ blocked f p /\ f p = None.
Proof.
  rewrite <- stat_error. unfold stat. destruct (under_file f [] p), (f p); naive_solver.
Qed.

Lemma check_files_error f top l : (check_files f top l).2 = true <-> exists x, x ∈ l /\ blocked f (join_path top x).
Proof.
  induction l as [|x l IH]; cbn.
  - split; [done|]. intros (x & H & _). by apply elem_of_nil in H.
  - destruct (stat f (join_path top x)) eqn:E.
    + rewrite IH. assert (~ blocked f (join_path top x)) by (rewrite <- stat_error; congruence). set_solver.
    + destruct (check_files f top l) as [is e]. cbn in *. rewrite IH.
      assert (~ blocked f (join_path top x)) by (rewrite <- stat_error; congruence). set_solver.
    + apply stat_error in E. split; [|done]. intros _. exists x. split; [by left|done].
Qed.

Lemma check_files_in f top l : (check_files f top l).2 = false -> forall m,
  m ∈ (check_files f top l).1 <-> exists x, x ∈ l /\ m = NoSuchFile (join_path top x) /\ f (join_path top x) = None.
Proof.
  induction l as [|x l IH]; cbn.
  - intros _ m. split; [intros H; by apply elem_of_nil in H|]. intros (x & H & _). by apply elem_of_nil in H.
  - destruct (stat f (join_path top x)) eqn:E; intros H m.
    + rewrite IH by done. assert (f (join_path top x) <> None).
      { unfold stat in E. destruct (under_file f [] (join_path top x)), (f (join_path top x)); done. } set_solver.
    + destruct (check_files f top l) as [is e]. cbn in *. rewrite elem_of_cons, IH by done.
      apply stat_missing in E as [_ E]. set_solver.
    + done.
Qed.

Lemma check_names_in es m : m ∈ check_names es <-> exists e x, e ∈ es /\ file_of e x /\ valid_path x = false /\ m = BadName x.
Proof.
  unfold check_names. rewrite elem_of_list_In, in_flat_map. split.
  - intros (e & He & Hm). apply in_map_iff in Hm as (x & <- & Hx). apply filter_In in Hx as [Hx Hv].
    exists e, x. rewrite elem_of_list_In, <- entry_files_of, elem_of_list_In. by rewrite negb_true_iff in Hv.
  - intros (e & x & He & Hx & Hv & ->). exists e. split; [by apply elem_of_list_In|]. apply in_map_iff. exists x.
    split; [done|]. apply filter_In. rewrite <- elem_of_list_In, entry_files_of, Hv. done.
Qed.

Lemma check_docs_in es m : m ∈ check_docs es <->
  exists e, e ∈ es /\ en_skip e = false /\ doc_point (en_doc e) <> en_point e /\ m = Mismatch (en_point e) (en_doc e).
Proof.
  unfold check_docs. rewrite elem_of_list_In, in_map_iff. split.
  - intros (e & <- & H). apply filter_In in H as [H1 H2]. apply andb_true_iff in H2 as [H2 H3].
    apply negb_true_iff in H2. apply negb_true_iff, String.eqb_neq in H3. exists e. by rewrite elem_of_list_In.
  - intros (e & H1 & H2 & H3 & ->). exists e. split; [done|]. apply filter_In. split; [by apply elem_of_list_In|].
    apply String.eqb_neq in H3. by rewrite H2, H3.
Qed.

Lemma check_twice_in es : forall seen m, m ∈ check_twice seen es <->
  exists e, m = Twice (en_point e) /\
    ((e ∈ es /\ en_point e ∈ seen) \/ exists a b c e', es = (a ++ e :: b ++ e' :: c)%list /\ en_point e = en_point e').
Proof.
  induction es as [|x es IH]; intros seen m; cbn.
  - split; [intros H; by apply elem_of_nil in H|].
    intros (e & _ & [[H _]|(a & b & c & e' & H & _)]); [by apply elem_of_nil in H|by destruct a].
  - case_bool_decide as Hx.
    + rewrite elem_of_cons, IH. split.
      * intros [-> | (e & -> & H)]; [exists x; split; [done|]; left; split; [by left|done]|].
        exists e. split; [done|]. destruct H as [[H1 H2]|(a & b & c & e' & -> & H)]; [left; split; [by right|done]|].
        right. exists (x :: a), b, c, e'. done.
      * intros (e & -> & H). destruct H as [[H1 H2]|(a & b & c & e' & E & H)].
        -- apply elem_of_cons in H1 as [-> | H1]; [by left|]. right. exists e. split; [done|]. by left.
        -- destruct a as [|y a]; injection E as -> ->; [by left|]. right. exists e. split; [done|]. right. by exists a, b, c, e'.
    + rewrite IH. split.
      * intros (e & -> & H). destruct H as [[H1 H2]|(a & b & c & e' & -> & H)].
        -- apply elem_of_cons in H2 as [H2|H2].
           ++ apply elem_of_list_split in H1 as (l1 & l2 & ->). exists x. rewrite H2. split; [done|]. right.
              exists [], l1, l2, e. done.
           ++ exists e. split; [done|]. left. split; [by right|done].
        -- exists e. split; [done|]. right. exists (x :: a), b, c, e'. done.
      * intros (e & -> & H). destruct H as [[H1 H2]|(a & b & c & e' & E & H)].
        -- apply elem_of_cons in H1 as [-> | H1]; [done|]. exists e. split; [done|]. left. split; [done|by right].
        -- destruct a as [|y a]; injection E as -> ->.
           ++ exists e'. rewrite H. split; [done|]. left. split; [|by left]. apply elem_of_app. right. by left.
           ++ exists e. split; [done|]. right. by exists a, b, c, e'.
Qed.

Lemma check_entries_in es docs m : m ∈ check_entries es docs <->
  exists x, x ∈ docs /\ (forall e, e ∈ es -> doc_point x <> en_point e) /\ m = NoEntry x.
Proof.
  unfold check_entries. rewrite elem_of_list_In, in_map_iff. split.
  - intros (x & <- & H). apply filter_In in H as [H1 H2]. apply negb_true_iff, bool_decide_eq_false in H2.
    exists x. split; [by apply elem_of_list_In|]. split; [|done]. intros e He E. apply H2. rewrite E.
    apply elem_of_list_In, in_map. by apply elem_of_list_In.
  - intros (x & H1 & H2 & ->). exists x. split; [done|]. apply filter_In. split; [by apply elem_of_list_In|].
    apply negb_true_iff, bool_decide_eq_false. intros H. apply elem_of_list_In, in_map_iff in H as (e & E & He).
    by apply (H2 e); [apply elem_of_list_In|].
Qed.

(** The messages of a complete check. *)
Lemma check_matrix_in es docs top f out : check_matrix (Some es) (Some docs) top f = (out, false) -> forall m,
  m ∈ out <-> m ∈ check_names es \/ m ∈ (check_files f top (flat_map entry_files es)).1 \/ m ∈ check_docs es \/
    m ∈ check_twice [] es \/ m ∈ check_entries es docs.
Proof.
  unfold check_matrix. destruct (check_files f top (flat_map entry_files es)) as [is [|]]; [done|].
  intros [= <-] m. rewrite !elem_of_app. cbn. tauto.
Qed.

Lemma check_matrix_error es docs top f : (check_matrix (Some es) (Some docs) top f).2 = true <->
  (check_files f top (flat_map entry_files es)).2 = true.
Proof. unfold check_matrix. by destruct (check_files f top (flat_map entry_files es)) as [is [|]]. Qed.

Lemma all_files es x : x ∈ flat_map entry_files es <-> exists e, e ∈ es /\ file_of e x.
Proof.
  rewrite elem_of_list_In, in_flat_map. split; intros (e & H1 & H2); exists e.
  - rewrite elem_of_list_In, <- entry_files_of, elem_of_list_In. done.
  - rewrite <- elem_of_list_In, <- elem_of_list_In, entry_files_of. done.
Qed.

(** No problem is missed; an error is only returned for a file that is blocked. *)
Lemma problem_written es docs top f out m :
  (forall e, e ∈ es -> en_skip e = false -> en_doc e = "" -> en_point e <> "") ->
  (forall e, e ∈ es -> ~ file_of e ".") -> (forall x, x ∈ docs -> plain_name x) ->
  check_matrix (Some es) (Some docs) top f = (out, false) -> problem es docs top f m -> m ∈ out.
Proof.
  intros Hblank Hdot Hdocs E Hm. rewrite (check_matrix_in _ _ _ _ _ E).
  destruct Hm as [e x He Hx Hn|e x l He Hx Hn Hf|e l x He Hs Hn Hd|e He Hs Hd|a e1 b e2 c Hes Hp|x Hx Hn].
  - left. apply check_names_in. exists e, x. split; [done|]. split; [done|]. split; [|done].
    apply not_true_iff_false. intros [-> | [l Hl]]%valid_path_names; [by apply (Hdot e)|by apply (Hn l)].
  - right. left. apply check_files_in.
    + pose proof (check_matrix_error es docs top f) as H. rewrite E in H. cbn in H.
      destruct (check_files f top (flat_map entry_files es)).2; [|done]. by destruct (proj2 H eq_refl).
    + exists x. rewrite (names_join top x l) by done. split; [|done]. apply all_files. by exists e.
  - right. right. left. apply check_docs_in. exists e. split; [done|]. split; [done|]. split; [|done].
    by rewrite (doc_point_names _ l x).
  - right. right. left. apply check_docs_in. exists e. split; [done|]. split; [done|]. rewrite Hd. split; [|done].
    change (doc_point "") with "". intros H. by apply (Hblank e).
  - right. right. right. left. apply check_twice_in. exists e1. split; [done|]. right. by exists a, b, c, e2.
  - right. right. right. right. apply check_entries_in. exists x. split; [done|]. split; [|done]. intros e He.
    rewrite doc_point_plain by by apply Hdocs. by apply Hn.
Qed.

(** Every message is about a problem, unless a file name is invalid. *)
Lemma written_problem es docs top f out m :
  (forall x, x ∈ docs -> plain_name x) ->
  check_matrix (Some es) (Some docs) top f = (out, false) -> m ∈ out ->
  problem es docs top f m \/ exists x, problem es docs top f (BadName x).
Proof.
  intros Hdocs E Hm. rewrite (check_matrix_in _ _ _ _ _ E) in Hm.
  assert (Hv : forall e x, e ∈ es -> file_of e x -> (exists l, names x l) \/ problem es docs top f (BadName x)).
  { intros e x He Hx. destruct (valid_path x) eqn:Ev.
    - apply valid_path_names in Ev as [-> | H]; [|by left]. right. apply (pb_name _ _ _ _ e); [done|done|].
      intros l (Hl & Hp & Ej). pose proof (split_join_plain l Hl Hp) as Es. rewrite <- Ej in Es.
      change (split_slash ".") with ["."] in Es. destruct (Hp ".") as (_ & H & _); [rewrite <- Es; by left|done].
    - right. apply (pb_name _ _ _ _ e); [done|done|]. intros l Hl. apply not_true_iff_false in Ev. apply Ev.
      apply valid_path_names. right. by exists l. }
  destruct Hm as [Hm|[Hm|[Hm|[Hm|Hm]]]].
  - apply check_names_in in Hm as (e & x & He & Hx & Hn & ->). left. apply (pb_name _ _ _ _ e); [done|done|].
    intros l Hl. apply not_true_iff_false in Hn. apply Hn. apply valid_path_names. right. by exists l.
  - pose proof (check_matrix_error es docs top f) as H. rewrite E in H. cbn in H.
    apply check_files_in in Hm as (x & Hx & -> & Hf).
    + apply all_files in Hx as (e & He & Hx). destruct (Hv e x He Hx) as [[l Hl]|Hb]; [|right; by exists x].
      rewrite (names_join top x l) in Hf |- * by done. left. by apply (pb_file _ _ _ _ e x l).
    + destruct (check_files f top (flat_map entry_files es)).2; [|done]. by destruct (proj2 H eq_refl).
  - apply check_docs_in in Hm as (e & He & Hs & Hd & ->).
    destruct (decide (en_doc e = "")) as [E1|E1].
    { left. rewrite E1. by apply pb_no_doc. }
    destruct (Hv e (en_doc e) He) as [[l Hl]|Hb]; [left; split; [done|by right]| |right; by exists (en_doc e)].
    destruct (names_snoc _ _ Hl) as (k & x & ->). left. apply (pb_doc _ _ _ _ e k x); [done|done|done|].
    intros H. apply Hd. by apply (doc_point_names _ k x).
  - apply check_twice_in in Hm as (e & -> & [[_ H]|(a & b & c & e' & H1 & H2)]); [by apply elem_of_nil in H|].
    left. by apply (pb_twice _ _ _ _ a e b e' c).
  - apply check_entries_in in Hm as (x & Hx & Hn & ->). left. apply pb_entry; [done|]. intros e He H.
    apply (Hn e He). apply doc_point_plain; [by apply Hdocs|done].
Qed.

Lemma checkmat_status matrix docs top f :
  (forall es e, matrix = Some es -> e ∈ es -> en_skip e = false -> en_doc e = "" -> en_point e <> "") ->
  (forall es e, matrix = Some es -> e ∈ es -> ~ file_of e ".") ->
  (forall l x, docs = Some l -> x ∈ l -> plain_name x) ->
  checkmat_exit (check_matrix matrix docs top f) = 0%Z <->
  exists es l, matrix = Some es /\ docs = Some l /\
    (forall e x k, e ∈ es -> file_of e x -> names x k -> ~ blocked f (top ++ k)%list) /\
    (forall m, ~ problem es l top f m).
Proof.
  intros Hblank Hdot Hdocs. split.
  - destruct matrix as [es|]; [|done]. destruct docs as [l|].
    2:{ unfold check_matrix. by destruct (check_files f top (flat_map entry_files es)) as [is [|]]. }
    intros H. exists es, l. split; [done|]. split; [done|].
    destruct (check_matrix (Some es) (Some l) top f) as [out [|]] eqn:E; [done|].
    destruct out as [|m out]; [|done]. split.
    + intros e x k He Hx Hn Hb. pose proof (check_matrix_error es l top f) as H1. rewrite E in H1. cbn in H1.
      assert (H2 : (check_files f top (flat_map entry_files es)).2 = true); [|by apply H1 in H2].
      apply check_files_error. exists x. split; [apply all_files; by exists e|]. by rewrite (names_join top x k).
    + intros m Hm. apply (problem_written es l top f [] m) in Hm; [by apply elem_of_nil in Hm| | | |done].
      * intros. by eapply Hblank.
      * intros. by eapply Hdot.
      * intros. by eapply Hdocs.
  - intros (es & l & -> & -> & Hb & Hn).
    assert (Hv : forall e x, e ∈ es -> file_of e x -> exists k, names x k).
    { intros e x He Hx. destruct (valid_path x) eqn:Ev.
      - apply valid_path_names in Ev as [-> | H]; [|done]. by destruct (Hdot es e eq_refl He Hx).
      - destruct (Hn (BadName x)). apply (pb_name _ _ _ _ e); [done|done|]. intros k Hk.
        apply not_true_iff_false in Ev. apply Ev. apply valid_path_names. right. by exists k. }
    destruct (check_matrix (Some es) (Some l) top f) as [out b] eqn:E. destruct b.
    + pose proof (check_matrix_error es l top f) as H1. rewrite E in H1. cbn in H1.
      pose proof (proj1 H1 eq_refl) as H2. apply check_files_error in H2 as (x & Hx & Hbl). apply all_files in Hx as (e & He & Hx).
      destruct (Hv e x He Hx) as [k Hk]. rewrite (names_join top x k) in Hbl by done. by destruct (Hb e x k).
    + destruct out as [|m out]; [done|].
      destruct (written_problem es l top f (m :: out) m) as [H|[x H]]; [|done|by left|by apply Hn in H|by apply Hn in H].
      intros. by eapply Hdocs.
Qed.

(** * fmttests *)

Definition named_as (a : string) (e : event) : bool := negb (ev_test e =? "") && (ev_action e =? a).

Lemma has_slash_subtest s : has_slash s = true <-> subtest s.
Proof. unfold has_slash, subtest. apply contains_true. Qed.

Lemma package_base_last s : last_element s (package_base s).
Proof.
  unfold package_base. destruct (exists_last (split_slash_nonnil s)) as (k & x & E). rewrite E, last_last. split.
  - apply split_slash_clean with s. rewrite E. apply elem_of_app. right. by left.
  - rewrite <- (split_slash_join s), E. clear E. induction k as [|y k IH]; [by left|]. right.
    assert (join "/" ((y :: k) ++ [x]) = y +:+ "/" +:+ join "/" (k ++ [x])%list) as -> by (by destruct k).
    destruct IH as [E|[a E]].
    + exists y. by rewrite E.
    + exists (y +:+ "/" +:+ a). rewrite E. by rewrite !app_assoc_str.
Qed.

Lemma visible_result subtests e w : visible subtests e w ->
  named_as "fail" e = true /\ w = "failed" \/ named_as "pass" e = true /\ w = "passed" \/ named_as "skip" e = true /\ w = "skipped".
Proof.
  intros (H1 & H2 & _). unfold named_as. apply String.eqb_neq in H1. rewrite H1. unfold result_word in H2.
  destruct (ev_action e =? "fail") eqn:E1; [left; split; [done|congruence]|].
  destruct (ev_action e =? "pass") eqn:E2; [right; left; split; [done|congruence]|].
  destruct (ev_action e =? "skip") eqn:E3; [right; right; split; [done|congruence]|]. done.
Qed.

Definition lines_ok (before : list event) (lines : gmap (string * string) (list string)) : Prop :=
  forall p t, t <> "" -> default [] (lines !! (p, t)) = output_of p t before.

Lemma output_of_snoc p t before e : output_of p t (before ++ [e])%list =
  (output_of p t before ++ (if (ev_action e =? "output") && (ev_package e =? p) && (ev_test e =? t) then [ev_output e] else []))%list.
Proof.
  unfold output_of. rewrite List.filter_app, map_app. f_equal. cbn.
  by destruct ((ev_action e =? "output") && (ev_package e =? p) && (ev_test e =? t)).
Qed.

(** One record. *)
Lemma process_event_ok subtests e r lines before : lines_ok before lines -> (ev_test e <> "" -> known e) ->
  exists r' lines' shown, process_event subtests e r lines = Some (r', lines') /\
    tr_failed r' = (tr_failed r ++ (if named_as "fail" e then [ev_test e] else []))%list /\
    tr_passed r' = (tr_passed r ++ (if named_as "pass" e then [ev_test e] else []))%list /\
    tr_skipped r' = (tr_skipped r ++ (if named_as "skip" e then [ev_test e] else []))%list /\
    tr_out r' = (tr_out r ++ shown)%list /\ displays subtests [e] shown /\
    tr_err r' = (tr_err r ++ (if named_as "fail" e then output_of (ev_package e) (ev_test e) before else []))%list /\
    lines_ok (before ++ [e])%list lines'.
Proof.
  intros Hl Hk. unfold process_event.
  destruct (String.eqb_spec (ev_test e) "") as [Et|Et].
  { exists r, lines, []. assert (forall a, named_as a e = false) as Hn by (intros a; unfold named_as; by rewrite Et).
    rewrite !Hn, !app_nil_r. split; [done|]. split; [done|]. split; [done|]. split; [done|]. split; [done|]. split.
    { apply dp_hidden; [|constructor]. intros w (H & _). done. }
    split; [done|]. intros p t Ht. rewrite output_of_snoc. rewrite (Hl p t Ht).
    assert ((ev_test e =? t) = false) as -> by (apply String.eqb_neq; congruence). by rewrite andb_false_r, app_nil_r. }
  specialize (Hk Et). unfold known in Hk.
  assert (Hn : forall a, named_as a e = (ev_action e =? a)).
  { intros a. unfold named_as. apply String.eqb_neq in Et. by rewrite Et. }
  assert (Hnot : (ev_action e =? "output") = false -> lines_ok (before ++ [e])%list lines).
  { intros Ho p t Ht. rewrite output_of_snoc, Ho. cbn [andb]. rewrite app_nil_r. by apply Hl. }
  assert (Hline : forall w b, visible subtests e w -> b = package_base (ev_package e) -> displays subtests [e] [(b, ev_test e, w)]).
  { intros w b Hw ->. apply dp_line; [done|apply package_base_last|constructor]. }
  assert (Hhid : (forall w, result_word (ev_action e) <> Some w) -> displays subtests [e] []).
  { intros H. apply dp_hidden; [|constructor]. intros w (_ & H2 & _). by apply (H w). }
  rewrite !Hn.
  repeat (apply elem_of_cons in Hk as [Hk|Hk]); [..|by apply elem_of_nil in Hk]; rewrite Hk in *; cbn.
  - eexists _, lines, [(package_base (ev_package e), ev_test e, "failed")]. split; [done|]. cbn. rewrite !app_nil_r.
    split; [done|]. split; [done|]. split; [done|]. split; [unfold show; by rewrite orb_true_r|].
    split; [apply Hline; [|done]; split; [done|]; rewrite Hk; done|]. split; [by rewrite Hl|]. by apply Hnot.
  - destruct (subtests || negb (has_slash (ev_test e))) eqn:Es.
    + eexists _, lines, [(package_base (ev_package e), ev_test e, "passed")]. split; [done|]. cbn. rewrite !app_nil_r.
      split; [done|]. split; [done|]. split; [done|]. split; [unfold show; rewrite orb_false_r; by rewrite Es|].
      split; [|split; [done|by apply Hnot]]. apply Hline; [|done]. split; [done|]. rewrite Hk. split; [done|].
      intros _ -> Hs. cbn in Es. apply has_slash_subtest in Hs. by rewrite Hs in Es.
    + eexists _, lines, []. split; [done|]. cbn. rewrite !app_nil_r.
      split; [done|]. split; [done|]. split; [done|]. split; [unfold show; rewrite orb_false_r; by rewrite Es|].
      split; [|split; [done|by apply Hnot]]. apply dp_hidden; [|constructor]. intros w (_ & H2 & H3).
      rewrite Hk in H2. change (result_word "pass") with (Some "passed") in H2. injection H2 as <-. apply orb_false_iff in Es as [Es1 Es2].
      apply negb_false_iff in Es2. apply has_slash_subtest in Es2. by apply H3.
  - eexists _, lines, [(package_base (ev_package e), ev_test e, "skipped")]. split; [done|]. cbn. rewrite !app_nil_r.
    split; [done|]. split; [done|]. split; [done|]. split; [unfold show; by rewrite orb_true_r|].
    split; [apply Hline; [|done]; split; [done|]; rewrite Hk; done|]. split; [done|]. by apply Hnot.
  - eexists r, _, []. split; [done|]. rewrite !app_nil_r. split; [done|]. split; [done|]. split; [done|]. split; [done|].
    split; [by apply Hhid|]. split; [done|]. intros p t Ht. rewrite output_of_snoc, Hk.
    destruct (decide ((ev_package e, ev_test e) = (p, t))) as [E|E].
    + simplify_eq. rewrite lookup_insert, !String.eqb_refl. cbn. by rewrite Hl.
    + rewrite lookup_insert_ne by done. rewrite Hl by done.
      destruct (String.eqb_spec (ev_package e) p), (String.eqb_spec (ev_test e) t); cbn; rewrite ?app_nil_r; try done.
      by subst.
  - exists r, lines, []. rewrite !app_nil_r. split; [done|]. split; [done|]. split; [done|]. split; [done|]. split; [done|].
    split; [by apply Hhid|]. split; [done|by apply Hnot].
  - exists r, lines, []. rewrite !app_nil_r. split; [done|]. split; [done|]. split; [done|]. split; [done|]. split; [done|].
    split; [by apply Hhid|]. split; [done|by apply Hnot].
  - exists r, lines, []. rewrite !app_nil_r. split; [done|]. split; [done|]. split; [done|]. split; [done|]. split; [done|].
    split; [by apply Hhid|]. split; [done|by apply Hnot].
  - exists r, lines, []. rewrite !app_nil_r. split; [done|]. split; [done|]. split; [done|]. split; [done|]. split; [done|].
    split; [by apply Hhid|]. split; [done|by apply Hnot].
Qed.

Lemma displays_cons subtests e es a b : displays subtests [e] a -> displays subtests es b -> displays subtests (e :: es) (a ++ b)%list.
Proof.
  intros Ha Hb. inversion Ha as [|? ? ? H1 H2|? ? ? ? ? H1 H2 H3]; subst.
  - inversion H2; subst. by apply dp_hidden.
  - inversion H3; subst. by apply dp_line.
Qed.

Lemma process_events_ok subtests es : forall r lines before, lines_ok before lines ->
  (forall e, e ∈ es -> ev_test e <> "" -> known e) ->
  exists r' shown, process_events subtests (map Some es) true r lines = (r', false) /\
    tr_failed r' = (tr_failed r ++ map ev_test (List.filter (named_as "fail") es))%list /\
    tr_passed r' = (tr_passed r ++ map ev_test (List.filter (named_as "pass") es))%list /\
    tr_skipped r' = (tr_skipped r ++ map ev_test (List.filter (named_as "skip") es))%list /\
    tr_out r' = (tr_out r ++ shown)%list /\ displays subtests es shown /\
    tr_err r' = (tr_err r ++ failure_output before es)%list.
Proof.
  induction es as [|e es IH]; intros r lines before Hl Hk; cbn [map process_events].
  - exists r, []. cbn. rewrite !app_nil_r. split; [done|]. split; [done|]. split; [done|]. split; [done|]. split; [done|].
    split; [constructor|done].
  - destruct (process_event_ok subtests e r lines before Hl) as (r1 & l1 & s1 & -> & A1 & A2 & A3 & A4 & A5 & A6 & A7).
    { apply Hk. by left. }
    destruct (IH r1 l1 (before ++ [e])%list A7) as (r2 & s2 & -> & B1 & B2 & B3 & B4 & B5 & B6).
    { intros e' He'. apply Hk. by right. }
    exists r2, (s1 ++ s2)%list. split; [done|]. cbn [List.filter failure_output].
    rewrite B1, B2, B3, B4, B6, A1, A2, A3, A4, A6, <- !app_assoc.
    split; [by destruct (named_as "fail" e)|]. split; [by destruct (named_as "pass" e)|].
    split; [by destruct (named_as "skip" e)|]. split; [done|]. split; [by apply displays_cons|]. done.
Qed.

(** Lines that are no records, unknown actions and benchmarks, and lines that are
    too long give an error. *)
Lemma process_event_none subtests e r lines : process_event subtests e r lines = None <-> ev_test e <> "" /\ ~ known e.
Proof.
  unfold process_event, known. destruct (String.eqb_spec (ev_test e) "") as [Et|Et]; [naive_solver|].
  repeat match goal with |- context [ev_action e =? ?a] => destruct (String.eqb_spec (ev_action e) a) as [E|?]; [rewrite ?E; try (split; [done|intros [_ H]; destruct H; set_solver])|] end; cbn.
  all: set_solver.
Qed.

Lemma process_events_error subtests es : forall ok r lines, (process_events subtests es ok r lines).2 = true <->
  ok = false \/ None ∈ es \/ exists e, Some e ∈ es /\ ev_test e <> "" /\ ~ known e.
Proof.
  induction es as [|[e|] es IH]; intros ok r lines; cbn.
  - rewrite negb_true_iff. set_solver.
  - destruct (process_event subtests e r lines) as [[r' l']|] eqn:E.
    + rewrite IH. assert (~ (ev_test e <> "" /\ ~ known e)) by (rewrite <- (process_event_none subtests e r lines); congruence).
      set_solver.
    + apply process_event_none in E. split; [|done]. intros _. right. right. exists e. split; [by left|done].
  - split; [|done]. intros _. right. left. by left.
Qed.

Lemma filter_nil {A} (f : A -> bool) l : List.filter f l = [] <-> forall x, x ∈ l -> f x = false.
Proof.
  induction l as [|x l IH]; cbn; [set_solver|]. destruct (f x) eqn:E; [split; [done|]; intros H; rewrite H in E; set_solver|].
  rewrite IH. set_solver.
Qed.

(** * filecov *)

Local Arguments sum : simpl never.

Lemma sum_nil : sum [] = 0%N.
Proof. done. Qed.

Lemma sum_cons x l : sum (x :: l) = (x + sum l)%N.
Proof. done. Qed.

Ltac sums := cbn; rewrite ?sum_nil, ?sum_cons.

Lemma fold_add l : forall a, fold_left N.add l a = (a + sum l)%N.
Proof. induction l as [|x l IH]; intros a; [sums; lia|]. cbn [fold_left]. rewrite IH. rewrite sum_cons. lia. Qed.

Lemma tally_counts p : tally_covered p = (executed p, statements p).
Proof.
  unfold tally_covered, executed, statements. destruct p as [f bs]. cbn.
  assert (H : forall a b, fold_left (fun t b => ((if (0 <? b.2) then t.1 + b.1 else t.1), t.2 + b.1)%N) bs (a, b) =
    ((a + sum (map fst (List.filter (fun b => negb (b.2 =? 0)%N) bs)))%N, (b + sum (map fst bs))%N)).
  { induction bs as [|[n c] bs IH]; intros a b; [sums; f_equal; lia|]. cbn [fold_left]. rewrite IH.
    cbn. destruct (N.ltb_spec 0 c), (N.eqb_spec c 0); try lia; sums; f_equal; lia. }
  rewrite H. f_equal.
Qed.

Lemma inject_N_pos n : n <> 0%N -> (0 < inject_Z (Z.of_N n))%Q.
Proof. intros H. change 0%Q with (inject_Z 0). rewrite <- Zlt_Qlt. lia. Qed.

Lemma percent_ok part whole : is_percentage (percent part whole) part whole.
Proof.
  unfold percent, is_percentage. destruct (N.eqb_spec whole 0) as [->|H]; [by left|]. right. split; [done|].
  apply inject_N_pos in H. field. lra.
Qed.

Lemma percentage_range q part whole : is_percentage q part whole -> (part <= whole)%N -> (0 <= q <= 100)%Q.
Proof.
  intros [[_ H]|[Hw H]] Hp; [lra|].
  assert (H0 : (0 < inject_Z (Z.of_N whole))%Q) by by apply inject_N_pos.
  assert (H1 : (0 <= inject_Z (Z.of_N part))%Q) by (change 0%Q with (inject_Z 0); rewrite <- Zle_Qle; lia).
  assert (H2 : (inject_Z (Z.of_N part) <= inject_Z (Z.of_N whole))%Q) by (rewrite <- Zle_Qle; lia).
  split.
  - apply Qmult_lt_0_le_reg_r with (inject_Z (Z.of_N whole)); [done|]. rewrite H. lra.
  - apply Qmult_lt_0_le_reg_r with (inject_Z (Z.of_N whole)); [done|]. rewrite H. lra.
Qed.

Lemma percentage_full q part whole : is_percentage q part whole -> whole <> 0%N -> (q == 100)%Q <-> part = whole.
Proof.
  intros [[Hw _]|[_ H]] Hn; [done|]. assert (H0 : (0 < inject_Z (Z.of_N whole))%Q) by by apply inject_N_pos. split.
  - intros E. rewrite E in H. assert (E2 : (inject_Z (Z.of_N whole) == inject_Z (Z.of_N part))%Q) by lra.
    apply N2Z.inj. symmetry. by apply inject_Z_injective.
  - intros ->. apply Qmult_inj_r with (inject_Z (Z.of_N whole)); [lra|]. rewrite H. lra.
Qed.

Lemma executed_le p : (executed p <= statements p)%N.
Proof.
  unfold executed, statements. induction (pr_blocks p) as [|[n c] bs IH]; sums; [lia|].
  destruct (negb (c =? 0)%N); sums; lia.
Qed.

Lemma executed_all p : executed p = statements p <-> forall n c, (n, c) ∈ pr_blocks p -> n = 0%N \/ c <> 0%N.
Proof.
  unfold executed, statements. induction (pr_blocks p) as [|[n c] bs IH]; sums; [set_solver|].
  assert (Hle : (sum (map fst (List.filter (fun b => negb (b.2 =? 0)%N) bs)) <= sum (map fst bs))%N).
  { clear. induction bs as [|[n c] bs IH]; sums; [lia|]. destruct (negb (c =? 0)%N); sums; lia. }
  destruct (N.eqb_spec c 0) as [->|Hc]; sums.
  - split.
    + intros E n' c' H. apply elem_of_cons in H as [[= -> ->]|H]; [left; lia|]. apply IH; [lia|done].
    + intros H. assert (n = 0%N) by (destruct (H n 0%N); [by left|done|done]). subst.
      assert (sum (map fst (List.filter (fun b => negb (b.2 =? 0)%N) bs)) = sum (map fst bs)); [|lia].
      apply IH. intros n c Hb. apply H. by right.
  - split.
    + intros E n' c' H. apply elem_of_cons in H as [[= -> ->]|H]; [by right|]. apply IH; [lia|done].
    + intros H. assert (sum (map fst (List.filter (fun b => negb (b.2 =? 0)%N) bs)) = sum (map fst bs)); [|lia].
      apply IH. intros n' c' Hb. apply H. by right.
Qed.

Lemma percent_covered_spec ps :
  is_percentage (cv_overall (percent_covered ps)) (sum (map executed ps)) (sum (map statements ps)) /\
  cv_files (percent_covered ps) = map (fun p => (pr_file p, percent (executed p) (statements p))) ps.
Proof.
  unfold percent_covered. cbn. rewrite !fold_add, !map_map.
  rewrite (map_ext _ (fun p => executed p)) by (intros; by rewrite tally_counts).
  rewrite (map_ext (fun x => (tally_covered x).2) (fun p => statements p)) by (intros; by rewrite tally_counts).
  split; [apply percent_ok|]. apply map_ext. intros p. by rewrite tally_counts.
Qed.

Lemma sum_executed_le ps : (sum (map executed ps) <= sum (map statements ps))%N.
Proof. induction ps as [|p ps IH]; sums; [lia|]. pose proof (executed_le p). lia. Qed.

Lemma sum_executed_all ps : sum (map executed ps) = sum (map statements ps) <->
  forall p n c, p ∈ ps -> (n, c) ∈ pr_blocks p -> n = 0%N \/ c <> 0%N.
Proof.
  induction ps as [|p ps IH]; sums; [set_solver|]. pose proof (executed_le p). pose proof (sum_executed_le ps). split.
  - intros E p' n c Hp. apply elem_of_cons in Hp as [-> | Hp].
    + apply executed_all. lia.
    + assert (E2 : sum (map executed ps) = sum (map statements ps)) by lia. by apply (proj1 IH E2).
  - intros H1. assert (executed p = statements p) by (apply executed_all; intros; eapply H1; [by left|done]).
    assert (sum (map executed ps) = sum (map statements ps)) by (apply IH; intros; eapply H1; [by right|done]). lia.
Qed.

Lemma shorten_mod links m lp rest file : shorten_one links (m +:+ "/") lp file = Some rest ->
  has_prefix "/" file = false \/ lp = "" ->
  file = m +:+ "/" +:+ rest \/ (rest = file /\ forall x, file <> m +:+ "/" +:+ x).
Proof.
  unfold shorten_one. intros H Hf.
  assert (negb (lp =? "") && has_prefix "/" file = false) as E by (destruct Hf as [-> | ->]; [by rewrite andb_false_r|done]).
  rewrite E in H. injection H as <-. unfold trim_prefix. destruct (cut_prefix (m +:+ "/") file) as [r|] eqn:Ec.
  - left. apply cut_prefix_Some in Ec. by rewrite <- app_assoc_str.
  - right. split; [done|]. intros x ->. rewrite <- app_assoc_str, cut_prefix_app in Ec. done.
Qed.

Lemma trim_prefix_cases m g : g = m +:+ "/" +:+ trim_prefix (m +:+ "/") g \/
  (trim_prefix (m +:+ "/") g = g /\ forall x, g <> m +:+ "/" +:+ x).
Proof.
  unfold trim_prefix. destruct (cut_prefix (m +:+ "/") g) as [r|] eqn:Ec.
  - left. apply cut_prefix_Some in Ec. by rewrite <- app_assoc_str.
  - right. split; [done|]. intros x ->. rewrite <- app_assoc_str, cut_prefix_app in Ec. done.
Qed.

Lemma shorten_none links m top f : shorten_one links (m +:+ "/") (top +:+ "/") f = None <->
  (exists r, f = "/" +:+ r) /\ links f = None.
Proof.
  unfold shorten_one. assert (negb (String.eqb (top +:+ "/") "") = true) as -> by (by destruct top). cbn [andb].
  rewrite <- has_prefix_true. destruct (has_prefix "/" f); [|by split; [|intros [? _]]].
  destruct (links f); by split; [|intros [_ ?]].
Qed.

Lemma filter_nil_iff a (es : list event) : List.filter (named_as a) es = [] <-> forall e, e ∈ es -> ev_test e <> "" -> ev_action e <> a.
Proof.
  rewrite filter_nil. unfold named_as. split; intros H e He.
  - specialize (H e He). intros Ht. apply andb_false_iff in H as [H|H].
    + by apply negb_false_iff, String.eqb_eq in H.
    + by apply String.eqb_neq in H.
  - destruct (String.eqb_spec (ev_test e) "") as [|Ht]; [done|]. by apply String.eqb_neq, H.
Qed.

Lemma find_named a (es : list event) : ~ (forall e, e ∈ es -> ev_test e <> "" -> ev_action e <> a) ->
  exists e, e ∈ es /\ ev_test e <> "" /\ ev_action e = a.
Proof.
  intros H. rewrite <- filter_nil_iff in H. destruct (List.filter (named_as a) es) as [|e l] eqn:E; [done|].
  assert (He : In e (List.filter (named_as a) es)) by (rewrite E; by left). apply filter_In in He as [He Hn].
  unfold named_as in Hn. apply andb_true_iff in Hn as [H1 H2]. apply negb_true_iff, String.eqb_neq in H1.
  apply String.eqb_eq in H2. exists e. by rewrite elem_of_list_In.
Qed.
