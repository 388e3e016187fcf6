(** Proofs for P_TestLogs. *)
From stdpp Require Import strings list gmap sorting.
From Coq Require Import Ascii ZArith NArith Lia.
From Verif.model Require Import GoStr Nexus RepoDb Graph Origins Logging Json Records TestLogs.
From Verif.spec Require Import EnvSpec PlanSpec JsonSpec RecordsSpec TestLogsSpec.
From Verif.proofs Require Import GoStrLemmas DerivedProofs JsonProofs RecordsProofs Exact8Proofs.

Local Open Scope string_scope.

(** ** The order *)

Definition msg_key (m : set_msg) : list string :=
  [sm_pkg m; sm_version m; sm_repo m; sm_relationship m; type_word (sm_type m)].

Fixpoint lex (l l' : list string) : comparison :=
  match l, l' with
  | x :: r, y :: r' => match String.compare x y with Eq => lex r r' | c => c end
  | [], [] => Eq
  | [], _ => Lt
  | _, [] => Gt
  end.

Lemma compare_self s : String.compare s s = Eq.
Proof. pose proof (String.compare_antisym s s) as H. by destruct (String.compare s s). Qed.

Lemma compare_key a b : compare_msgs a b = lex (msg_key a) (msg_key b).
Proof.
  unfold compare_msgs, msg_key. cbn [lex].
  destruct (String.eqb_spec (sm_pkg a) (sm_pkg b)) as [->|H1]; cbn [negb].
  2:{ destruct (String.compare _ _) eqn:E; [|done..]. by apply String.compare_eq_iff in E. }
  rewrite compare_self.
  destruct (String.eqb_spec (sm_version a) (sm_version b)) as [->|H2]; cbn [negb].
  2:{ destruct (String.compare _ _) eqn:E; [|done..]. by apply String.compare_eq_iff in E. }
  rewrite compare_self.
  destruct (String.eqb_spec (sm_repo a) (sm_repo b)) as [->|H3]; cbn [negb].
  2:{ destruct (String.compare _ _) eqn:E; [|done..]. by apply String.compare_eq_iff in E. }
  rewrite compare_self.
  destruct (String.eqb_spec (sm_relationship a) (sm_relationship b)) as [->|H4]; cbn [negb].
  2:{ destruct (String.compare _ _) eqn:E; [|done..]. by apply String.compare_eq_iff in E. }
  rewrite compare_self.
  destruct (Z.eqb_spec (sm_type a) (sm_type b)) as [->|H5]; cbn [negb].
  - by rewrite compare_self.
  - by destruct (String.compare _ _).
Qed.

Lemma lex_opp l l' : lex l l' = CompOpp (lex l' l).
Proof.
  revert l'. induction l as [|x l IH]; intros [|y l']; cbn [lex]; try done.
  rewrite (String.compare_antisym x y). destruct (String.compare y x); cbn [CompOpp]; auto.
Qed.

Lemma lex_eq l l' : lex l l' = Eq -> l = l'.
Proof.
  revert l'. induction l as [|x l IH]; intros [|y l']; cbn [lex]; try done.
  destruct (String.compare x y) eqn:E; try done. apply String.compare_eq_iff in E as ->. intros H. by rewrite (IH _ H).
Qed.

Definition lex_le (l l' : list string) : Prop := lex l' l <> Lt.

Lemma compare_le a b : String.compare a b <> Gt <-> byte_le a b.
Proof. rewrite <- str_leb_spec. unfold str_leb. by destruct (String.compare a b). Qed.

Lemma compare_lt_trans a b c : String.compare a b <> Gt -> String.compare b c <> Gt -> String.compare a c <> Gt.
Proof. rewrite !compare_le. apply byte_le_trans. Qed.

Lemma lex_le_step x l y l' : lex_le (x :: l) (y :: l') <-> String.compare x y = Lt \/ (x = y /\ lex_le l l').
Proof.
  unfold lex_le. cbn [lex]. rewrite (String.compare_antisym y x). destruct (String.compare x y) eqn:E; cbn [CompOpp].
  - apply String.compare_eq_iff in E as ->. split; [by right|]. intros [|[_ ?]]; done.
  - split; [by left|done].
  - split; [done|]. intros [?|[-> _]]; [done|]. by rewrite compare_self in E.
Qed.

#[export] Instance lex_le_trans : Transitive lex_le.
Proof.
  intros l. induction l as [|x l IH]; intros [|y l'] [|z l'']; try done.
  rewrite !lex_le_step. intros [H1|[-> H1]] [H2|[-> H2]].
  - left. assert (String.compare x z <> Gt) as H by (apply (compare_lt_trans x y z); by rewrite ?H1, ?H2).
    destruct (String.compare x z) eqn:E; [|done..]. apply String.compare_eq_iff in E as ->.
    rewrite String.compare_antisym, H2 in H1. done.
  - by left.
  - by left.
  - right. split; [done|]. by apply (IH l').
Qed.

#[export] Instance lex_le_antisymm : AntiSymm (=) lex_le.
Proof.
  intros l l' H1 H2. unfold lex_le in *. rewrite lex_opp in H1. apply lex_eq. by destruct (lex l l').
Qed.

#[export] Instance lex_le_total : Total lex_le.
Proof. intros l l'. unfold lex_le. rewrite (lex_opp l' l). destruct (lex l l'); cbn [CompOpp]; auto. Qed.

#[export] Instance lex_le_dec : RelDecision lex_le.
Proof. intros l l'. unfold lex_le. destruct (lex l' l); [left|right|left]; congruence. Defined.

Definition msg_le (a b : set_msg) : Prop := compare_msgs b a <> Lt.

Lemma msg_le_key a b : msg_le a b <-> lex_le (msg_key a) (msg_key b).
Proof. unfold msg_le, lex_le. by rewrite compare_key. Qed.

#[export] Instance msg_le_trans : Transitive msg_le.
Proof. intros a b c. rewrite !msg_le_key. apply lex_le_trans. Qed.

#[export] Instance msg_le_total : Total msg_le.
Proof. intros a b. rewrite !msg_le_key. apply lex_le_total. Qed.

#[export] Instance msg_le_dec : RelDecision msg_le.
Proof. intros a b. unfold msg_le. destruct (compare_msgs b a); [left|right|left]; congruence. Defined.

Lemma sorted_key l : StronglySorted msg_le l -> StronglySorted lex_le (map msg_key l).
Proof.
  induction 1 as [|m l _ IH H]; cbn [map]; constructor; [done|]. apply Forall_fmap. eapply Forall_impl; [exact H|].
  intros b. apply msg_le_key.
Qed.

Lemma sorted_one l l' : l ≡ₚ l' -> StronglySorted msg_le l -> StronglySorted msg_le l' -> map msg_key l = map msg_key l'.
Proof. intros P S S'. apply (StronglySorted_unique lex_le); [by apply sorted_key..|]. by apply fmap_Permutation. Qed.

Definition key_text (g : string) (l : list string) : string :=
  match l with
  | [p; v; r; s; t] => "msg: '" +:+ g +:+ "', pkg: '" +:+ p +:+ "', version: '" +:+ v +:+ "', repo: '" +:+ r +:+ "', relationship: " +:+ s +:+ "'"
  | _ => ""
  end.

Definition key_text_type (g : string) (l : list string) : string :=
  match l with
  | [p; v; r; s; t] => key_text g l +:+ ", type: " +:+ t
  | _ => ""
  end.

Lemma texts_key g l : Forall (fun m => sm_msg m = g) l ->
  map msg_text l = map (key_text g) (map msg_key l) /\ map msg_text_type l = map (key_text_type g) (map msg_key l).
Proof.
  induction 1 as [|m l <- _ [IH1 IH2]]; [done|]. cbn [map]. by rewrite IH1, IH2.
Qed.

Lemma golden_one g l l' : Forall (fun m => sm_msg m = g) l -> l ≡ₚ l' -> StronglySorted msg_le l -> StronglySorted msg_le l' ->
  golden l = golden l' /\ golden_type l = golden_type l'.
Proof.
  intros G P S S'. assert (Forall (fun m => sm_msg m = g) l') as G' by by rewrite <- P.
  destruct (texts_key g l G) as [E1 E2]. destruct (texts_key g l' G') as [E3 E4].
  unfold golden, golden_type. by rewrite E1, E2, E3, E4, (sorted_one l l').
Qed.

(** ** Lines *)

Lemma no_newline_without s : no_newline s -> without (ascii_of_nat 10) s.
Proof.
  unfold without. induction s as [|c s IH]; [done|]. intros [H1 H2]. cbn [all_bytes]. rewrite (IH H2), andb_true_r.
  destruct (Ascii.eqb_spec (ascii_of_nat 10) c) as [E|E]; [|done]. by subst c.
Qed.

Lemma lines_of_entry timed e t : output_lines (format_entry timed e +:+ t) =
  flat true (in_order (fun v => v) (entry_data timed e)) :: output_lines t.
Proof.
  unfold output_lines, format_entry. rewrite app_assoc_str.
  apply (split_with (ascii_of_nat 10) _ t). apply no_newline_without, flat_line.
Qed.

Lemma flat_contains_not timed e : (forall a b, format_entry timed e <> a +:+ set_key +:+ b) ->
  contains set_key (flat true (in_order (fun v => v) (entry_data timed e))) = false.
Proof.
  intros H. apply contains_false. intros a b E. apply (H a (b +:+ newline)). unfold format_entry. rewrite E, !app_assoc_str. done.
Qed.

(** ** One message *)

Definition rel_word (user : bool) : string := if user then "user_defined" else "dependency".

Definition origin_members (time : list (string * json)) (o : origin) : list (string * json) :=
  ([("level", JStr "debug"); ("msg", JStr set_key); ("pkg", JStr (og_package o)); ("relationship", JStr (rel_word (og_user o)));
    ("repo", JStr (og_repo o))] ++ time ++ [("type", JNum (source_type_number (og_type o))); ("version", JStr (og_version o))])%list.

Lemma origin_data timed time o : in_order (fun v => v) (entry_data timed (origin_entry time o)) =
  JObj (origin_members (if timed then [("time", JStr time)] else []) o).
Proof. destruct timed; reflexivity. Qed.

Definition origin_msg (o : origin) : set_msg :=
  SetMsg set_key (og_package o) (rel_word (og_user o)) (og_repo o) (og_version o) (Z.of_N (source_type_number (og_type o))).

Lemma origin_set time o : (time = [] \/ exists x, time = [("time", JStr x)]) ->
  set_members empty_msg (origin_members time o) = Some (origin_msg o).
Proof. intros [-> | [x ->]]; unfold origin_msg; destruct o as [p r [] v u]; reflexivity. Qed.

Lemma low_word_mend w : Utf8 w -> mend w = w.
Proof. apply mend_utf8. Qed.

Lemma origin_reads timed time o : utf8_origin o -> Utf8 time ->
  Reads (flat true (in_order (fun v => v) (entry_data timed (origin_entry time o)))) (JObj (origin_members (if timed then [("time", JStr time)] else []) o)).
Proof.
  intros (H1 & H2 & H3) H4. pose proof (flat_reads true (in_order (fun v => v) (entry_data timed (origin_entry time o)))) as H.
  rewrite (origin_data timed time o) in H |- *.
  assert (jmap mend (JObj (origin_members (if timed then [("time", JStr time)] else []) o)) =
          JObj (origin_members (if timed then [("time", JStr time)] else []) o)) as E; [|by rewrite E in H].
  unfold origin_members. destruct timed; cbn [jmap map app fst snd]; rewrite (mend_utf8 _ H1), (mend_utf8 _ H2), (mend_utf8 _ H3), ?(mend_utf8 _ H4);
    destruct (og_user o); reflexivity.
Qed.

Lemma origin_contains timed time o :
  contains set_key (flat true (in_order (fun v => v) (entry_data timed (origin_entry time o)))) = true.
Proof.
  rewrite (origin_data timed time o). unfold origin_members. cbn [app]. rewrite flat_obj. apply contains_true.
  exists ("{""level"":""debug"",""msg"":"""). eexists. cbn [flat_members flat]. unfold quoted at 3 4.
  replace (escape true "msg") with "msg" by reflexivity. replace (escape true set_key) with set_key by reflexivity.
  rewrite !app_assoc_str. reflexivity.
Qed.

Lemma origin_read parse timed time o : reads_json parse -> utf8_origin o -> Utf8 time ->
  read_set_msg parse (flat true (in_order (fun v => v) (entry_data timed (origin_entry time o)))) = Some (origin_msg o).
Proof.
  intros P U T. unfold read_set_msg. rewrite (P _ _ (origin_reads timed time o U T)). apply origin_set.
  destruct timed; [right; by eexists|by left].
Qed.

(** ** All messages *)

Lemma logged_collect parse timed os t : reads_json parse -> logged timed os t ->
  collect_lines (contains set_key) (read_set_msg parse) (output_lines t) = Some (map origin_msg os).
Proof.
  intros P. induction 1 as [|time o os t U T _ IH|e os t N _ IH].
  - reflexivity.
  - rewrite lines_of_entry. cbn [collect_lines]. rewrite origin_contains, (origin_read parse timed time o P U T), IH. done.
  - rewrite lines_of_entry. cbn [collect_lines]. rewrite (flat_contains_not timed e N). exact IH.
Qed.

Lemma origin_read_as o : read_as o (origin_msg o).
Proof. unfold read_as, origin_msg. destruct o as [p r [] v []]; cbn; repeat split; try done. Qed.

Lemma has_msg_spec l pkg version repo rel : has_msg l pkg version repo rel = true <->
  exists m, m ∈ l /\ sm_pkg m = pkg /\ sm_version m = version /\ sm_repo m = repo /\ sm_relationship m = rel.
Proof.
  induction l as [|m l IH]; cbn [has_msg].
  - split; [done|]. intros (m & H & _). by apply elem_of_nil in H.
  - destruct (_ && _ && _ && _) eqn:E.
    + split; [|done]. intros _. apply andb_true_iff in E as [E E4]. apply andb_true_iff in E as [E E3]. apply andb_true_iff in E as [E1 E2].
      apply String.eqb_eq in E1, E2, E3, E4. exists m. split; [by left|]. done.
    + rewrite IH. split.
      * intros (x & H & R). exists x. split; [by right|done].
      * intros (x & H & R). apply elem_of_cons in H as [-> | H]; [|by exists x].
        destruct R as (<- & <- & <- & <-). by rewrite !String.eqb_refl in E.
Qed.

Lemma has_msg_type_spec l pkg version repo rel ty : has_msg_type l pkg version repo rel ty = true <->
  exists m, m ∈ l /\ sm_pkg m = pkg /\ sm_version m = version /\ sm_repo m = repo /\ sm_relationship m = rel /\ type_word (sm_type m) = ty.
Proof.
  induction l as [|m l IH]; cbn [has_msg_type].
  - split; [done|]. intros (m & H & _). by apply elem_of_nil in H.
  - destruct (_ && _ && _ && _ && _) eqn:E.
    + split; [|done]. intros _. apply andb_true_iff in E as [E E5]. apply andb_true_iff in E as [E E4]. apply andb_true_iff in E as [E E3]. apply andb_true_iff in E as [E1 E2].
      apply String.eqb_eq in E1, E2, E3, E4, E5. exists m. split; [by left|]. done.
    + rewrite IH. split.
      * intros (x & H & R). exists x. split; [by right|done].
      * intros (x & H & R). apply elem_of_cons in H as [-> | H]; [|by exists x].
        destruct R as (<- & <- & <- & <- & <-). by rewrite !String.eqb_refl in E.
Qed.

Lemma rel_says user w : relationship_says user w <-> rel_word user = w.
Proof. unfold relationship_says. destruct user; cbn; naive_solver. Qed.

Lemma type_says_word t w : type_says t w <-> type_word (Z.of_N (source_type_number t)) = w.
Proof. unfold type_says. destruct t; cbn; naive_solver. Qed.

Lemma output_nothing parse search logs m f : search <> "" -> let x := output_contains parse logs search m f in x.1.2 = f /\ (x.1.1 = m \/ x.1.1 = []).
Proof.
  intros S. revert m f. induction logs as [|l logs IH]; intros m f; cbn [output_contains]; [auto|].
  assert (contains search "" = false) as E by by destruct search.
  destruct (parse l) as [[]|]; rewrite ?E; auto.
Qed.

Lemma collect_app {A} pick (read : string -> option A) l l' x y : collect_lines pick read l = Some x -> collect_lines pick read l' = Some y ->
  collect_lines pick read (l ++ l')%list = Some (x ++ y)%list.
Proof.
  revert x. induction l as [|s l IH]; intros x; cbn [collect_lines app].
  - by intros [= <-].
  - destruct (pick s); [|apply IH]. destruct (read s) as [a|]; [|done]. destruct (collect_lines pick read l) as [z|]; [|done].
    intros [= <-] Hy. by rewrite (IH z eq_refl Hy).
Qed.
