(** Customizations of packages as they are written. *)
From stdpp Require Import strings list gmap.
From Coq Require Import Ascii ZArith.
From Verif.model Require Import GoStr Version Desc Nexus Pacman Graph Plan Urls Customs.
From Verif.spec Require Import RepoSpec GraphSpec PlanSpec CustomsSpec.
From Verif.proofs Require Import SettingsProofs.

Local Open Scope string_scope.

Lemma existsb_in (key : string) l : existsb (String.eqb key) l = true <-> key ∈ l.
Proof.
  rewrite existsb_exists. split.
  - intros (x & H & ->%String.eqb_eq). by apply elem_of_list_In.
  - intros H. exists key. rewrite String.eqb_refl. split; [by apply elem_of_list_In|done].
Qed.

Lemma assoc_in {A} p (m : list (string * A)) v : assoc p m = Some v -> (p, v) ∈ m.
Proof.
  induction m as [|[q w] m IH]; cbn [assoc]; [done|]. destruct (String.eqb_spec q p) as [-> |N].
  - intros [= ->]. by left.
  - intros H. right. by apply IH.
Qed.

Lemma assoc_once {A} p (m : list (string * A)) v : NoDup m.*1 -> (p, v) ∈ m -> assoc p m = Some v.
Proof.
  induction m as [|[q w] m IH]; cbn [assoc]; intros ND H; [by apply elem_of_nil in H|].
  rewrite fmap_cons in ND. apply NoDup_cons in ND as [N1 N2]. apply elem_of_cons in H as [[= <- <-]|H].
  - by rewrite String.eqb_refl.
  - destruct (String.eqb_spec q p) as [-> |N]; [|by apply IH]. destruct N1. cbn [fst]. by apply (elem_of_list_fmap_1 fst m (p, v)).
Qed.

Lemma is_set_true key l p : is_set key l p = Some true -> exists k, writes l p (VMap k) /\ key ∈ k.*1.
Proof.
  induction l as [|[|m|] l IH]; cbn [is_set]; [done|done| |done]. intros H.
  assert (is_set key l p = Some true -> exists k, writes (EMap m :: l) p (VMap k) /\ key ∈ k.*1) as IH'.
  { intros H'. destruct (IH H') as (k & (m' & H1 & H2) & H3). exists k. split; [|done]. exists m'. split; [by right|done]. }
  destruct (assoc p m) as [[|k|]|] eqn:E; [done| |done|by apply IH'].
  destruct (existsb (String.eqb key) (map fst k)) eqn:Ee; [|by apply IH'].
  exists k. split; [|by apply existsb_in in Ee]. exists m. split; [by left|]. by apply assoc_in.
Qed.

Lemma is_set_key key l p k : go_maps l -> writes l p (VMap k) -> key ∈ k.*1 -> is_set key l p <> Some false.
Proof.
  intros G (m & Hm & Hp) Hk. induction l as [|e l IH]; [by apply elem_of_nil in Hm|].
  assert (go_maps l) as G' by (intros m' H; apply G; by right).
  apply elem_of_cons in Hm as [<- |Hm].
  - cbn [is_set]. rewrite (assoc_once p m (VMap k)); [|apply G; by left|done].
    rewrite (proj2 (existsb_in key (map fst k)) Hk). done.
  - destruct e as [|m'|]; cbn [is_set]; [done| |done]. destruct (assoc p m') as [[|k'|]|]; [done| |done|by apply IH].
    destruct (existsb _ _); [done|by apply IH].
Qed.

Lemma is_set_null key l p : go_maps l -> writes l p VNull -> is_set key l p <> Some false.
Proof.
  intros G (m & Hm & Hp). induction l as [|e l IH]; [by apply elem_of_nil in Hm|].
  assert (go_maps l) as G' by (intros m' H; apply G; by right).
  apply elem_of_cons in Hm as [<- |Hm].
  - cbn [is_set]. rewrite (assoc_once p m VNull); [done|apply G; by left|done].
  - destruct e as [|m'|]; cbn [is_set]; [done| |done]. destruct (assoc p m') as [[|k'|]|]; [done| |done|by apply IH].
    destruct (existsb _ _); [done|by apply IH].
Qed.

Lemma decode_map_in m m' p v : decode_map m = Some m' -> (p, v) ∈ m -> exists c, decode_package v = Some c /\ (p, c) ∈ m'.
Proof.
  intros D H. apply mapM_Some in D. induction D as [|[q w] y m m' E D IH]; [by apply elem_of_nil in H|].
  cbn [fst snd] in E. destruct (decode_package w) as [c|] eqn:Ec; [|done]. injection E as <-.
  apply elem_of_cons in H as [[= -> ->]|H].
  - exists c. split; [done|by left].
  - destruct (IH H) as (c' & ? & ?). exists c'. split; [done|by right].
Qed.

Lemma decode_map_out m m' p c : decode_map m = Some m' -> (p, c) ∈ m' -> exists v, decode_package v = Some c /\ (p, v) ∈ m.
Proof.
  intros D H. apply mapM_Some in D. induction D as [|[q w] y m m' E D IH]; [by apply elem_of_nil in H|].
  cbn [fst snd] in E. destruct (decode_package w) as [c'|] eqn:Ec; [|done]. injection E as <-.
  apply elem_of_cons in H as [[= -> ->]|H].
  - exists w. split; [done|by left].
  - destruct (IH H) as (v & ? & ?). exists v. split; [done|by right].
Qed.

Lemma decoded_in l cs p v : mapM decode_element l = Some cs -> writes l p v -> exists c, decode_package v = Some c /\ (p, c) ∈ concat cs.
Proof.
  intros D (m & Hm & Hp). apply mapM_Some in D. induction D as [|e y l cs E D IH]; [by apply elem_of_nil in Hm|].
  cbn [concat]. apply elem_of_cons in Hm as [<- |Hm].
  - destruct (decode_map_in m y p v E Hp) as (c & ? & ?). exists c. split; [done|]. apply elem_of_app. by left.
  - destruct (IH Hm) as (c & ? & ?). exists c. split; [done|]. apply elem_of_app. by right.
Qed.

Lemma decoded_out l cs p c : mapM decode_element l = Some cs -> (p, c) ∈ concat cs -> exists v, decode_package v = Some c /\ writes l p v.
Proof.
  intros D H. apply mapM_Some in D. induction D as [|e y l cs E D IH]; [by apply elem_of_nil in H|].
  cbn [concat] in H. apply elem_of_app in H as [H|H].
  - destruct e as [|m|]; [|destruct (decode_map_out m y p c E H) as (v & ? & ?)|done].
    + injection E as <-. by apply elem_of_nil in H.
    + exists v. split; [done|]. exists m. split; [by left|done].
  - destruct (IH H) as (v & ? & (m & ? & ?)). exists v. split; [done|]. exists m. split; [by right|done].
Qed.

Lemma decoded_names l cs : mapM decode_element l = Some cs ->
  (concat cs).*1 = concat (map (fun e => match e with EMap m => m.*1 | _ => [] end) l).
Proof.
  intros D. apply mapM_Some in D. induction D as [|e y l cs E D IH]; [done|].
  cbn [concat map]. rewrite fmap_app, IH. f_equal. destruct e as [|m|]; [by injection E as <-| |done].
  cbn [decode_element] in E. unfold decode_map in E. apply mapM_Some in E. clear -E.
  induction E as [|[q w] z m y E D IH]; [done|]. rewrite !fmap_cons, IH. f_equal.
  cbn [fst snd] in *. destruct (decode_package w) as [c|]; [|done]. by injection E as <-.
Qed.

(** ** Maps only *)

Lemma named_in key p (m : list (string * package_value)) m' : NoDup m.*1 -> (forall q v, (q, v) ∈ m -> exists k, v = VMap k) ->
  decode_map m = Some m' ->
  match assoc p m with
  | None => existsb (fun kv => String.eqb kv.1 p && existsb (String.eqb key) (cu_keys kv.2)) m' = false
  | Some (VMap k) => existsb (fun kv => String.eqb kv.1 p && existsb (String.eqb key) (cu_keys kv.2)) m' = existsb (String.eqb key) (map fst k)
  | Some _ => False
  end.
Proof.
  intros ND V D. apply mapM_Some in D.
  induction D as [|[q w] y m m' E D IH]; [done|].
  rewrite fmap_cons in ND. apply NoDup_cons in ND as [N1 N2].
  assert (forall q0 v, (q0, v) ∈ m -> exists k, v = VMap k) as V' by (intros q0 v H; apply (V q0 v); by right).
  specialize (IH N2 V'). destruct (V q w) as (k & ->); [by left|].
  cbn [fst snd decode_package] in E. cbn [fst] in N1.
  destruct (weak_bool _) as [b|]; [|done]. destruct (weak_text (field "Repo" k)) as [r|]; [|done].
  destruct (weak_text _) as [t|]; [|done]. injection E as <-. cbn [existsb assoc fst snd cu_keys].
  destruct (String.eqb_spec q p) as [-> |N].
  - cbn [andb]. assert (assoc p m = None) as En.
    { destruct (assoc p m) as [v|] eqn:Ev; [|done]. destruct N1. apply assoc_in in Ev. by apply (elem_of_list_fmap_1 fst m (p, v)). }
    rewrite En in IH. rewrite IH, orb_false_r. done.
  - cbn [andb orb]. done.
Qed.

Lemma is_set_same key l cs p : all_maps l -> mapM decode_element l = Some cs -> is_set key l p = Some (is_customization_set key cs p).
Proof.
  intros A D. apply mapM_Some in D. induction D as [|e y l cs E D IH]; [done|].
  assert (all_maps l) as A' by (intros e' H; apply A; by right). specialize (IH A').
  destruct (A e) as (m & -> & ND & V); [by left|]. cbn [decode_element] in E.
  pose proof (named_in key p m y ND V E) as N. unfold is_customization_set. cbn [is_set existsb].
  destruct (assoc p m) as [[|k|]|]; [done| |done|].
  - rewrite N. destruct (existsb (String.eqb key) (map fst k)); [done|]. rewrite IH. done.
  - rewrite N. rewrite IH. done.
Qed.

Lemma apply_all_same l cs kvs st : all_maps l -> mapM decode_element l = Some cs ->
  apply_all l kvs st = match apply_customs cs kvs st with None => CFatal | Some st' => CDone st' end.
Proof.
  intros A D. revert st. induction kvs as [|[p v] kvs IH]; intros [cfg nx]; [done|].
  cbn [apply_all apply_customs]. unfold apply_written, apply_custom, written_repo, written_type.
  rewrite !(is_set_same _ l cs p A D).
  destruct (if is_customization_set "Repo" cs p then _ else _) as [nx1|]; [|done].
  destruct (if is_customization_set "Type" cs p then _ else _) as [nx2|]; [|done]. apply IH.
Qed.

Lemma all_maps_go l : all_maps l -> go_maps l.
Proof. intros A m H. destruct (A _ H) as (m' & [= ->] & ND & _). done. Qed.

(** ** What every package has passed *)

Lemma apply_written_db elems kv st st' : apply_written elems kv st = CDone st' -> nx_db st'.2 = nx_db st.2.
Proof.
  destruct kv as [p v], st as [cfg nx]. cbn [apply_written]. unfold written_repo, written_type.
  destruct (is_set "Suggests" elems p) as [b1|]; [|done].
  destruct (is_set "Repo" elems p) as [b2|]; [|done].
  destruct (if b2 then set_package_repo nx p (cu_repo v) else Some nx) as [nx1|] eqn:E1; [|done].
  destruct (is_set "Type" elems p) as [b3|]; [|done].
  destruct (if b3 then set_package_type nx1 p (cu_type v) else Some nx1) as [nx2|] eqn:E2; [|done].
  intros [= <-]. cbn [snd].
  assert (nx_db nx1 = nx_db nx) as <-.
  { destruct b2; [|by injection E1 as <-]. unfold set_package_repo in E1. destruct (find_repo _ _); [|done]. by injection E1 as <-. }
  destruct b3; [|by injection E2 as <-]. unfold set_package_type in E2. destruct (set_type _); [|done]. by injection E2 as <-.
Qed.

Lemma apply_all_in elems kvs st st' p v : apply_all elems kvs st = CDone st' -> (p, v) ∈ kvs ->
  exists st1 st2, apply_written elems (p, v) st1 = CDone st2 /\ nx_db st1.2 = nx_db st.2.
Proof.
  revert st. induction kvs as [|kv kvs IH]; intros st E H; [by apply elem_of_nil in H|].
  cbn [apply_all] in E. destruct (apply_written elems kv st) as [st1| |] eqn:E1; [|done|done].
  apply elem_of_cons in H as [<- |H].
  - by exists st, st1.
  - destruct (IH st1 E H) as (st2 & st3 & ? & Hd). exists st2, st3. split; [done|].
    rewrite Hd. by apply (apply_written_db elems kv).
Qed.

Lemma written_done elems p v st st' : apply_written elems (p, v) st = CDone st' ->
  (is_set "Repo" elems p <> Some false -> is_Some (find_repo (nx_db st.2) (cu_repo v))) /\
  (is_set "Type" elems p <> Some false -> is_Some (set_type (cu_type v))).
Proof.
  destruct st as [cfg nx]. cbn [apply_written snd]. unfold written_repo, written_type.
  destruct (is_set "Suggests" elems p) as [b1|]; [|done].
  destruct (is_set "Repo" elems p) as [b2|]; [|done].
  destruct (if b2 then set_package_repo nx p (cu_repo v) else Some nx) as [nx1|] eqn:E1; [|done].
  destruct (is_set "Type" elems p) as [b3|]; [|done].
  destruct (if b3 then set_package_type nx1 p (cu_type v) else Some nx1) as [nx2|] eqn:E2; [|done].
  intros _. split.
  - intros N. destruct b2; [|done]. unfold set_package_repo in E1. destruct (find_repo _ _); [by eexists|done].
  - intros N. destruct b3; [|done]. unfold set_package_type in E2. destruct (set_type _); [by eexists|done].
Qed.

(** The plan is made only after all packages. *)
Lemma plan_written sug pkgs l cfg nx st : plan_customizations sug pkgs (PSeq l) cfg nx = CDone st ->
  exists cs, mapM decode_element l = Some cs /\ apply_all l (concat cs) (set_cfg_customizations sug pkgs cfg, nx) = CDone st.
Proof.
  unfold plan_customizations. cbn [decode_packages]. destruct (mapM decode_element l) as [cs|]; [|done].
  exists cs. split; [done|]. by destruct cs.
Qed.

Lemma plan_reaches sug pkgs l cfg nx st p v : plan_customizations sug pkgs (PSeq l) cfg nx = CDone st -> writes l p v ->
  exists c, decode_package v = Some c /\
    (is_set "Repo" l p <> Some false -> is_Some (find_repo (nx_db nx) (cu_repo c))) /\
    (is_set "Type" l p <> Some false -> is_Some (set_type (cu_type c))).
Proof.
  intros E W. destruct (plan_written _ _ _ _ _ _ E) as (cs & D & Ea).
  destruct (decoded_in l cs p v D W) as (c & Ec & Hc). exists c. split; [done|].
  destruct (apply_all_in _ _ _ _ _ _ Ea Hc) as (st1 & st2 & E1 & Hd). apply written_done in E1. cbn [snd] in Hd. by rewrite Hd in E1.
Qed.

(** Without a key that is written exactly, Suggests is as before. *)
Lemma apply_all_cfg elems kvs cfg nx cfg' nx' : (forall p, is_set "Suggests" elems p <> Some true) ->
  apply_all elems kvs (cfg, nx) = CDone (cfg', nx') -> cfg' = cfg.
Proof.
  intros N. revert nx. induction kvs as [|[p v] kvs IH]; intros nx E; cbn [apply_all] in E; [by injection E|].
  cbn [apply_written] in E. unfold written_repo, written_type in E. specialize (N p).
  destruct (is_set "Suggests" elems p) as [[]|]; [done| |done].
  destruct (is_set "Repo" elems p) as [b2|]; [|done].
  destruct (if b2 then set_package_repo nx p (cu_repo v) else Some nx) as [nx1|] eqn:E1; [|done].
  destruct (is_set "Type" elems p) as [b3|]; [|done].
  destruct (if b3 then set_package_type nx1 p (cu_type v) else Some nx1) as [nx2|] eqn:E2; [|done].
  by apply (IH nx2).
Qed.

(** ** Fields *)

Lemma field_once key k w : NoDup k.*1 -> (key, w) ∈ k -> field key k = w.
Proof. intros ND H. unfold field. by rewrite (assoc_once key k w ND H). Qed.

Lemma field_none key k : (forall x, x ∈ k.*1 -> equal_fold x key = false) -> field key k = WNull.
Proof.
  intros H. unfold field. destruct (assoc key k) as [v|] eqn:E.
  - apply assoc_in in E. exfalso. specialize (H key). unfold equal_fold in H. rewrite String.eqb_refl in H.
    discriminate H. by apply (elem_of_list_fmap_1 fst k (key, v)).
  - destruct (List.find _ k) as [kv|] eqn:Ef; [|done]. apply find_some in Ef as [Hin Ht]. rewrite H in Ht; [done|].
    apply (elem_of_list_fmap_1 fst k kv). by apply elem_of_list_In.
Qed.

Lemma weak_bool_spec w b : reads_bool w b <-> weak_bool w = Some b.
Proof.
  split.
  - intros R. destruct R as [| | |z N| |s H|s H]; try done.
    + cbn [weak_bool]. apply Z.eqb_neq in N. by rewrite N.
    + repeat (apply elem_of_cons in H as [-> |H]; [by vm_compute|]). by apply elem_of_nil in H.
    + repeat (apply elem_of_cons in H as [-> |H]; [by vm_compute|]). by apply elem_of_nil in H.
  - destruct w as [|b'|z|s|]; cbn [weak_bool]; [intros [= <-]; constructor|intros [= <-]; constructor| | |done].
    + destruct (Z.eqb_spec z 0) as [-> |N]; intros [= <-]; [constructor|]. by constructor.
    + destruct (String.eqb_spec s "") as [-> |N]; [intros [= <-]; constructor|]. unfold parse_bool.
      destruct (bool_decide _) eqn:E1; [intros [= <-]; apply reads_true; by apply bool_decide_eq_true in E1|].
      destruct (bool_decide (s ∈ ["0"; "f"; "F"; "false"; "FALSE"; "False"])) eqn:E2; [intros [= <-]; apply reads_false; by apply bool_decide_eq_true in E2|done].
Qed.

Lemma weak_text_none w : weak_text w = None <-> w = WMany.
Proof. by destruct w. Qed.

Lemma field_cases key k : NoDup k.*1 -> (forall x, x ∈ k.*1 -> x ∈ ["Suggests"; "Env"; "Repo"; "Type"]) -> key ∈ ["Suggests"; "Repo"; "Type"] ->
  (key, field key k) ∈ k \/ field key k = WNull.
Proof.
  intros ND K H. destruct (assoc key k) as [w|] eqn:E.
  - left. apply assoc_in in E. by rewrite (field_once key k w ND E).
  - right. apply field_none. intros x Hx.
    assert (x <> key) as N.
    { intros ->. apply (proj1 (elem_of_list_fmap fst k key)) in Hx as ([y w] & Hy & Hin). cbn [fst] in Hy. subst y.
      by rewrite (assoc_once key k w ND Hin) in E. }
    specialize (K x Hx). repeat (apply elem_of_cons in K as [-> |K]); try (by apply elem_of_nil in K);
      (repeat (apply elem_of_cons in H as [-> |H]); try (by apply elem_of_nil in H)); by vm_compute || done.
Qed.

Lemma decode_package_none k : NoDup k.*1 -> (forall x, x ∈ k.*1 -> x ∈ ["Suggests"; "Env"; "Repo"; "Type"]) ->
  (decode_package (VMap k) = None <-> unusable (VMap k)).
Proof.
  intros ND K.
  assert (forall key w, value_of (VMap k) key w <-> (key, w) ∈ k) as V.
  { intros key w. split; [intros (k' & [= <-] & H); done|intros H; by exists k]. }
  unfold unusable. setoid_rewrite V. cbn [decode_package].
  pose proof (field_cases "Suggests" k ND K) as F1. pose proof (field_cases "Repo" k ND K) as F2. pose proof (field_cases "Type" k ND K) as F3.
  split.
  - destruct (weak_bool (field "Suggests" k)) as [b|] eqn:E1.
    + destruct (weak_text (field "Repo" k)) eqn:E2.
      * destruct (weak_text (field "Type" k)) eqn:E3; [done|]. intros _. right; right. apply weak_text_none in E3. rewrite E3 in F3.
        destruct F3 as [F3|F3]; [by right; right; left|done|done].
      * intros _. right; left. apply weak_text_none in E2. rewrite E2 in F2. destruct F2 as [F2|F2]; [by right; left|done|done].
    + intros _. left. exists (field "Suggests" k). destruct F1 as [F1|F1]; [by left| |].
      * split; [done|]. intros b Hb. apply weak_bool_spec in Hb. congruence.
      * rewrite F1 in E1. done.
  - intros [(w & H & N)|[H|H]].
    + rewrite (field_once "Suggests" k w ND H). destruct (weak_bool w) as [b|] eqn:E; [|done]. apply weak_bool_spec in E. by apply N in E.
    + rewrite (field_once "Repo" k WMany ND H). by destruct (weak_bool _).
    + rewrite (field_once "Type" k WMany ND H). destruct (weak_bool _); [|done]. by destruct (weak_text _).
Qed.

Lemma decode_all_none l : all_maps l -> mapM decode_element l = None -> exists p v, writes l p v /\ decode_package v = None.
Proof.
  intros A. induction l as [|e l IH]; [done|]. destruct (A e) as (m & -> & _ & _); [by left|].
  cbn [mapM decode_element]. destruct (decode_map m) as [m'|] eqn:Em; cbn [mbind option_bind].
  - destruct (mapM decode_element l) as [cs|]; cbn; [done|]. intros _. destruct IH as (p & v & (m0 & H1 & H2) & H3); [intros e He; apply A; by right|done|].
    exists p, v. split; [|done]. exists m0. split; [by right|done].
  - intros _. assert (exists p v, (p, v) ∈ m /\ decode_package v = None) as (p & v & H & D).
    { clear -Em. induction m as [|[q w] m IH]; [done|]. unfold decode_map in Em. cbn [mapM fst snd] in Em.
      destruct (decode_package w) as [c|] eqn:Ec; cbn [fmap option_fmap option_map mbind option_bind] in Em.
      - fold (decode_map m) in Em. destruct (decode_map m); cbn in Em; [done|]. destruct IH as (p & v & ? & ?); [done|].
        exists p, v. split; [by right|done].
      - exists q, w. split; [by left|done]. }
    exists p, v. split; [|done]. exists m. split; [by left|done].
Qed.
