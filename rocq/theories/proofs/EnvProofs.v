(** Name-value lists and the environment of R. *)
From stdpp Require Import strings list sets gmap.
From Coq Require Import Ascii Lia.
From Verif.model Require Import GoStr Fs Env.
From Verif.spec Require Import StrSpec EnvSpec.
From Verif.proofs Require Import GoStrLemmas.

Local Open Scope string_scope.

Local Arguments Ascii.eqb : simpl never.
Local Arguments char_eqb : simpl never.

(** * Strings *)
Lemma unpadded_trim n : unpadded n -> trim_blank n = n.
Proof.
  intros H. apply trim_trimmed. split.
  - destruct n as [|c n]; [done|]. simpl. destruct (is_blank c) eqn:E; [|done].
    apply char_eqb_eq in E as ->. by destruct (H n) as [[] _].
  - assert (forall r, n <> r +:+ " ") as H' by (intros r; apply H). clear H.
    induction n as [|c n IH]; [done|]. simpl.
    rewrite IH; [|intros r E; apply (H' (String c r)); simpl; by rewrite E].
    destruct n; [|done]. destruct (is_blank c) eqn:E; [|done].
    apply char_eqb_eq in E as ->. by destruct (H' "").
Qed.

Lemma eq_split n m v w : without "=" n -> without "=" m ->
  n +:+ "=" +:+ v = m +:+ "=" +:+ w -> n = m /\ v = w.
Proof.
  unfold without. revert m. induction n as [|c n IH]; intros m Hn Hm H.
  - destruct m as [|d m]; simpl in *; [by injection H as ->|].
    injection H as <- _. done.
  - simpl in *. apply andb_true_iff in Hn as [Hc Hn]. destruct m as [|d m]; simpl in *.
    + injection H as -> _. done.
    + injection H as <- H. apply andb_true_iff in Hm as [_ Hm].
      destruct (IH m Hn Hm H) as [-> ->]. done.
Qed.

Lemma split_pair k v : without "=" k -> split_on_n (char_eqb "=") 2 (k +:+ "=" +:+ v) = [k; v].
Proof.
  intros H. unfold without in H. induction k as [|c k IH]; [simpl; by rewrite split_on_n_one|].
  simpl in *. apply andb_true_iff in H as [H1 H2]. apply negb_true_iff in H1.
  unfold char_eqb at 1. rewrite H1. by rewrite (IH H2).
Qed.

Lemma split_pair_inv s k v : split_on_n (char_eqb "=") 2 s = [k; v] -> s = k +:+ "=" +:+ v /\ without "=" k.
Proof.
  revert k. induction s as [|c s IH]; intros k H; [done|]. cbn [split_on_n] in H.
  destruct (char_eqb "=" c) eqn:E.
  - apply char_eqb_eq in E as <-. rewrite split_on_n_one in H. by injection H as <- <-.
  - destruct (split_on_n (char_eqb "=") 2 s) as [|p [|q [|]]] eqn:E2; try discriminate.
    injection H as <- <-. destruct (IH p eq_refl) as [-> H']. split; [done|].
    unfold without in *. simpl. unfold char_eqb in E. by rewrite E.
Qed.

Lemma trim_left_without f s c : without c s -> without c (trim_left f s).
Proof.
  unfold without. induction s as [|d s IH]; [done|]. simpl. intros H.
  destruct (f d); [|done]. apply andb_true_iff in H as [_ H]. auto.
Qed.

Lemma trim_right_without f s c : without c s -> without c (trim_right f s).
Proof.
  unfold without. induction s as [|d s IH]; [done|]. simpl. intros [H1 H2]%andb_true_iff.
  specialize (IH H2). destruct (trim_right f s) as [|e r] eqn:E.
  - destruct (f d); [done|]. simpl. by rewrite H1.
  - simpl in *. by rewrite H1.
Qed.

Lemma trim_without s c : without c s -> without c (trim_blank s).
Proof. intros H. by apply trim_right_without, trim_left_without. Qed.

(** * Name-value lists *)
Lemma get_app l l' name : nvp_get (l ++ l')%list name =
  match nvp_get l name with Some v => Some v | None => nvp_get l' name end.
Proof. induction l as [|p l IH]; [done|]. simpl. by destruct (String.eqb name (n_name p)). Qed.

Lemma get_none l name : nvp_get l name = None <-> ~ name ∈ map n_name l.
Proof.
  induction l as [|p l IH]; simpl; [set_solver|]. rewrite elem_of_cons.
  destruct (String.eqb_spec name (n_name p)); [naive_solver|naive_solver].
Qed.

Lemma get_some l name v : nvp_get l name = Some v -> name ∈ map n_name l.
Proof.
  intros H. destruct (decide (name ∈ map n_name l)) as [|Hn]; [done|].
  apply get_none in Hn. congruence.
Qed.

Lemma append_get l name value : trim_blank name = name -> trim_blank value = value -> ~ name ∈ map n_name l ->
  nvp_get (nvp_append l name value) name = Some value.
Proof.
  intros H1 H2 H3. unfold nvp_append. rewrite get_app. apply get_none in H3. rewrite H3. simpl.
  by rewrite H1, H2, String.eqb_refl.
Qed.

Lemma append_get_other l name value other : trim_blank name <> other ->
  nvp_get (nvp_append l name value) other = nvp_get l other.
Proof.
  intros H. unfold nvp_append. rewrite get_app. destruct (nvp_get l other); [done|]. simpl.
  destruct (String.eqb_spec other (trim_blank name)); congruence.
Qed.

Lemma update_names l name value l' : nvp_update l name value = Some l' -> map n_name l' = map n_name l.
Proof.
  revert l'. induction l as [|p l IH]; simpl; intros l'; [done|].
  destruct (nvp_update l name value) as [r|].
  - intros [= <-]. simpl. by rewrite (IH r).
  - destruct (String.eqb name (n_name p)); [|done]. by intros [= <-].
Qed.

Lemma update_none l name value : nvp_update l name value = None <-> ~ name ∈ map n_name l.
Proof.
  induction l as [|p l IH]; simpl; [set_solver|]. rewrite elem_of_cons.
  destruct (nvp_update l name value) as [r|] eqn:E.
  - split; [done|]. intros H. destruct (decide (name ∈ map n_name l)) as [|Hn]; [naive_solver|].
    apply IH in Hn. done.
  - destruct (String.eqb_spec name (n_name p)); naive_solver.
Qed.

Lemma update_get l name value l' : NoDup (map n_name l) -> nvp_update l name value = Some l' ->
  nvp_get l' name = Some value.
Proof.
  revert l'. induction l as [|p l IH]; simpl; intros l' Hd; [done|].
  inversion Hd as [|? ? Hp Hd']; subst.
  destruct (nvp_update l name value) as [r|] eqn:E.
  - intros [= <-]. simpl. destruct (String.eqb_spec name (n_name p)) as [->|].
    + exfalso. destruct (decide (n_name p ∈ map n_name l)) as [|Hn]; [done|].
      apply update_none with (value := value) in Hn. congruence.
    + by apply IH.
  - destruct (String.eqb_spec name (n_name p)) as [->|]; [|done]. intros [= <-]. simpl.
    by rewrite String.eqb_refl.
Qed.

Lemma update_get_other l name value l' other : other <> name -> nvp_update l name value = Some l' ->
  nvp_get l' other = nvp_get l other.
Proof.
  intros Ho. revert l'. induction l as [|p l IH]; simpl; intros l'; [done|].
  destruct (nvp_update l name value) as [r|] eqn:E.
  - intros [= <-]. simpl. by rewrite (IH r).
  - destruct (String.eqb_spec name (n_name p)) as [->|]; [|done]. intros [= <-]. simpl.
    destruct (String.eqb_spec other (n_name p)); [done|done].
Qed.

Lemma remove_get l name : NoDup (map n_name l) -> nvp_get (nvp_remove l name) name = None.
Proof.
  intros Hd. apply get_none. induction l as [|p l IH]; simpl; [set_solver|].
  inversion Hd as [|? ? Hp Hd']; subst.
  destruct (String.eqb_spec name (n_name p)) as [->|]; [done|]. simpl. set_solver.
Qed.

Lemma remove_get_other l name other : other <> name -> nvp_get (nvp_remove l name) other = nvp_get l other.
Proof.
  intros Ho. induction l as [|p l IH]; simpl; [done|].
  destruct (String.eqb_spec name (n_name p)) as [->|].
  - destruct (String.eqb_spec other (n_name p)); [done|done].
  - simpl. by rewrite IH.
Qed.

Lemma remove_filter l name : NoDup (map n_name l) ->
  nvp_remove l name = List.filter (fun p => negb (String.eqb name (n_name p))) l.
Proof.
  induction l as [|p l IH]; [done|]. simpl. intros Hd. inversion Hd as [|? ? Hp Hd']; subst.
  destruct (String.eqb_spec name (n_name p)) as [->|]; simpl.
  - symmetry. assert (forall q, q ∈ l -> n_name q <> n_name p) as H.
    { intros q Hq E. apply Hp. rewrite <- E. by apply elem_of_list_fmap_1. }
    clear -H. induction l as [|q l IH]; [done|]. simpl.
    destruct (String.eqb_spec (n_name p) (n_name q)) as [E|]; simpl.
    + exfalso. apply (H q); [by left|done].
    + f_equal. apply IH. intros r Hr. apply H. by right.
  - f_equal. by apply IH.
Qed.

(** * The environment *)

Lemma globals_ext l g : exists e, add_globals l g = (l ++ e)%list /\
  forall p, p ∈ e -> exists q, q ∈ g /\ n_name p = trim_blank (n_name q).
Proof.
  revert l. induction g as [|q g IH]; intros l; simpl.
  - exists []. rewrite app_nil_r. set_solver.
  - destruct (nvp_get l (n_name q)).
    + destruct (IH l) as (e & H1 & H2). exists e. split; [done|]. intros p Hp.
      destruct (H2 p Hp) as (r & ? & ?). exists r. set_solver.
    + destruct (IH (nvp_append l (n_name q) (n_value q))) as (e & H1 & H2).
      eexists. split; [rewrite H1; unfold nvp_append; by rewrite <- app_assoc|].
      intros p. rewrite elem_of_app, elem_of_list_singleton. intros [->|Hp].
      * exists q. simpl. set_solver.
      * destruct (H2 p Hp) as (r & ? & ?). exists r. set_solver.
Qed.

Definition as_nvp (kv : string * string) : nvp :=
  {| n_name := trim_blank kv.1; n_value := trim_blank kv.2 |}.

Lemma add_package_eq l m : add_package l m = (l ++ map as_nvp m)%list.
Proof.
  unfold add_package. revert l. induction m as [|kv m IH]; intros l; simpl.
  - by rewrite app_nil_r.
  - rewrite IH. unfold nvp_append. rewrite <- app_assoc. done.
Qed.

(** What the caller's variables add. *)
Lemma system_ext rpath sys l : exists e, fold_left (add_system rpath) sys l = (l ++ e)%list /\
  forall p, p ∈ e -> exists k v, (k +:+ "=" +:+ v) ∈ sys /\ without "=" k /\ v <> "" /\
    k <> "R_LIBS_USER" /\ k <> "R_LIBS_SITE" /\ ~ k ∈ map n_name l /\ n_name p = trim_blank k /\
    n_value p = trim_blank (if bool_decide (to_upper k ∈ censored) then "**HIDDEN**"
                            else if String.eqb k "PATH" then path_value rpath v else v).
Proof.
  revert l. induction sys as [|ev sys IH]; intros l; cbn [fold_left].
  - exists []. rewrite app_nil_r. set_solver.
  - assert (add_system rpath l ev = l \/
      exists k v, ev = k +:+ "=" +:+ v /\ without "=" k /\ v <> "" /\ k <> "R_LIBS_USER" /\ k <> "R_LIBS_SITE" /\
        ~ k ∈ map n_name l /\
        add_system rpath l ev = nvp_append l k (if bool_decide (to_upper k ∈ censored) then "**HIDDEN**"
          else if String.eqb k "PATH" then path_value rpath v else v)) as [E|(k & v & E1 & E2 & E3 & E4 & E5 & E6 & E7)].
    { unfold add_system. destruct (split_on_n (char_eqb "=") 2 ev) as [|k [|v [|]]] eqn:E; try (by left).
      apply split_pair_inv in E as [-> Hk].
      destruct (String.eqb_spec v ""); [by left|].
      destruct (String.eqb_spec k "R_LIBS_USER"); [by left|].
      destruct (String.eqb_spec k "R_LIBS_SITE"); [by left|]. simpl.
      destruct (nvp_get l k) eqn:Eg; [by left|]. right. exists k, v. apply get_none in Eg. done. }
    + rewrite E. destruct (IH l) as (e & H1 & H2). exists e. split; [done|].
      intros p Hp. destruct (H2 p Hp) as (k & v & Hin & Hr). exists k, v. split; [by right|done].
    + rewrite E7. destruct (IH (nvp_append l k (if bool_decide (to_upper k ∈ censored) then "**HIDDEN**"
          else if String.eqb k "PATH" then path_value rpath v else v))) as (e & H1 & H2).
      eexists. split; [rewrite H1; unfold nvp_append at 1; by rewrite <- app_assoc|].
      intros p. rewrite elem_of_app, elem_of_list_singleton. intros [->|Hp].
      * exists k, v. subst ev. split; [by left|]. done.
      * destruct (H2 p Hp) as (k' & v' & Hin & Ha & Hb & Hc & Hd & He & Hr).
        exists k', v'. split; [by right|]. repeat (split; [done|]). split; [|done].
        intros Hk. apply He. unfold nvp_append. rewrite map_app. set_solver.
Qed.

(** The last part of the list. *)
Definition libs_part (rs : env_settings) (tmpdir : string) : list nvp :=
  ({| n_name := "R_LIBS_USER"; n_value := trim_blank tmpdir |} ::
   match lib_paths_env (e_libs rs) with
   | Some lp => nvp_append_nvp [] lp
   | None => []
   end).

Lemma env_list_eq sys rs tmpdir : env_list sys rs tmpdir =
  (fold_left (add_system (e_rpath rs)) sys (add_package (add_globals [] (e_global rs)) (e_package rs)) ++
   libs_part rs tmpdir)%list.
Proof.
  unfold env_list, libs_part. set (l := fold_left _ _ _).
  destruct (lib_paths_env (e_libs rs)) as [lp|]; [|done].
  unfold nvp_append_nvp. destruct (split_char "=" lp) as [|a [|b [|]]]; [done|done| |done].
  unfold nvp_append. by rewrite <- app_assoc.
Qed.

Lemma libs_names rs tmpdir p : p ∈ libs_part rs tmpdir -> n_name p = "R_LIBS_USER" \/ n_name p = "R_LIBS_SITE".
Proof.
  unfold libs_part. rewrite elem_of_cons. intros [->|H]; [by left|right].
  assert (exists x, lib_paths_env (e_libs rs) = Some ("R_LIBS_SITE=" +:+ x) /\
     p ∈ nvp_append_nvp [] ("R_LIBS_SITE=" +:+ x)) as (x & _ & Hp).
  { unfold lib_paths_env in *. destruct (e_libs rs) as [|a [|b r]].
    - by apply elem_of_nil in H.
    - destruct a as [|c a]; [by apply elem_of_nil in H|]. by eexists.
    - by destruct a; eexists. }
  unfold nvp_append_nvp in Hp.
  change (split_char "=" ("R_LIBS_SITE=" +:+ x)) with ("R_LIBS_SITE" :: split_char "=" x) in Hp.
  destruct (split_char "=" x) as [|b [|]]; [by apply elem_of_nil in Hp| |by apply elem_of_nil in Hp].
  unfold nvp_append in Hp. simpl in Hp. apply elem_of_list_singleton in Hp. by subst p.
Qed.

Lemma lib_site libs : libs <> [] -> libs <> [""] -> without "=" (join ":" libs) -> unpadded (join ":" libs) ->
  exists lp, lib_paths_env libs = Some lp /\
    nvp_append_nvp [] lp = [{| n_name := "R_LIBS_SITE"; n_value := join ":" libs |}].
Proof.
  intros H1 H2 H3 H4. exists ("R_LIBS_SITE=" +:+ join ":" libs). split.
  - unfold lib_paths_env. destruct libs as [|[|c a] [|b r]]; done.
  - unfold nvp_append_nvp.
    change (split_char "=" ("R_LIBS_SITE=" +:+ join ":" libs)) with ("R_LIBS_SITE" :: split_char "=" (join ":" libs)).
    unfold split_char. rewrite split_on_none by done. unfold nvp_append. simpl.
    by rewrite (unpadded_trim (join ":" libs)).
Qed.

Lemma libs_without rs tmpdir p : p ∈ libs_part rs tmpdir -> without "=" (n_name p).
Proof. by intros [-> | ->]%libs_names. Qed.

(** C54 *)
Lemma libs_user sys rs tmpdir : unpadded tmpdir -> env_value (configure_env sys rs tmpdir) "R_LIBS_USER" tmpdir.
Proof.
  intros H. unfold configure_env. rewrite env_list_eq, map_app.
  eexists. eexists. split; [unfold libs_part; cbn [map]; unfold nvp_string at 2; simpl; by rewrite unpadded_trim|].
  intros w Hw. apply elem_of_list_fmap in Hw as (p & E & Hp).
  assert (p ∈ libs_part rs tmpdir) as Hp' by (by right).
  assert (n_name p = "R_LIBS_SITE") as Hs.
  { unfold libs_part in Hp'. destruct (lib_paths_env (e_libs rs)) as [lp|] eqn:El; [|by apply elem_of_nil in Hp].
    assert (exists x, lp = "R_LIBS_SITE=" +:+ x) as [x ->].
    { unfold lib_paths_env in El. destruct (e_libs rs) as [|[|c a] [|b r]]; try done; injection El as <-; by eexists. }
    unfold nvp_append_nvp in Hp.
    change (split_char "=" ("R_LIBS_SITE=" +:+ x)) with ("R_LIBS_SITE" :: split_char "=" x) in Hp.
    destruct (split_char "=" x) as [|b [|]]; [by apply elem_of_nil in Hp| |by apply elem_of_nil in Hp].
    unfold nvp_append in Hp. simpl in Hp. apply elem_of_list_singleton in Hp. by subst p. }
  unfold nvp_string in E. rewrite Hs in E. discriminate E.
Qed.

Lemma libs_site sys rs tmpdir : e_libs rs <> [] -> e_libs rs <> [""] ->
  without "=" (join ":" (e_libs rs)) -> unpadded (join ":" (e_libs rs)) ->
  env_value (configure_env sys rs tmpdir) "R_LIBS_SITE" (join ":" (e_libs rs)).
Proof.
  intros H1 H2 H3 H4. destruct (lib_site _ H1 H2 H3 H4) as (lp & E1 & E2).
  unfold configure_env. rewrite env_list_eq. unfold libs_part. rewrite E1, E2, map_app.
  set (a := map nvp_string (fold_left _ _ _)). cbn [map].
  exists (a ++ [nvp_string {| n_name := "R_LIBS_USER"; n_value := trim_blank tmpdir |}])%list, [].
  split; [by rewrite <- app_assoc|]. intros w Hw. by apply elem_of_nil in Hw.
Qed.

(** No caller's value of the two variables survives in a plain environment. *)
Lemma libs_not_inherited sys rs tmpdir name w : name = "R_LIBS_USER" \/ name = "R_LIBS_SITE" ->
  plain_environment sys ->
  (forall p, p ∈ e_global rs -> var_name (n_name p) /\ n_name p <> name) ->
  (forall kv, kv ∈ e_package rs -> var_name kv.1 /\ kv.1 <> name) ->
  (name +:+ "=" +:+ w) ∈ configure_env sys rs tmpdir ->
  exists p, p ∈ libs_part rs tmpdir /\ n_name p = name /\ n_value p = w.
Proof.
  intros Hn Hp Hg Hk H. unfold configure_env in H. rewrite env_list_eq in H.
  apply elem_of_list_fmap in H as (p & E & H). unfold nvp_string in E.
  assert (without "=" name) as Hw by (by destruct Hn as [-> | ->]).
  apply elem_of_app in H as [H|H].
  - exfalso. destruct (system_ext (e_rpath rs) sys (add_package (add_globals [] (e_global rs)) (e_package rs))) as (e & E1 & E2).
    rewrite E1 in H. apply elem_of_app in H as [H|H].
    + rewrite add_package_eq in H. apply elem_of_app in H as [H|H].
      * destruct (globals_ext [] (e_global rs)) as (e' & E3 & E4). rewrite E3 in H.
        destruct (E4 p H) as (q & Hq & Eq). destruct (Hg q Hq) as [[Hu Hwq] Hne].
        rewrite (unpadded_trim _ Hu) in Eq. rewrite Eq in E.
        destruct (eq_split _ _ _ _ Hw Hwq E). congruence.
      * apply elem_of_list_fmap in H as (kv & -> & Hkv). destruct (Hk kv Hkv) as [[Hu Hwq] Hne].
        simpl in E. rewrite (unpadded_trim _ Hu) in E. destruct (eq_split _ _ _ _ Hw Hwq E). congruence.
    + destruct (E2 p H) as (k & v & Hin & Hwk & _ & N1 & N2 & _ & Ek & _).
      rewrite (unpadded_trim k) in Ek by (by eapply Hp). rewrite Ek in E.
      destruct (eq_split _ _ _ _ Hw Hwk E). destruct Hn; congruence.
  - exists p. split; [done|]. by destruct (eq_split _ _ _ _ Hw (libs_without _ _ _ H) E).
Qed.

(** C55 *)
Lemma package_wins sys rs tmpdir k v : plain_environment sys ->
  (forall kv, kv ∈ e_package rs -> var_name kv.1) -> NoDup (map fst (e_package rs)) ->
  (k, v) ∈ e_package rs -> k <> "R_LIBS_USER" -> k <> "R_LIBS_SITE" -> unpadded v ->
  env_value (configure_env sys rs tmpdir) k v.
Proof.
  intros Hp Hv Hd Hk N1 N2 Hu. unfold configure_env. rewrite env_list_eq.
  destruct (system_ext (e_rpath rs) sys (add_package (add_globals [] (e_global rs)) (e_package rs))) as (e & E1 & E2).
  rewrite E1. rewrite add_package_eq in *. set (g := add_globals [] (e_global rs)) in *.
  apply elem_of_list_split in Hk as (m1 & m2 & Em). rewrite Em in *.
  assert (var_name k) as [Huk Hwk] by (apply (Hv (k, v)); set_solver).
  exists (map nvp_string (g ++ map as_nvp m1)%list), (map nvp_string (map as_nvp m2 ++ e ++ libs_part rs tmpdir)%list).
  split.
  - rewrite !map_app. cbn [map].
    assert (nvp_string (as_nvp (k, v)) = k +:+ "=" +:+ v) as ->.
    { unfold nvp_string, as_nvp. cbn [fst snd n_name n_value].
      by rewrite (unpadded_trim k Huk), (unpadded_trim v Hu). }
    rewrite <- !app_assoc. done.
  - intros w H. apply elem_of_list_fmap in H as (p & E & H). unfold nvp_string in E.
    rewrite !elem_of_app in H. destruct H as [H|[H|H]].
    + apply elem_of_list_fmap in H as (kv & -> & Hkv).
      assert (var_name kv.1) as [Hu' Hw'] by (apply Hv; set_solver).
      simpl in E. rewrite (unpadded_trim _ Hu') in E. destruct (eq_split _ _ _ _ Hwk Hw' E) as [-> _].
      rewrite map_app in Hd. apply NoDup_app in Hd as (_ & _ & Hd). simpl in Hd.
      inversion Hd as [|? ? Hni _]; subst. apply Hni. by apply elem_of_list_fmap_1.
    + destruct (E2 p H) as (k' & v' & Hin & Hwk' & _ & _ & _ & Hni & Ek & _).
      rewrite (unpadded_trim k') in Ek by (by eapply Hp). rewrite Ek in E.
      destruct (eq_split _ _ _ _ Hwk Hwk' E) as [-> _]. apply Hni.
      rewrite !map_app, !elem_of_app. right. right. cbn [map]. apply elem_of_cons. left. unfold as_nvp; cbn [fst n_name]. by rewrite unpadded_trim.
    + destruct (eq_split _ _ _ _ Hwk (libs_without _ _ _ H) E). destruct (libs_names _ _ _ H); congruence.
Qed.

(** Values of a variable that nobody customized. *)
Lemma only_system sys rs tmpdir name w : plain_environment sys -> var_name name ->
  name <> "R_LIBS_USER" -> name <> "R_LIBS_SITE" ->
  (forall p, p ∈ e_global rs -> var_name (n_name p) /\ n_name p <> name) ->
  (forall kv, kv ∈ e_package rs -> var_name kv.1 /\ kv.1 <> name) ->
  (name +:+ "=" +:+ w) ∈ configure_env sys rs tmpdir ->
  exists v, (name +:+ "=" +:+ v) ∈ sys /\ v <> "" /\
    w = trim_blank (if bool_decide (to_upper name ∈ censored) then "**HIDDEN**"
                    else if String.eqb name "PATH" then path_value (e_rpath rs) v else v).
Proof.
  intros Hp [Hun Hw] N1 N2 Hg Hk H. unfold configure_env in H. rewrite env_list_eq in H.
  apply elem_of_list_fmap in H as (p & E & H). unfold nvp_string in E.
  apply elem_of_app in H as [H|H].
  - destruct (system_ext (e_rpath rs) sys (add_package (add_globals [] (e_global rs)) (e_package rs))) as (e & E1 & E2).
    rewrite E1 in H. apply elem_of_app in H as [H|H].
    + exfalso. rewrite add_package_eq in H. apply elem_of_app in H as [H|H].
      * destruct (globals_ext [] (e_global rs)) as (e' & E3 & E4). rewrite E3 in H.
        destruct (E4 p H) as (q & Hq & Eq). destruct (Hg q Hq) as [[Hu Hwq] Hne].
        rewrite (unpadded_trim _ Hu) in Eq. rewrite Eq in E.
        destruct (eq_split _ _ _ _ Hw Hwq E). congruence.
      * apply elem_of_list_fmap in H as (kv & -> & Hkv). destruct (Hk kv Hkv) as [[Hu Hwq] Hne].
        simpl in E. rewrite (unpadded_trim _ Hu) in E. destruct (eq_split _ _ _ _ Hw Hwq E). congruence.
    + destruct (E2 p H) as (k & v & Hin & Hwk & Hv & _ & _ & _ & Ek & Ev).
      rewrite (unpadded_trim k) in Ek by (by eapply Hp). rewrite Ek in E.
      destruct (eq_split _ _ _ _ Hw Hwk E) as [-> ->]. exists v. split; [done|]. by split.
  - exfalso. destruct (eq_split _ _ _ _ Hw (libs_without _ _ _ H) E). destruct (libs_names _ _ _ H); congruence.
Qed.

(** C56 *)
Lemma secret_hidden sys rs tmpdir name w : plain_environment sys -> var_name name ->
  to_upper name ∈ censored ->
  (forall p, p ∈ e_global rs -> var_name (n_name p) /\ n_name p <> name) ->
  (forall kv, kv ∈ e_package rs -> var_name kv.1 /\ kv.1 <> name) ->
  (name +:+ "=" +:+ w) ∈ configure_env sys rs tmpdir -> w = "**HIDDEN**".
Proof.
  intros Hp Hn Hc Hg Hk H.
  assert (name <> "R_LIBS_USER") by (intros ->; vm_compute in Hc; set_solver).
  assert (name <> "R_LIBS_SITE") by (intros ->; vm_compute in Hc; set_solver).
  destruct (only_system sys rs tmpdir name w) as (v & _ & _ & ->); try done.
  by rewrite bool_decide_eq_true_2.
Qed.

(** C76 *)
Lemma system_first rpath name v : forall sys l, without "=" name -> v <> "" ->
  name <> "R_LIBS_USER" -> name <> "R_LIBS_SITE" -> ~ name ∈ map n_name l ->
  caller_has sys name v -> plain_environment sys ->
  {| n_name := trim_blank name;
     n_value := trim_blank (if bool_decide (to_upper name ∈ censored) then "**HIDDEN**"
                            else if String.eqb name "PATH" then path_value rpath v else v) |}
   ∈ fold_left (add_system rpath) sys l.
Proof.
  intros sys l Hw Hv N1 N2 Hl (a & b & -> & Ha) Hp. rewrite fold_left_app. cbn [fold_left].
  destruct (system_ext rpath a l) as (e & E1 & E2). rewrite E1.
  assert (~ name ∈ map n_name (l ++ e)%list) as Hn.
  { rewrite map_app, elem_of_app. intros [H|H]; [done|].
    apply elem_of_list_fmap in H as (p & -> & H).
    destruct (E2 p H) as (k & v' & Hin & Hwk & _ & _ & _ & _ & Ek & _).
    assert (unpadded k) as Hu by (eapply Hp; [done|apply elem_of_app; left; done]).
    rewrite (unpadded_trim k Hu) in Ek. rewrite Ek in Ha. by apply (Ha v'). }
  set (l2 := add_system rpath (l ++ e)%list (name +:+ "=" +:+ v)).
  destruct (system_ext rpath b l2) as (e2 & -> & _). apply elem_of_app. left. unfold l2, add_system.
  rewrite (split_pair _ _ Hw). destruct (String.eqb_spec v ""); [done|].
  destruct (String.eqb_spec name "R_LIBS_USER"); [done|].
  destruct (String.eqb_spec name "R_LIBS_SITE"); [done|]. simpl.
  apply get_none in Hn. rewrite Hn. unfold nvp_append. apply elem_of_app. right. by left.
Qed.

Lemma last_split (P : string -> Prop) (P_dec : forall x, Decision (P x)) (l : list string) :
  (exists x, x ∈ l /\ P x) -> exists a x b, l = (a ++ x :: b)%list /\ P x /\ forall y, y ∈ b -> ~ P y.
Proof.
  induction l as [|y l IH]; intros (x & Hx & HP); [by apply elem_of_nil in Hx|].
  destruct (decide (Exists P l)) as [He|He].
  - apply Exists_exists in He. destruct (IH He) as (a & z & b & -> & Hz & Hb).
    by exists (y :: a), z, b.
  - exists [], y, l. apply elem_of_cons in Hx as [->|Hx].
    + split; [done|]. split; [done|]. intros z Hz HPz. apply He, Exists_exists. eauto.
    + exfalso. apply He, Exists_exists. eauto.
Qed.

Lemma passed_through sys rs tmpdir name v : plain_environment sys -> var_name name ->
  name <> "R_LIBS_USER" -> name <> "R_LIBS_SITE" -> name <> "PATH" -> ~ to_upper name ∈ censored ->
  (forall p, p ∈ e_global rs -> var_name (n_name p) /\ n_name p <> name) ->
  (forall kv, kv ∈ e_package rs -> var_name kv.1 /\ kv.1 <> name) ->
  caller_has sys name v -> (forall u, (name +:+ "=" +:+ u) ∈ sys -> u = v) -> v <> "" -> unpadded v ->
  env_value (configure_env sys rs tmpdir) name v.
Proof.
  intros Hp Hn N1 N2 N3 Hc Hg Hk Hs Hone Hv Hu.
  assert ((name +:+ "=" +:+ v) ∈ configure_env sys rs tmpdir) as Hin.
  { unfold configure_env. rewrite env_list_eq, map_app, elem_of_app. left.
    apply elem_of_list_fmap. exists {| n_name := name; n_value := v |}. split; [done|].
    pose proof (system_first (e_rpath rs) name v sys (add_package (add_globals [] (e_global rs)) (e_package rs))) as H.
    rewrite bool_decide_eq_false_2 in H by done.
    destruct (String.eqb_spec name "PATH"); [done|].
    rewrite (unpadded_trim name), (unpadded_trim v) in H by (done || apply Hn).
    apply H; try done; [apply Hn|]. intros Hx. rewrite add_package_eq, map_app, elem_of_app in Hx.
    destruct Hx as [Hx|Hx].
    - destruct (globals_ext [] (e_global rs)) as (e' & E3 & E4). rewrite E3 in Hx.
      apply elem_of_list_fmap in Hx as (p & Ep & Hx). destruct (E4 p Hx) as (q & Hq & Eq).
      destruct (Hg q Hq) as [[Huq _] Hne]. rewrite (unpadded_trim _ Huq) in Eq. congruence.
    - rewrite map_map in Hx. apply elem_of_list_fmap in Hx as (kv & Ep & Hx). destruct (Hk kv Hx) as [[Huq _] Hne].
      simpl in Ep. rewrite (unpadded_trim _ Huq) in Ep. congruence. }
  destruct (last_split (fun s => has_prefix (name +:+ "=") s = true) _ (configure_env sys rs tmpdir))
    as (a & x & b & E & Hx & Hb).
  { exists (name +:+ "=" +:+ v). split; [done|]. rewrite <- app_assoc_str. apply has_prefix_app. }
  apply has_prefix_true in Hx as [w ->]. rewrite app_assoc_str in E.
  assert (w = v) as ->.
  { destruct (only_system sys rs tmpdir name w) as (u & Hin' & _ & ->); try done.
    { rewrite E. apply elem_of_app. right. by left. }
    rewrite bool_decide_eq_false_2 by done. destruct (String.eqb_spec name "PATH"); [done|].
    rewrite (Hone u Hin'). by apply unpadded_trim. }
  exists a, b. split; [done|]. intros w Hw. apply (Hb _ Hw). rewrite <- app_assoc_str. apply has_prefix_app.
Qed.

Lemma to_upper_upper s : to_upper s = upper s.
Proof.
  induction s as [|c s IH]; [done|]. cbn [to_upper upper]. rewrite IH. f_equal.
  unfold upper_char, upcase. cbv zeta.
  change (nat_of_ascii "a") with 97. change (nat_of_ascii "z") with 122.
  destruct (Nat.leb_spec 97 (nat_of_ascii c)), (Nat.leb_spec (nat_of_ascii c) 122); cbn [andb];
    first [rewrite bool_decide_eq_true_2 by lia | rewrite bool_decide_eq_false_2 by lia]; first [reflexivity | lia].
Qed.

Lemma sensitive_censored name : sensitive name <-> to_upper name ∈ censored.
Proof.
  unfold sensitive. rewrite to_upper_upper. unfold censored. rewrite !elem_of_cons, elem_of_nil. tauto.
Qed.

Definition unpadded_dec (n : string) : bool :=
  negb (has_prefix " " n) && negb (has_prefix " " (string_rev n "")).

Lemma string_rev_app s a : string_rev s a = string_rev s "" +:+ a.
Proof.
  revert a. induction s as [|c s IH]; intros a; [done|]. cbn [string_rev].
  rewrite (IH (String c a)), (IH (String c "")). by rewrite app_assoc_str.
Qed.

Lemma string_rev_snoc r c a : string_rev (r +:+ String c "") a = String c (string_rev r a).
Proof. revert a. induction r as [|d r IH]; intros a; [done|]. simpl. apply IH. Qed.

Lemma unpadded_dec_ok n : unpadded_dec n = true -> unpadded n.
Proof.
  unfold unpadded_dec. intros [H1 H2]%andb_true_iff r. apply negb_true_iff in H1, H2. split; intros ->.
  - by rewrite has_prefix_app in H1.
  - rewrite string_rev_snoc in H2. change (String " " (string_rev r "")) with (" " +:+ string_rev r "") in H2.
    by rewrite has_prefix_app in H2.
Qed.

(** Entries of a concrete environment. *)
Lemma plain_check sys :
  forallb (fun e => match split_on_n (char_eqb "=") 2 e with [k; _] => unpadded_dec k | _ => true end) sys = true ->
  plain_environment sys.
Proof.
  intros H k v Hk Hin. rewrite forallb_forall in H. specialize (H _ (proj1 (elem_of_list_In _ _) Hin)).
  rewrite (split_pair _ _ Hk) in H. by apply unpadded_dec_ok.
Qed.
