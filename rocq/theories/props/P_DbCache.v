(** C142: databases in the cache. *)
From stdpp Require Import strings list gmap.
From Coq Require Import Ascii ZArith Lia.
From Verif.model Require Import GoStr Version Desc Nexus RepoDb DbCache.
From Verif.spec Require Import DbCacheSpec.
From Verif.proofs Require Import GoStrLemmas UrlProofs.
From Verif.props Require Import P_Graph.

Local Open Scope string_scope.

Lemma collect_gathered ar l n l' n' : collect_indexes ar l n = (l', n') <->
  gathered ar l l' /\ exists k, failures ar k /\ n' = (n + k)%nat.
Proof.
  revert l n. induction ar as [|[st [m|]] ar IH]; intros l n; cbn [collect_indexes].
  - split.
    + intros [= <- <-]. split; [constructor|]. exists 0. split; [constructor|lia].
    + intros (H1 & k & H2 & ->). inversion H1; inversion H2; subst. f_equal. lia.
  - rewrite IH. split; intros (H1 & k & H2 & ->).
    + split; [by constructor|]. exists k. split; [by constructor|done].
    + inversion H1; inversion H2; subst. split; [done|]. by exists k.
  - rewrite IH. split; intros (H1 & k & H2 & ->).
    + split; [by constructor|]. exists (S k). split; [by constructor|lia].
    + inversion H1; inversion H2; subst. split; [done|]. eexists. split; [done|lia].
Qed.

Lemma merge_gathered (l types : db_maps) :
  gathered (map (fun tm => (tm.1, Some tm.2)) l) types (fold_left (fun l tm => set_descs tm.1 tm.2 l) l types).
Proof. revert types. induction l as [|[t m] l IH]; intros types; cbn [map fold_left fst snd]; [constructor|]. by constructor. Qed.

Lemma gathered_fun ar l l1 l2 : gathered ar l l1 -> gathered ar l l2 -> l1 = l2.
Proof. intros H. revert l2. induction H; intros l2 H2; inversion H2; subst; auto. Qed.

Lemma failures_fun ar n m : failures ar n -> failures ar m -> n = m.
Proof. intros H. revert m. induction H; intros k H2; inversion H2; subst; auto. Qed.

Lemma fetched_fun u l1 l2 : fetched_by u l1 -> fetched_by u l2 -> l1 = l2.
Proof. intros (ar & n & E & G & _) (ar' & n' & E' & G' & _). assert (ar' = ar) as -> by congruence. by eapply gathered_fun. Qed.

(** Younger than the maximal age. *)
Definition fresh (u : db_use) (p : db_place) : Prop := exists t s, p = PFile t s /\ (u_now u < t + max_age (u_env u))%Z.

Lemma refetch_cases u p : exists r p', refetch (u_now u) (u_types u) (u_arrivals u) (u_text u) (u_how u) p = (r, p') /\
  ((exists l, fetched_by u l /\ encode (u_now u) l (u_text u) (u_how u) p = (r, p')) \/
   (~ (exists l, fetched_by u l) /\ (r = DbEnded /\ u_arrivals u = None \/ r = DbError /\ is_Some (u_arrivals u)) /\ p' = p)).
Proof.
  unfold refetch. destruct (u_arrivals u) as [ar|] eqn:Ea.
  - destruct (collect_indexes ar (u_types u) 0) as [l n] eqn:Ec. apply collect_gathered in Ec as (G & k & F & ->). cbn [Nat.add].
    destruct ((1 <? length l)%nat && (k =? length l)%nat)%bool eqn:E.
    + eexists _, _. split; [done|]. right. apply andb_true_iff in E as [E1 E2]. apply Nat.ltb_lt in E1. apply Nat.eqb_eq in E2.
      split; [|split; [right; eauto|done]]. intros (l' & ar' & n & E' & G' & F' & N).
      rewrite Ea in E'. injection E' as <-. assert (l' = l) as -> by by eapply gathered_fun.
      assert (n = k) as -> by by eapply failures_fun. apply N. split; lia.
    + destruct (encode (u_now u) l (u_text u) (u_how u) p) as [r p'] eqn:En. exists r, p'. split; [done|]. left. exists l.
      split; [|done]. exists ar, k. split; [done|]. split; [done|]. split; [done|]. intros [H1 H2].
      apply andb_false_iff in E as [E|E]; [apply Nat.ltb_ge in E; lia|apply Nat.eqb_neq in E; lia].
  - exists DbEnded, p. split; [done|]. right. split; [|split; [by left|done]]. intros (l & ar & n & E & _). congruence.
Qed.

(** When maps are delivered, and which: those in the file if it is young enough and can
    be read, and then the file stays; those of the indexes if there is no file or it is
    too old, the indexes could be fetched and the file could be written, and then the
    file has them. *)
Theorem C142_exact g u p r p' : use_db g u p = (DbOk r, p') <->
  (exists t s l, p = PFile t s /\ (u_now u < t + max_age (u_env u))%Z /\ g_read g s = Some l /\
     gathered (map (fun tm => (tm.1, Some tm.2)) l) (u_types u) r /\ p' = p) \/
  (p <> PBad /\ ~ fresh u p /\ fetched_by u r /\ u_how u = Written /\ p' = PFile (u_now u) (u_text u)).
Proof.
  unfold use_db, fetch_db.
  assert (forall q, q <> PBad -> refetch (u_now u) (u_types u) (u_arrivals u) (u_text u) (u_how u) q = (DbOk r, p') <->
    fetched_by u r /\ u_how u = Written /\ p' = PFile (u_now u) (u_text u)) as K.
  { intros q Hq. destruct (refetch_cases u q) as (r0 & p0 & -> & [(l & Hl & E)|(Hn & H & ->)]).
    - unfold encode in E. split.
      + intros [= -> ->]. destruct q; [..|done]; destruct (u_how u); try done; injection E as -> ->; done.
      + intros (Hr & Hh & ->). rewrite Hh in E. assert (l = r) as -> by by eapply fetched_fun. by destruct q; injection E as <- <-.
    - split; [|intros (Hr & _); exfalso; apply Hn; eauto]. intros [= -> ->]. destruct H as [[H _]|[H _]]; done. }
  destruct p as [|t s|].
  - rewrite K by done. split.
    + intros H. right. split; [done|]. split; [|done]. by intros (t & s & E & _).
    + intros [(t & s & l & E & _)|(_ & _ & H)]; done.
  - destruct (t + max_age (u_env u) >? u_now u)%Z eqn:E.
    + apply Z.gtb_lt in E. unfold decode. split.
      * destruct (g_read g s) as [l|] eqn:Er; [|done]. intros [= <- <-]. left. exists t, s, l.
        split; [done|]. split; [done|]. split; [done|]. split; [apply merge_gathered|done].
      * intros [(t' & s' & l & [= -> ->] & _ & Er & G & ->)|(_ & H & _)]; [|by exfalso; apply H; exists t, s].
        rewrite Er. do 2 f_equal. eapply gathered_fun; [apply merge_gathered|done].
    + rewrite Z.gtb_ltb in E. apply Z.ltb_ge in E. rewrite K by by destruct (u_rm u). split.
      * intros H. right. split; [done|]. split; [|done]. intros (t' & s' & [= <- <-] & H'). lia.
      * intros [(t' & s' & l & [= <- <-] & H & _)|(_ & _ & H)]; [lia|done].
  - split; [done|]. intros [(t & s & l & E & _)|(E & _)]; done.
Qed.

(** ** One use after the other *)

(** The file was written by one of the uses. *)
Definition written_by (us : list db_use) (p : db_place) : Prop :=
  p = PNothing \/ exists u l n, u ∈ us /\ fetched_by u l /\
    (p = PFile (u_now u) (u_text u) /\ u_how u = Written \/
     p = PFile (u_now u) (substring 0 n (u_text u)) /\ u_how u <> Written).

Lemma use_written g us u p r p' : written_by us p -> use_db g u p = (r, p') -> written_by (us ++ [u]) p'.
Proof.
  intros Hw. assert (written_by (us ++ [u]) p) as Hp.
  { destruct Hw as [-> |(v & l & n & Hv & H)]; [by left|right]. exists v, l, n. split; [apply elem_of_app; by left|done]. }
  assert (forall q, written_by (us ++ [u]) q -> refetch (u_now u) (u_types u) (u_arrivals u) (u_text u) (u_how u) q = (r, p') -> written_by (us ++ [u]) p') as K.
  { intros q Hq E. destruct (refetch_cases u q) as (r0 & p0 & E0 & H). rewrite E in E0. injection E0 as <- <-.
    destruct H as [(l & Hl & En)|(_ & _ & ->)]; [|done]. unfold encode in En.
    assert (u ∈ (us ++ [u])%list) as Hu by (apply elem_of_app; right; by left).
    destruct q as [|t s|].
    - destruct (u_how u) eqn:Eh; injection En as <- <-; [done|right; exists u, l..]; [exists n|exists n|exists 0];
        (split; [done|]; split; [done|]; rewrite Eh; auto).
    - destruct (u_how u) eqn:Eh; injection En as <- <-; [done|right; exists u, l..]; [exists n|exists n|exists 0];
        (split; [done|]; split; [done|]; rewrite Eh; auto).
    - injection En as <- <-. done. }
  unfold use_db, fetch_db. destruct p as [|t s|].
  - apply K. by left.
  - destruct (_ >? _)%Z; [by intros [= <- <-]|]. apply K. destruct (u_rm u); [by left|done].
  - by intros [= <- <-].
Qed.

Lemma uses_snoc g us u p : uses g (us ++ [u]) p =
  let '(rs, q) := uses g us p in let '(r, q') := use_db g u q in ((rs ++ [r])%list, q').
Proof.
  revert p. induction us as [|v us IH]; intros p; cbn [app uses].
  - by destruct (use_db g u p).
  - destruct (use_db g v p) as [r0 p0]. rewrite IH. destruct (uses g us p0) as [rs q]. by destruct (use_db g u q).
Qed.

Lemma uses_written g us rs p : uses g us PNothing = (rs, p) -> written_by us p /\ length rs = length us.
Proof.
  revert rs p. induction us as [|u us IH] using rev_ind; intros rs p.
  - intros [= <- <-]. split; [by left|done].
  - rewrite uses_snoc. destruct (uses g us PNothing) as [rs0 p0] eqn:E0. destruct (IH _ _ eq_refl) as [I1 I2].
    destruct (use_db g u p0) as [r p1] eqn:Eu. intros [= <- <-]. split; [by eapply use_written|].
    rewrite !app_length, I2. done.
Qed.

Lemma substring_whole s n : exists b, s = substring 0 n s +:+ b.
Proof.
  revert n. induction s as [|c s IH]; intros n; [exists ""; by destruct n|].
  destruct n as [|n]; [by exists (String c s)|]. destruct (IH n) as [b E]. exists b. cbn. by rewrite <- E.
Qed.

(** Whatever is delivered was fetched before, and all of it was written to the file,
    not longer ago than the maximal age, or by the very use; also when uses before
    were killed or could not write.  Missing: that the use that fetched it could fetch all
    indexes (C142_one_index_refuted), that something is delivered after a use was killed
    (C142_killed_refuted). *)
Theorem C142_partial g us u rs p r p' : gob_ok g -> texts_ok g us -> uses g us PNothing = (rs, p) ->
  use_db g u p = (DbOk r, p') ->
  fetched_by u r \/
  exists v l, v ∈ us /\ fetched_by v l /\ (u_now u < u_now v + max_age (u_env u))%Z /\
    gathered (map (fun tm => (tm.1, Some tm.2)) l) (u_types u) r.
Proof.
  intros [G1 G2] Ht Hus H. apply uses_written in Hus as [W _]. apply C142_exact in H as [(t & s & l & -> & Hy & Er & Hg & ->)|(_ & _ & H & _)]; [|by left].
  right. destruct W as [|(v & l' & n & Hv & Hl & [[[= -> ->] Hw]|[[= -> ->] Hw]])]; [done|..].
  - exists v, l'. rewrite (G1 _ _ (Ht v l' Hv Hl)) in Er. injection Er as <-. done.
  - destruct (substring_whole (u_text v) n) as [b Eb]. pose proof (Ht v l' Hv Hl) as T. rewrite Eb in T.
    destruct (decide (b = "")) as [-> |Hb]; [|by rewrite (G2 _ _ _ T Hb) in Er].
    rewrite app_nil_str in T. exists v, l'. rewrite (G1 _ _ T) in Er. injection Er as <-. done.
Qed.

(** If nothing goes wrong, every use delivers: every index can be fetched, files can be
    written and nobody kills the program. *)
Theorem C142_delivers_partial g us rs p : gob_ok g -> texts_ok g us -> all_written us ->
  (forall u, u ∈ us -> exists l, fetched_by u l) ->
  uses g us PNothing = (rs, p) -> forall r, r ∈ rs -> exists l, r = DbOk l.
Proof.
  intros G Ht Hw Hf. revert rs p. induction us as [|u us IH] using rev_ind; intros rs p; [intros [= <- <-] r Hr; inversion Hr|].
  rewrite uses_snoc. destruct (uses g us PNothing) as [rs0 p0] eqn:E0. destruct (use_db g u p0) as [r1 p1] eqn:Eu. intros [= <- <-] r Hr.
  assert (forall v, v ∈ us -> v ∈ (us ++ [u])%list) as Hin by (intros v Hv; apply elem_of_app; by left).
  apply elem_of_app in Hr as [Hr|Hr].
  { eapply IH; [| | |done|done]; intros v; [intros l Hv; apply Ht|intros Hv; apply Hw|intros Hv; apply Hf]; by apply Hin. }
  apply elem_of_list_singleton in Hr as ->.
  assert (u ∈ (us ++ [u])%list) as Hu by (apply elem_of_app; right; by left).
  destruct (Hf u Hu) as [l Hl]. pose proof (Hw u Hu) as Hh.
  pose proof (uses_written _ _ _ _ E0) as [W _].
  assert (p0 = PNothing \/ exists t s l', p0 = PFile t s /\ g_read g s = Some l') as Hp.
  { destruct W as [-> |(v & l' & n & Hv & Hl' & H)]; [by left|right].
    assert (u_how v = Written) as Hvw by by apply Hw, Hin. destruct H as [[-> _]|[_ H]]; [|done].
    exists (u_now v), (u_text v), l'. split; [done|]. destruct G as [G1 _]. apply G1, Ht; [by apply Hin|done]. }
  clear W. destruct Hp as [-> |(t & s & l' & -> & Er)].
  - assert (use_db g u PNothing = (DbOk l, PFile (u_now u) (u_text u))) as Ek.
    { apply C142_exact. right. split; [done|]. split; [|done]. by intros (t & s & E & _). }
    rewrite Ek in Eu. injection Eu as <- <-. by exists l.
  - destruct (decide (u_now u < t + max_age (u_env u))%Z) as [Hy|Hy].
    + eassert (use_db g u (PFile t s) = (DbOk _, PFile t s)) as Ek.
      { apply C142_exact. left. exists t, s, l'. split; [done|]. split; [done|]. split; [done|]. split; [apply merge_gathered|done]. }
      rewrite Ek in Eu. injection Eu as <- <-. by eexists.
    + assert (use_db g u (PFile t s) = (DbOk l, PFile (u_now u) (u_text u))) as Ek.
      { apply C142_exact. right. split; [done|]. split; [|done]. by intros (t' & s' & [= <- <-] & H). }
      rewrite Ek in Eu. injection Eu as <- <-. by exists l.
Qed.

(** The file of [c] in the model where caches are whole (C19). *)
Definition same_place (g : gob) (c : option cache_file) (p : db_place) : Prop :=
  match c with
  | None => p = PNothing
  | Some cf => exists s, g_text g (cf_types cf) s /\ p = PFile (cf_mtime cf) s
  end.

(** When files are always written whole and can be removed, the file acts like the cache
    of [fetch_packages]. *)
Theorem C142_agrees g u ar c p : gob_ok g -> same_place g c p -> u_arrivals u = Some ar -> u_how u = Written -> u_rm u = true ->
  (forall l, fetched_by u l -> g_text g l (u_text u)) ->
  exists p', same_place g (fetch_packages (u_now u) (u_env u) c (u_types u) ar).2 p' /\
    use_db g u p = (match (fetch_packages (u_now u) (u_env u) c (u_types u) ar).1 with FetchOk l => DbOk l | FetchError => DbError end, p').
Proof.
  intros [G1 _] Hs Ha Hh Hr Ht.
  assert (exists p', same_place g (fetch_packages (u_now u) (u_env u) None (u_types u) ar).2 p' /\
    refetch (u_now u) (u_types u) (u_arrivals u) (u_text u) (u_how u) PNothing =
      (match (fetch_packages (u_now u) (u_env u) None (u_types u) ar).1 with FetchOk l => DbOk l | FetchError => DbError end, p')) as K.
  { unfold refetch, fetch_packages. rewrite Ha. destruct (collect_indexes ar (u_types u) 0) as [l n] eqn:Ec.
    destruct ((1 <? length l)%nat && (n =? length l)%nat)%bool eqn:E; cbn [fst snd]; [by exists PNothing|].
    exists (PFile (u_now u) (u_text u)). rewrite Hh. split; [|done]. cbn [same_place cf_types cf_mtime]. exists (u_text u). split; [|done].
    apply Ht. apply collect_gathered in Ec as (G & k & F & ->). exists ar, k. split; [done|]. split; [done|]. split; [done|]. intros [H1 H2].
    apply andb_false_iff in E as [E|E]; [apply Nat.ltb_ge in E; lia|apply Nat.eqb_neq in E; lia]. }
  unfold use_db, fetch_db. destruct c as [cf|]; cbn [same_place] in Hs; [|by subst p].
  destruct Hs as (s & Hs & ->). destruct (cf_mtime cf + max_age (u_env u) >? u_now u)%Z eqn:E.
  - exists (PFile (cf_mtime cf) s). unfold fetch_packages, decode. rewrite E, (G1 _ _ Hs). cbn [fst snd]. split; [|done]. by exists s.
  - rewrite Hr. destruct K as (p' & K1 & K2). exists p'. unfold fetch_packages in *. rewrite E. done.
Qed.

(** ** An example: a repository with sources and binaries *)

(** The package. *)
Definition dc_pkg : desc := mk_pkg "app" "1.0" [] [] [] [].

(** What its indexes hold. *)
Definition dc_map : gmap string desc := {["app" := dc_pkg]}.

(** The database before indexes are fetched. *)
Definition dc_types : db_maps := [(STBinary, ∅); (STSource, ∅)].

(** The database with all, and without the binaries. *)
Definition dc_all : db_maps := [(STBinary, dc_map); (STSource, dc_map)].
Definition dc_some : db_maps := [(STBinary, ∅); (STSource, dc_map)].

(** A small gob that knows the two. *)
Definition dc_gob : gob := {|
  g_text l s := l = dc_all /\ s = "aa" \/ l = dc_some /\ s = "bb";
  g_read s := if String.eqb s "aa" then Some dc_all else if String.eqb s "bb" then Some dc_some else None
|}.

Example dc_gob_ok : gob_ok dc_gob.
Proof.
  split.
  - by intros l s [[-> ->]|[-> ->]].
  - intros l a b H Hb. cbn in *. assert (a +:+ b = "aa" \/ a +:+ b = "bb") as K by (destruct H as [[_ H]|[_ H]]; auto).
    destruct (String.eqb_spec a "aa") as [-> |Ha]; [destruct K as [K|K]; cbn in K; [injection K as ->|]; done|].
    destruct (String.eqb_spec a "bb") as [-> |Hb']; [destruct K as [K|K]; cbn in K; [|injection K as ->]; done|]. done.
Qed.

(** A use at a time, when the binaries can be fetched or not. *)
Definition dc_use (now : Z) (binary : bool) (how : writing) : db_use := {|
  u_now := now; u_env := None; u_types := dc_types;
  u_arrivals := Some [(STSource, Some dc_map); (STBinary, if binary then Some dc_map else None)];
  u_text := if binary then "aa" else "bb"; u_how := how; u_rm := true |}.

Lemma dc_fetched now b how l : fetched_by (dc_use now b how) l <-> l = if b then dc_all else dc_some.
Proof.
  split.
  - intros (ar & n & [= <-] & G & _). destruct b; inversion G as [|? ? ? ? ? G1|]; subst; inversion G1 as [|? ? ? ? ? G2|? ? ? ? G2]; subst; by inversion G2.
  - intros ->. destruct b; eexists _, _; (split; [reflexivity|]).
    + split; [repeat constructor|]. split; [repeat constructor|]. intros [_ H]. done.
    + split; [repeat constructor|]. split; [repeat constructor|]. intros [_ H]. done.
Qed.

Lemma dc_texts us : (forall u, u ∈ us -> exists now b how, u = dc_use now b how) -> texts_ok dc_gob us.
Proof. intros H u l Hu Hl. destruct (H u Hu) as (now & b & how & ->). apply dc_fetched in Hl as ->. destruct b; [left|right]; done. Qed.

(** Three uses: the second is within the hour and the third is not. *)
Example C142_example : exists p,
  uses dc_gob [dc_use 100 true Written; dc_use 3699 false Written; dc_use 3700 false Written] PNothing =
    ([DbOk dc_all; DbOk dc_all; DbOk dc_some], p) /\ p = PFile 3700 "bb" /\
  texts_ok dc_gob [dc_use 100 true Written; dc_use 3699 false Written; dc_use 3700 false Written].
Proof.
  eexists. split; [by vm_compute|]. split; [done|]. apply dc_texts. intros u Hu. rewrite !elem_of_cons, elem_of_nil in Hu.
  destruct Hu as [-> |[-> |[-> |[]]]]; eauto.
Qed.

(** A use is killed while it writes the file.  Within the hour every use fails, though all
    indexes could be fetched. *)
Theorem C142_killed_refuted : exists g u, gob_ok g /\ texts_ok g [u] /\ all_fetched u /\
  exists r p, use_db g u PNothing = (r, p) /\
    forall v, u_env v = None -> (u_now v < u_now u + 3600)%Z -> use_db g v p = (DbError, p).
Proof.
  exists dc_gob, (dc_use 100 true (KilledAt 1)). split; [apply dc_gob_ok|]. split; [apply dc_texts; intros u ->%elem_of_list_singleton; eauto|].
  split; [eexists; split; [reflexivity|repeat constructor]|]. eexists _, _. split; [reflexivity|].
  intros v Ev Hv. unfold use_db, fetch_db. rewrite Ev. cbn [max_age]. cbn [u_now dc_use] in *.
  destruct (100 + 3600 >? u_now v)%Z eqn:E; [done|]. rewrite Z.gtb_ltb in E. apply Z.ltb_ge in E. lia.
Qed.

(** The disk was full for a moment: the same. *)
Theorem C142_full_refuted : exists g u, gob_ok g /\ texts_ok g [u] /\ all_fetched u /\
  exists p, use_db g u PNothing = (DbError, p) /\
    forall v, u_env v = None -> (u_now v < u_now u + 3600)%Z -> use_db g v p = (DbError, p).
Proof.
  exists dc_gob, (dc_use 100 true (WriteError 0)). split; [apply dc_gob_ok|]. split; [apply dc_texts; intros u ->%elem_of_list_singleton; eauto|].
  split; [eexists; split; [reflexivity|repeat constructor]|]. eexists. split; [reflexivity|].
  intros v Ev Hv. unfold use_db, fetch_db. rewrite Ev. cbn [max_age]. cbn [u_now dc_use] in *.
  destruct (100 + 3600 >? u_now v)%Z eqn:E; [done|]. rewrite Z.gtb_ltb in E. apply Z.ltb_ge in E. lia.
Qed.

(** The index of the binaries could not be fetched once.  Uses within the hour do not
    have the binaries, though the index could be fetched again. *)
Theorem C142_one_index_refuted : exists g u v, gob_ok g /\ texts_ok g [u; v] /\ all_fetched v /\ fetched_by v dc_all /\
  u_now v = (u_now u + 1)%Z /\ uses g [u; v] PNothing = ([DbOk dc_some; DbOk dc_some], PFile (u_now u) "bb").
Proof.
  exists dc_gob, (dc_use 100 false Written), (dc_use 101 true Written). split; [apply dc_gob_ok|]. split.
  { apply dc_texts. intros u Hu. rewrite !elem_of_cons, elem_of_nil in Hu. destruct Hu as [-> |[-> |[]]]; eauto. }
  split; [eexists; split; [reflexivity|repeat constructor]|]. split; [by apply dc_fetched|]. split; [done|]. by vm_compute.
Qed.

(** Something in the way, such as a file in place of the directory of the cache, is a
    panic, whatever is configured and whatever the repositories answer. *)
Theorem C142_bad_refuted g u : use_db g u PBad = (DbPanic, PBad).
Proof. done. Qed.

Print Assumptions C142_exact.
Print Assumptions C142_partial.
Print Assumptions C142_delivers_partial.
Print Assumptions C142_agrees.
Print Assumptions C142_killed_refuted.
Print Assumptions C142_full_refuted.
Print Assumptions C142_one_index_refuted.
Print Assumptions C142_bad_refuted.
