(** add --install: C156. *)
From stdpp Require Import strings list gmap.
From Coq Require Import Ascii ZArith Lia.
From Verif.model Require Import GoStr Fs Env Yml Config Start Reread.
From Verif.spec Require Import RereadSpec.

Local Open Scope string_scope.

(** Lists. *)
Definition settled {A B : Type} (zero : A) (f : A -> B -> A) (old : list A) (v : list B) : Prop :=
  length old <= length v /\ forall i a b, old !! i = Some a -> v !! i = Some b -> f a b = f zero b.

Lemma over_settled {A B : Type} (zero : A) (f : A -> B -> A) (v : list B) : forall old, settled zero f old v ->
  over zero f old v = over zero f [] v.
Proof.
  induction v as [|b v IH]; intros old [Hl Hf].
  - destruct old; [done|]. cbn in Hl. lia.
  - cbn [over tl hd]. destruct old as [|a old]; [done|]. cbn [hd tl]. f_equal; [by apply (Hf 0)|].
    apply IH. split; [cbn in Hl; lia|]. intros i x y Hx Hy. by apply (Hf (S i)).
Qed.

Lemma over_fresh {A B : Type} (zero : A) (f : A -> B -> A) (v : list B) : over zero f [] v = map (f zero) v.
Proof. induction v as [|b v IH]; [done|]. cbn [over hd tl map]. by rewrite IH. Qed.

Lemma over_all_lookup {A B : Type} (zero : A) (f : A -> B -> A) old v k :
  over_all zero f old v !! k =
  match v !! k with Some l => Some (over zero f (default [] (old !! k)) l) | None => old !! k end.
Proof.
  unfold over_all. rewrite lookup_union, map_lookup_imap. destruct (v !! k) as [l|]; cbn; destruct (old !! k); done.
Qed.

Lemma over_all_settled {A B : Type} (zero : A) (f : A -> B -> A) (old : gmap string (list A)) (v : gmap string (list B)) :
  (forall k l, old !! k = Some l -> exists w, v !! k = Some w /\ settled zero f l w) ->
  over_all zero f old v = over_all zero f ∅ v.
Proof.
  intros H. apply map_eq. intros k. rewrite !over_all_lookup, lookup_empty. cbn [default].
  destruct (old !! k) as [l|] eqn:E.
  - destruct (H k l E) as (w & -> & Hs). cbn. f_equal. by apply over_settled.
  - by destruct (v !! k).
Qed.

Lemma tilde_empty home : tilde home "" = "".
Proof. reflexivity. Qed.

Lemma same_text h b : h "" = "" -> over_text (h (over_text "" b)) b = over_text "" b.
Proof. intros H. destruct b as [s|]; [done|]. exact H. Qed.

Lemma same_map (h : string -> string) b : over_map (h <$> over_map ∅ b) b = over_map ∅ b.
Proof.
  destruct b as [m|]; cbn [over_map].
  - rewrite map_union_empty. apply map_eq. intros k. rewrite lookup_union, lookup_fmap. by destruct (m !! k).
  - apply fmap_empty.
Qed.

(** What has been read, with changed elements, and the same again. *)
Lemma settled_again {A B : Type} (zero : A) (f : A -> B -> A) (g : A -> A) v :
  (forall b, f (g (f zero b)) b = f zero b) -> settled zero f (map g (over zero f [] v)) v.
Proof.
  intros Hg. rewrite over_fresh. split; [by rewrite !map_length|]. intros i a b Ha Hb.
  rewrite !list_lookup_fmap, Hb in Ha. injection Ha as <-. apply Hg.
Qed.

Lemma expand_lists home c k : exists h, h "" = "" /\ co_lists (expand_all home c) !! k = map h <$> (co_lists c !! k).
Proof.
  unfold expand_all. cbn [co_lists foldr].
  destruct (decide (k = "tarballs")) as [->|N1]; [|destruct (decide (k = "descriptions")) as [->|N2]].
  - exists (tilde home). split; [apply tilde_empty|]. rewrite lookup_alter, lookup_alter_ne by done. done.
  - exists (tilde home). split; [apply tilde_empty|]. rewrite lookup_alter_ne, lookup_alter by done. done.
  - exists (fun s => s). split; [done|]. rewrite !lookup_alter_ne by done. destruct (co_lists c !! k) as [l|]; [|done].
    cbn. by rewrite map_id.
Qed.

Lemma expand_maps home c k : exists h : string -> string,
  co_maps (expand_all home c) !! k = map (fmap h) <$> (co_maps c !! k).
Proof.
  unfold expand_all. cbn [co_maps]. destruct (decide (k = "repos")) as [->|N].
  - exists (tilde home). by rewrite lookup_alter.
  - exists (fun s => s). rewrite lookup_alter_ne by done. destruct (co_maps c !! k) as [l|]; [|done]. cbn. f_equal.
    induction l as [|m l IH]; [done|]. cbn. rewrite <- IH. f_equal. apply map_eq. intros j. rewrite lookup_fmap. by destruct (m !! j).
Qed.

Lemma alter_some {A : Type} (f : A -> A) (m : gmap string A) k j : is_Some (alter f k m !! j) -> is_Some (m !! j).
Proof. destruct (decide (k = j)) as [->|N]; [rewrite lookup_alter|by rewrite lookup_alter_ne]. intros [x Hx]. by destruct (m !! j). Qed.

Lemma expand_single home c k : is_Some (co_single (expand_all home c) !! k) -> is_Some (co_single c !! k).
Proof. unfold expand_all. cbn [co_single foldr]. intros H. by do 5 apply alter_some in H. Qed.

(** What is left in the variable after it has been read. *)
Lemma read_shape p cwd v c : find_library (pr_library p) cwd (unmarshal no_configuration v) = Some c ->
  co_lists c = over_all "" over_text ∅ (st_lists v) /\ co_maps c = over_all ∅ over_map ∅ (st_maps v) /\
  forall k, is_Some (co_single c !! k) -> k = "library" \/ is_Some (st_single v !! k).
Proof.
  unfold find_library. cbn [unmarshal no_configuration co_single co_lists co_maps]. destruct (String.eqb _ _).
  - destruct (pr_library p cwd _) as [l|]; [|done]. intros [= <-]. split; [done|]. split; [done|]. cbn [co_single].
    intros k. destruct (decide (k = "library")) as [->|N]; [by left|]. rewrite lookup_insert_ne by done.
    rewrite map_union_empty. by right.
  - intros [= <-]. split; [done|]. split; [done|]. cbn [co_single unmarshal no_configuration]. intros k. rewrite map_union_empty. by right.
Qed.

(** The second reading gives what a first one would give. *)
Lemma unmarshal_again p cwd v v' c : flags_there v' -> more_packages v v' ->
  find_library (pr_library p) cwd (unmarshal no_configuration v) = Some c ->
  unmarshal (use_update (pr_update p) (expand_all (pr_home p) c)) v' = unmarshal no_configuration v'.
Proof.
  intros [F1 F2] (M1 & M2 & M3 & l' & M4 & M5 & M6) Hc. apply read_shape in Hc as (S1 & S2 & S3).
  set (c1 := use_update (pr_update p) (expand_all (pr_home p) c)).
  assert (co_lists c1 = co_lists (expand_all (pr_home p) c)) as L1 by (unfold c1, use_update; by destruct (pr_update p)).
  assert (co_maps c1 = co_maps (expand_all (pr_home p) c)) as L2 by (unfold c1, use_update; by destruct (pr_update p)).
  unfold unmarshal at 1 2. cbn [co_single co_lists co_maps no_configuration]. f_equal.
  - apply map_eq. intros k. rewrite map_union_empty, lookup_union.
    destruct (st_single v' !! k) as [s|] eqn:E; [by destruct (co_single c1 !! k)|].
    destruct (co_single c1 !! k) as [t|] eqn:Et; [|done]. exfalso.
    assert (k = "noupdate" \/ is_Some (co_single (expand_all (pr_home p) c) !! k)) as [->|Hk].
    { unfold c1, use_update in Et. destruct (pr_update p); [|right; by eexists]. cbn [co_single] in Et.
      destruct (decide (k = "noupdate")) as [->|N]; [by left|]. rewrite lookup_insert_ne in Et by done. right. by eexists. }
    + rewrite E in F2. by destruct F2.
    + apply expand_single in Hk. apply S3 in Hk as [->|Hk]; [rewrite E in F1; by destruct F1|].
      rewrite <- M1, E in Hk. by destruct Hk.
  - apply over_all_settled. intros k l Hl. rewrite L1 in Hl. destruct (expand_lists (pr_home p) c k) as (h & Hh & Eh).
    rewrite Eh, S1, over_all_lookup, lookup_empty in Hl. cbn [default] in Hl.
    destruct (decide (k = "packages")) as [->|N].
    + exists l'. split; [done|]. destruct (st_lists v !! "packages") as [w|] eqn:Ew; [|discriminate Hl].
      cbn in Hl. injection Hl as <-. split; [rewrite over_fresh, !map_length; exact M6|].
      intros i a b _ Hb. destruct b as [s|]; [done|]. destruct M5. by apply (elem_of_list_lookup_2 _ i).
    + rewrite M3 by done. destruct (st_lists v !! k) as [w|] eqn:Ew; [|discriminate Hl]. exists w. split; [done|].
      cbn in Hl. injection Hl as <-. apply settled_again. intros b. by apply same_text.
  - apply over_all_settled. intros k l Hl. rewrite L2 in Hl. destruct (expand_maps (pr_home p) c k) as (h & Eh).
    rewrite Eh, S2, over_all_lookup, lookup_empty in Hl. cbn [default] in Hl. rewrite M2.
    destruct (st_maps v !! k) as [w|] eqn:Ew; [|discriminate Hl]. exists w. split; [done|].
    cbn in Hl. injection Hl as <-. apply settled_again. intros b. apply same_map.
Qed.

Lemma add_install_same p listed files cwd name pkgs :
  edited_file cwd name = loaded_file cwd name ->
  same_library p cwd (command_dir cwd name) ->
  (forall t t' l v v', files (loaded_file cwd name) = Some t -> listed t = Some l -> add_packages t l pkgs = Some t' ->
     pr_read p t = Some v -> pr_read p t' = Some v' -> flags_there v' /\ more_packages v v') ->
  add_install p listed files cwd name pkgs = add_then_install p listed files cwd name pkgs.
Proof.
  intros He Hlib Hread. unfold add_install, add_then_install, add_alone, install_alone.
  destruct (init_config p files cwd name no_configuration) as [[c dir]|] eqn:E1; [|done].
  unfold init_config in E1. destruct (files (loaded_file cwd name)) as [t|] eqn:Et; [|done].
  destruct (pr_read p t) as [v|] eqn:Ev; [|done].
  destruct (find_library (pr_library p) cwd (unmarshal no_configuration v)) as [c0|] eqn:Ef; [|done].
  injection E1 as <- <-.
  destruct (add_to_file listed files (resolve (command_dir cwd name) name) pkgs) as [files'|] eqn:Ea; [|done].
  unfold add_to_file in Ea. fold (edited_file cwd name) in Ea. rewrite He, Et in Ea.
  destruct (listed t) as [l|] eqn:El; [|done]. destruct (add_packages t l pkgs) as [t'|] eqn:Ep; [|done].
  injection Ea as <-. unfold init_config, loaded_file. fold (edited_file cwd name). rewrite He.
  fold (loaded_file cwd name).
  rewrite !bool_decide_eq_true_2 by done. destruct (pr_read p t') as [v'|] eqn:Ev'; [|done].
  destruct (Hread t t' l v v' eq_refl El Ep Ev Ev') as [H1 H2].
  rewrite (unmarshal_again p cwd v v' c0 H1 H2 Ef).
  assert (find_library (pr_library p) (command_dir cwd name) (unmarshal no_configuration v') =
          find_library (pr_library p) cwd (unmarshal no_configuration v')) as ->.
  { unfold find_library. by rewrite (Hlib (unmarshal no_configuration v')). }
  destruct (find_library (pr_library p) cwd (unmarshal no_configuration v')) as [c'|]; [|done].
  unfold command_dir at 1. fold (edited_file cwd name). rewrite He. done.
Qed.
