(** The messages about a plan. *)
From stdpp Require Import strings list gmap relations sorting.
From Coq Require Import Ascii ZArith Lia.
From Verif.model Require Import GoStr Version Desc Nexus Pacman Graph RepoDb Plan Report.
From Verif.spec Require Import VersionSpec RepoSpec GraphSpec PlanSpec ReportSpec.
From Verif.proofs Require Import RepoProofs FetchProofs GraphProofs LayerProofs PlanProofs PlanProps DerivedProofs.

Local Open Scope string_scope.

(** ** Counting by name *)

Lemma count_up_lookup (l : list string) (m : gmap string nat) rn :
  default 0 (fold_left count_up l m !! rn) = default 0 (m !! rn) + length (List.filter (String.eqb rn) l).
Proof.
  revert m. induction l as [|x l IH]; intros m; cbn [fold_left List.filter]; [cbn; lia|]. rewrite IH. unfold count_up.
  destruct (String.eqb_spec rn x) as [-> | H].
  - rewrite lookup_insert. cbn. lia.
  - rewrite lookup_insert_ne by congruence. done.
Qed.

Lemma count_up_some (l : list string) (m : gmap string nat) rn :
  is_Some (fold_left count_up l m !! rn) <-> is_Some (m !! rn) \/ rn ∈ l.
Proof.
  revert m. induction l as [|x l IH]; intros m; cbn [fold_left].
  - split; [by left|]. intros [?|?%elem_of_nil]; done.
  - rewrite IH, elem_of_cons. unfold count_up. destruct (decide (rn = x)) as [-> | H].
    + rewrite lookup_insert. split; [by right; left|]. intros _. left. eauto.
    + rewrite lookup_insert_ne by congruence. naive_solver.
Qed.

Lemma sources_other ip additional rn n : rn <> "tarballs" ->
  count (comes_from rn) (ip_downloads ip) n -> default 0 (sources_of ip additional !! rn) = n.
Proof.
  intros H Hn. unfold sources_of. rewrite lookup_insert_ne by congruence. rewrite count_up_lookup, lookup_empty. cbn [default].
  assert (length (List.filter (String.eqb rn) (map (fun dl => ru_name (pc_repo (dl_config dl))) (ip_downloads ip))) =
    length (List.filter (fun dl => String.eqb rn (ru_name (pc_repo (dl_config dl)))) (ip_downloads ip))) as ->.
  { clear. induction (ip_downloads ip) as [|d l IH]; [done|]. cbn. destruct (String.eqb rn _); cbn; by rewrite IH. }
  cbn. eapply count_fun; [|exact Hn]. apply count_filter. intros dl _. unfold comes_from. rewrite String.eqb_eq. split; congruence.
Qed.

Lemma sources_names ip additional rn : is_Some (sources_of ip additional !! rn) <->
  rn = "tarballs" \/ exists dl, dl ∈ ip_downloads ip /\ comes_from rn dl.
Proof.
  unfold sources_of. destruct (decide (rn = "tarballs")) as [-> | H].
  - rewrite lookup_insert. split; [by left|eauto].
  - rewrite lookup_insert_ne by congruence. rewrite count_up_some, lookup_empty, elem_of_list_fmap. unfold comes_from. split.
    + intros [[? ?]|(dl & E & Hdl)]; [done|]. right. by exists dl.
    + intros [?|(dl & Hdl & E)]; [done|]. right. by exists dl.
Qed.

Lemma total_insert (m : gmap string nat) k n : m !! k = None -> total (<[k := n]> m) = n + total m.
Proof.
  intros H. unfold total. rewrite (map_to_list_insert m k n H). done.
Qed.

Lemma total_perm (l l' : list nat) : l ≡ₚ l' -> foldr Nat.add 0 l = foldr Nat.add 0 l'.
Proof. induction 1; cbn; lia. Qed.

Lemma total_delete (m : gmap string nat) k n : m !! k = Some n -> total m = n + total (delete k m).
Proof.
  intros H. rewrite <- (insert_delete m k n H) at 1. rewrite total_insert by apply lookup_delete. done.
Qed.

Lemma count_up_total (l : list string) (m : gmap string nat) : total (fold_left count_up l m) = total m + length l.
Proof.
  revert m. induction l as [|x l IH]; intros m; cbn [fold_left length]; [lia|]. rewrite IH. unfold count_up.
  destruct (m !! x) as [n|] eqn:E; cbn [default].
  - rewrite <- (insert_delete_insert m x (S n)). rewrite total_insert by apply lookup_delete. rewrite (total_delete m x n E). lia.
  - rewrite total_insert by done. lia.
Qed.

Lemma sources_total ip additional : (forall dl, dl ∈ ip_downloads ip -> ~ comes_from "tarballs" dl) ->
  total (sources_of ip additional) = length (ip_downloads ip) + length additional.
Proof.
  intros H. unfold sources_of. rewrite total_insert.
  - rewrite count_up_total, map_length. unfold total. rewrite map_to_list_empty. cbn. lia.
  - apply eq_None_not_Some. rewrite count_up_some, lookup_empty, elem_of_list_fmap.
    intros [[? ?]|(dl & E & Hdl)]; [done|]. by apply (H dl Hdl).
Qed.

(** ** Numbers of installed packages *)

Lemma foreign_count (m : gmap string desc) keys n : keys ≡ₚ elements (dom (D := gset string) m) ->
  count (foreign m) keys n -> length (get_installers m keys).2 = n.
Proof.
  intros Hk Hn. eapply count_fun; [|exact Hn]. cbn [get_installers snd]. apply count_filter. intros p Hp. unfold foreign.
  rewrite Hk, elem_of_elements, elem_of_dom in Hp. destruct Hp as [d Hd]. rewrite Hd, negb_involutive, String.eqb_eq.
  split; [by exists d|]. intros (d' & [= <-] & E). done.
Qed.

Lemma fold_same {A} (n : nat) (l : list A) k : fold_left (fun _ _ => n) l k = match l with [] => k | _ => n end.
Proof. revert k. induction l as [|x l IH]; intros k; [done|]. cbn [fold_left]. rewrite IH. by destruct l. Qed.

Lemma fold_kept {A} (l : list A) (k : nat) : fold_left (fun n _ => n) l k = k.
Proof. induction l as [|x l IH]; done. Qed.

Lemma to_update_spec no_update ip : to_update no_update ip = if no_update then 0 else length (ip_outdated ip).
Proof.
  unfold to_update. destruct no_update; [apply fold_kept|]. rewrite fold_same. by destruct (ip_outdated ip).
Qed.

(** ** The packages to install *)

Lemma filter_two {A} (f g : A -> bool) l : (forall x, x ∈ l -> f x = true -> g x = true -> False) ->
  length (List.filter f l) + length (List.filter g l) = length (List.filter (fun x => f x || g x) l).
Proof.
  induction l as [|x l IH]; intros H; [done|]. cbn. assert (forall y, y ∈ l -> f y = true -> g y = true -> False) as H'.
  { intros y Hy. apply H. by right. }
  specialize (IH H'). pose proof (H x ltac:(by left)) as Hx. destruct (f x), (g x); cbn; lia || (exfalso; by apply Hx).
Qed.

Lemma filter_less {A} (f : A -> bool) l q : q ∈ l -> f q = false -> length (List.filter f l) < length l.
Proof.
  induction l as [|x l IH]; intros Hq Hf; [by apply elem_of_nil in Hq|]. cbn.
  assert (length (List.filter f l) <= length l) as Hle.
  { clear. induction l as [|y l IH]; [done|]. cbn. destruct (f y); cbn; lia. }
  apply elem_of_cons in Hq as [<-|Hq]; [rewrite Hf; lia|]. specialize (IH Hq Hf). destruct (f x); cbn; lia.
Qed.

Section lines.
  Context (nx : nexus) (nr : bool) (o : oracle) (pkgs : list string) (pre : gmap string desc)
    (cfg : install_deps) (update le : bool) (ip : install_plan).
  Context (Hnx : nexus_ok nx) (HR : ~ available nx "R") (Ho : oracle_ok o)
    (Hc : standard_config nr cfg) (Hav : forall p, p ∈ pkgs -> available nx p).
  Context (E : resolve_installation_reqs o pkgs pre cfg nx update le nr = PlanOk ip).
  Context (keys installed : list string) (Hk : keys ≡ₚ (map_to_list (ip_depdb ip)).*1)
    (Hi : installed ≡ₚ elements (dom (D := gset string) pre)).

  Lemma planned_in p : p ∈ (ip_starting ip ++ keys)%list <-> planned ip p.
  Proof.
    rewrite elem_of_app, Hk. unfold planned. split; (intros [?|H]; [by left|right]).
    - apply elem_of_list_fmap in H as ([k v] & -> & H). apply elem_of_map_to_list in H. eauto.
    - destruct H as [v H]. apply elem_of_list_fmap. exists (p, v). split; [done|]. by apply elem_of_map_to_list.
  Qed.

  Lemma names_nodup : NoDup (ip_starting ip ++ keys)%list.
  Proof.
    destruct (plan_closure nx nr o pkgs pre cfg update le Hnx HR Ho Hc Hav ip E) as [_ H]. unfold planned_names in H.
    by rewrite Hk.
  Qed.

  Lemma line_describes p : planned ip p -> describes nx p (line_for nx p).
  Proof.
    intros Hp. destruct (plan_closure nx nr o pkgs pre cfg update le Hnx HR Ho Hc Hav ip E) as [Hcl _].
    apply Hcl in Hp. apply closure_available in Hp; [|done..]. destruct Hp as (d & c & Hg). exists d, c. split; [done|].
    assert (d_package d = p) as Hd.
    { apply (offered_name nx Hnx). by exists c. }
    split; [done|]. unfold line_for, get_package_go. rewrite Hg. by rewrite Hd.
  Qed.

  Lemma lines_are l : l ∈ install_lines nx ip keys [] installed ->
    exists p, planned ip p /\ pre !! p = None /\ describes nx p l.
  Proof.
    unfold install_lines, get_all_packages. rewrite app_nil_r. destruct (_ && _); [|by intros ?%elem_of_nil].
    intros (p & -> & Hp)%elem_of_list_fmap. apply elem_of_list_In, filter_In in Hp as [H1 H2].
    apply elem_of_list_In, planned_in in H1. exists p. split; [done|]. split; [|by apply line_describes].
    apply negb_true_iff in H2. apply eq_None_not_Some. intros H3. apply not_true_iff_false in H2. apply H2.
    apply existsb_elem. rewrite Hi, elem_of_elements. by apply elem_of_dom.
  Qed.

  Lemma lines_nodup : NoDup (map ln_package (install_lines nx ip keys [] installed)).
  Proof.
    unfold install_lines, get_all_packages. rewrite app_nil_r. destruct (_ && _); [|constructor].
    rewrite map_map. set (L := List.filter _ _).
    assert (map (fun p => ln_package (line_for nx p)) L = L) as ->.
    { assert (forall p, p ∈ L -> planned ip p) as HL.
      { intros p Hp. apply elem_of_list_In, filter_In in Hp as [H _]. by apply elem_of_list_In, planned_in in H. }
      clearbody L. induction L as [|p L IH]; [done|]. cbn [map]. rewrite IH by (intros; apply HL; by right). f_equal.
      destruct (line_describes p) as (d & c & _ & _ & ->); [apply HL; by left|done]. }
    apply filter_bool_nodup, names_nodup.
  Qed.

  Lemma lines_all p q : pre !! "" = None -> (forall x, x ∈ ip_outdated ip -> planned ip (op_package x)) ->
    planned ip p -> pre !! p = None -> planned ip q -> left_alone ip q ->
    exists l, l ∈ install_lines nx ip keys [] installed /\ describes nx p l.
  Proof.
    intros He Hout Hp Hn Hq Hl.
    destruct (plan_ok_inv nx nr o pkgs pre cfg update le Hnx HR Ho Hc Hav ip E)
      as (_ & st & ls & db & _ & _ & _ & _ & _ & Ho1 & Ho2 & _).
    assert (ask (sub o 3) (elements (dom (D := gset string) pre)) ≡ₚ elements (dom (D := gset string) pre)) as Hperm
      by (apply ask_perm, sub_ok; done).
    destruct (outdated_spec nx pre _ _ Hnx He Hperm Ho1) as [Hx Hxn].
    set (req := (ip_starting ip ++ keys)%list).
    set (f := fun x => bool_decide (ip_installed ip !! x = None)).
    set (g := fun x => ip_update ip && existsb (String.eqb x) (map op_package (ip_outdated ip))).
    assert (num_to_install ip keys [] = Z.of_nat (length (List.filter f req) + length (List.filter g req))) as Hnum.
    { apply num_to_install_spec; rewrite ?app_nil_r.
      - done.
      - apply names_nodup.
      - done.
      - intros x H. apply planned_in. by apply Hout.
      - apply count_filter. intros x _. unfold f. rewrite bool_decide_eq_true. split; [by left|].
        intros [?|?%elem_of_nil]; done.
      - apply count_filter. intros x _. unfold g. rewrite andb_true_iff, existsb_elem, elem_of_list_fmap. naive_solver. }
    rewrite (filter_two f g req) in Hnum.
    2:{ intros x _ Hf Hg. apply bool_decide_eq_true in Hf. apply andb_true_iff in Hg as [_ Hg].
        apply existsb_elem, elem_of_list_fmap in Hg as (y & -> & Hy). apply Hx in Hy as (d & d' & Hd & _). congruence. }
    assert (p ∈ req) as Hpr by (by apply planned_in). assert (q ∈ req) as Hqr by (by apply planned_in).
    assert (length (List.filter (fun x => f x || g x) req) < length req) as H1.
    { apply (filter_less _ _ q Hqr). destruct Hl as [Hl1 Hl2]. apply orb_false_iff. split.
      - apply bool_decide_eq_false. rewrite <- not_eq_None_Some in Hl1. done.
      - apply not_true_iff_false. unfold g. rewrite andb_true_iff, existsb_elem, elem_of_list_fmap.
        intros (H1 & y & -> & Hy). rewrite (Hl2 y Hy eq_refl) in H1. done. }
    assert (0 < length (List.filter (fun x => f x || g x) req)) as H2.
    { assert (p ∈ List.filter (fun x => f x || g x) req) as H.
      { apply elem_of_list_In, filter_In. split; [by apply elem_of_list_In|]. apply orb_true_iff. left.
        apply bool_decide_eq_true. by rewrite Ho2. }
      destruct (List.filter _ req); [by apply elem_of_nil in H|]. cbn. lia. }
    exists (line_for nx p). split; [|by apply line_describes].
    unfold install_lines, get_all_packages. rewrite Hnum, app_nil_r. fold req.
    destruct (Z.ltb_spec 0 (Z.of_nat (length (List.filter (fun x => f x || g x) req)))); [|lia].
    destruct (Z.eqb_spec (Z.of_nat (length (List.filter (fun x => f x || g x) req))) (Z.of_nat (length req))); [lia|].
    cbn [andb negb]. apply elem_of_list_fmap. exists p. split; [done|]. apply elem_of_list_In, filter_In.
    split; [by apply elem_of_list_In|]. apply negb_true_iff, not_true_iff_false. rewrite existsb_elem, Hi, elem_of_elements, elem_of_dom.
    rewrite Hn. intros [? ?]. done.
  Qed.
End lines.
