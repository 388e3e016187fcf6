(** What the program does in the cases left out by C134. *)
From stdpp Require Import strings list gmap relations sorting.
From Coq Require Import Ascii ZArith Lia.
From Verif.model Require Import GoStr Version Desc Nexus Pacman Graph RepoDb Plan Origins.
From Verif.spec Require Import VersionSpec RepoSpec GraphSpec PlanSpec OriginSpec.
From Verif.proofs Require Import RepoProofs FetchProofs GraphProofs LayerProofs PlanProofs PlanProps SettingsProofs OriginProofs.
From Verif.props Require Import P_Graph.

Local Open Scope string_scope.

(** ** C134: how often the origin of a package is told

    As often as the request names it, and otherwise once. *)

Definition times (p : string) (l : list string) : nat := length (List.filter (String.eqb p) l).

Lemma times_app p l k : times p (l ++ k)%list = times p l + times p k.
Proof. unfold times. by rewrite List.filter_app, app_length. Qed.

Lemma times_none p l : p ∉ l -> times p l = 0.
Proof.
  unfold times. induction l as [|x l IH]; [done|]. rewrite not_elem_of_cons. intros [H1 H2]. cbn [List.filter].
  destruct (String.eqb_spec p x); [done|]. by apply IH.
Qed.

Lemma times_nodup p l : NoDup l -> p ∈ l -> times p l = 1.
Proof.
  induction 1 as [|x l H1 H2 IH]; [by intros ?%elem_of_nil|]. intros [->|H]%elem_of_cons.
  - unfold times. cbn [List.filter]. rewrite String.eqb_refl. cbn [length]. f_equal. by apply times_none.
  - unfold times in *. cbn [List.filter]. destruct (String.eqb_spec p x) as [->|]; [done|]. by apply IH.
Qed.

Theorem C134_exact : forall nx nr o pkgs pre cfg update le ip p,
  nexus_ok nx -> ~ available nx "R" -> oracle_ok o -> standard_config nr cfg ->
  (forall p, p ∈ pkgs -> available nx p) ->
  resolve_installation_reqs o pkgs pre cfg nx update le nr = PlanOk ip ->
  (p ∈ pkgs -> times p (map og_package (origin_lines nx pkgs ip)) = times p pkgs) /\
  (p ∉ pkgs -> p ∈ map (fun dl => d_package (dl_package dl)) (ip_downloads ip) ->
     times p (map og_package (origin_lines nx pkgs ip)) = 1) /\
  (p ∉ map (fun dl => d_package (dl_package dl)) (ip_downloads ip) ->
     times p (map og_package (origin_lines nx pkgs ip)) = 0).
Proof.
  intros nx nr o pkgs pre cfg update le ip p H1 H2 H3 H4 H5 E.
  destruct (C26_downloads nx nr o pkgs pre cfg update le ip H1 H2 H3 H4 H5 E) as (_ & _ & D3).
  assert (map og_package (log_user_repos (ap_packages (get_packages nx pkgs))) = pkgs) as Eu.
  { unfold log_user_repos. cbn [get_packages ap_packages].
    change (map (fun p => let '(d, c, _) := get_package_go nx p in PkgDl c d) pkgs) with (map (dl_for nx) pkgs).
    rewrite !map_map. cbn [origin_of og_package]. rewrite <- (map_id pkgs) at 2. apply map_ext_in.
    intros q Hq. apply elem_of_list_In in Hq. apply dl_for_name; [done|]. by apply H5. }
  assert (map og_package (log_dependency_repos pkgs (ip_downloads ip)) =
    List.filter (fun q => negb (string_in_slice q pkgs)) (map (fun dl => d_package (dl_package dl)) (ip_downloads ip))) as Ed.
  { unfold log_dependency_repos. rewrite perm_filter_map, map_map. reflexivity. }
  unfold origin_lines. rewrite map_app, times_app, Eu, Ed.
  set (names := map (fun dl => d_package (dl_package dl)) (ip_downloads ip)) in *.
  assert (forall q, q ∈ List.filter (fun q => negb (string_in_slice q pkgs)) names <-> q ∈ names /\ q ∉ pkgs) as Hf.
  { intros q. rewrite in_lfilter, negb_true_iff, <- not_true_iff_false, in_slice. done. }
  split; [|split].
  - intros Hp. rewrite (times_none p (List.filter _ _)); [lia|]. rewrite Hf. by intros [_ ?].
  - intros Hp Hin. rewrite (times_none p pkgs Hp). apply times_nodup; [apply nodup_lfilter; exact D3|]. by apply Hf.
  - intros Hn. rewrite !times_none; [done|rewrite Hf; by intros [? _]|]. intros Hp. apply Hn.
    assert (origin_of true (dl_for nx p) ∈ origin_lines nx pkgs ip) as Ho.
    { unfold origin_lines, log_user_repos. cbn [get_packages ap_packages]. apply elem_of_app. left.
      apply elem_of_list_fmap_1.
      change (map (fun p => let '(d, c, _) := get_package_go nx p in PkgDl c d) pkgs) with (map (dl_for nx) pkgs).
      by apply elem_of_list_fmap_1. }
    apply (origins_set nx nr o pkgs pre cfg update le ip _ H1 H2 H3 H4 H5 E) in Ho as (dl & Hdl & Eo).
    apply elem_of_list_fmap. exists dl. split; [|done].
    apply (f_equal og_package) in Eo. cbn [origin_of og_package] in Eo. rewrite <- Eo. symmetry. apply dl_for_name; [done|]. by apply H5.
Qed.

Example C134_exact_example :
  match resolve_installation_reqs id_oracle ["lib1"; "lib1"] ∅ (default_config false) ex_nx true true false with
  | PlanOk ip => times "lib1" (map og_package (origin_lines ex_nx ["lib1"; "lib1"] ip)) = 2 /\
      times "core" (map og_package (origin_lines ex_nx ["lib1"; "lib1"] ip)) = 1
  | _ => False
  end.
Proof. vm_compute. done. Qed.

Print Assumptions C134_exact.
