(** C145: helpers for output and names. *)
From stdpp Require Import strings list gmap.
From Coq Require Import Ascii ZArith QArith Lia.
From Verif.model Require Import GoStr Version Desc Nexus RepoDb Pacman Graph Fs Env Clean Rest.
From Verif.spec Require Import StrSpec.
From Verif.proofs Require Import GoStrLemmas UrlProofs ConfigProofs StartProofs.

Local Open Scope string_scope.

(** A line for each dependency of each package, in order. *)
Theorem C145_graph g : (forall line, line ∈ display_graph g <-> exists n ds d, (n, ds) ∈ g /\ d ∈ ds /\ line = n +:+ " -> " +:+ d) /\
  length (display_graph g) = sum_list (map (fun n => length n.2) g) /\
  (forall a b, g = (a ++ b)%list -> display_graph g = (display_graph a ++ display_graph b)%list).
Proof.
  unfold display_graph. split; [|split].
  - intros line. rewrite elem_of_list_In, in_flat_map. split.
    + intros ([n ds] & H1 & H2). apply elem_of_list_In in H1, H2. apply elem_of_list_fmap in H2 as (d & -> & H2). by exists n, ds, d.
    + intros (n & ds & d & H1 & H2 & ->). exists (n, ds). split; [by apply elem_of_list_In|]. apply elem_of_list_In, elem_of_list_fmap.
      by exists d.
  - induction g as [|[n ds] g IH]; [done|]. cbn [flat_map map sum_list fst snd]. by rewrite app_length, map_length, IH.
  - intros a b ->. apply flat_map_app.
Qed.

Example C145_graph_example : display_graph [("a", ["b"; "c"]); ("b", []); ("c", ["b"])] = ["a -> b"; "a -> c"; "c -> b"].
Proof. done. Qed.

(** The text of a list begins with its length, and elements without bars can be read
    from it. *)
Fixpoint bars (l : list string) : string := match l with [] => "" | s :: l' => s +:+ "|" +:+ bars l' end.

Definition no_bar (s : string) : Prop := forall a b, s <> a +:+ "|" +:+ b.

Lemma bars_fold l acc : fold_left (fun acc s => acc +:+ s +:+ "|") l acc = acc +:+ bars l.
Proof.
  revert acc. induction l as [|s l IH]; intros acc; cbn [fold_left bars]; [by rewrite app_nil_str|]. by rewrite IH, !app_assoc_str.
Qed.

Lemma bar_split s : forall s' r r', no_bar s -> no_bar s' -> s +:+ "|" +:+ r = s' +:+ "|" +:+ r' -> s = s' /\ r = r'.
Proof.
  induction s as [|c s IH]; intros [|c' s'] r r' H H' E; cbn in E.
  - by injection E as <-.
  - injection E as <- _. by destruct (H' "" s').
  - injection E as -> _. by destruct (H "" s).
  - injection E as <- E. destruct (IH s' r r') as [-> ->]; [..|done|done].
    + intros a b ->. by apply (H (String c a) b).
    + intros a b ->. by apply (H' (String c a) b).
Qed.

Theorem C145_list itoa l : slice_to_string itoa l = "Size: " +:+ itoa (length l) +:+ " :" +:+ bars l /\
  (forall l', length l' = length l -> Forall no_bar l -> Forall no_bar l' -> slice_to_string itoa l' = slice_to_string itoa l -> l' = l).
Proof.
  assert (forall k, slice_to_string itoa k = "Size: " +:+ itoa (length k) +:+ " :" +:+ bars k) as K.
  { intros k. unfold slice_to_string. by rewrite bars_fold, !app_assoc_str. }
  split; [apply K|]. intros l' El Hl Hl'. rewrite !K, El. intros E.
  assert (bars l' = bars l) as B.
  { revert E. generalize (itoa (length l)) as n. intros n. cbn. intros E. injection E as E. revert E.
    induction n as [|c n IH]; cbn; [by intros [= E]|]. intros [= E]. by apply IH. }
  clear E K. revert l' El Hl' B. induction Hl as [|s l Hs _ IH]; intros [|s' l'] El Hl' B; try done.
  inversion Hl'; subst. cbn [bars] in B. destruct (bar_split _ _ _ _ ltac:(eassumption) Hs B) as [-> B']. f_equal. apply IH; [by injection El|done|done].
Qed.

Example C145_list_example : slice_to_string (fun n => if (n =? 2)%nat then "2" else "?") ["CRAN"; "MPN"] = "Size: 2 :CRAN|MPN|".
Proof. done. Qed.

(** With bars two lists may have the same text. *)
Theorem C145_list_refuted : exists itoa l l', l <> l' /\ length l = length l' /\ slice_to_string itoa l = slice_to_string itoa l'.
Proof. by exists (fun _ => "2"), ["a|b"; "c"], ["a"; "b|c"]. Qed.

Lemma last_same c d a : forall b, a +:+ String c "" = b +:+ String d "" -> c = d.
Proof.
  induction a as [|x a IH]; intros [|y b] E; cbn in E; [congruence|injection E as _ E; by destruct b|injection E as _ E; by destruct a|].
  injection E as _ E. by apply (IH b).
Qed.

(** One slash at the end is taken off, then two backslashes; other names stay. *)
Theorem C145_dir_name s : 
  ((forall x, s <> x +:+ "/") -> (forall x, s <> x +:+ "\\") -> sanitize_dir_name s = s) /\
  ((forall x, s <> x +:+ "\\") -> sanitize_dir_name (s +:+ "/") = s) /\
  sanitize_dir_name (s +:+ "\\") = s /\ sanitize_dir_name (s +:+ "\\/") = s.
Proof.
  assert (forall p x, (forall y, x <> y +:+ p) -> trim_suffix p x = x) as K.
  { intros p x H. destruct (trim_suffix_cases p x) as [|E]; [done|]. by destruct (H _ E). }
  assert (forall p x, trim_suffix p (x +:+ p) = x) as T by (intros p x; apply trim_suffix_self).
  unfold sanitize_dir_name. split; [|split; [|split]].
  - intros H1 H2. by rewrite (K "/" s H1), (K "\\" s H2).
  - intros H. by rewrite T, (K "\\" s H).
  - rewrite (K "/"); [apply T|]. intros x E.
    change "\\" with ("\" +:+ "\") in E. rewrite <- app_assoc_str in E. by apply last_same in E.
  - change "\\/" with ("\\" +:+ "/"). by rewrite <- app_assoc_str, T, T.
Qed.

Example C145_dir_name_example : sanitize_dir_name "C:\lib\\/" = "C:\lib" /\ sanitize_dir_name "lib/" = "lib".
Proof. done. Qed.

(** A single backslash stays. *)
Theorem C145_dir_name_refuted : exists s, sanitize_dir_name (s +:+ "\") <> s.
Proof. exists "C:\lib". done. Qed.

(** All fields of dependencies are followed, of recommended packages too. *)
Theorem C145_all_deps : pd_depends all_pkg_deps = true /\ pd_imports all_pkg_deps = true /\ pd_suggests all_pkg_deps = true /\
  pd_linkingto all_pkg_deps = true /\ pd_no_recommended all_pkg_deps = false.
Proof. done. Qed.

(** A megabyte has 1048576 bytes. *)
Theorem C145_megabytes n : (get_megabytes n * 1048576 == inject_Z n)%Q /\ (get_megabytes (n * 1048576) == inject_Z n)%Q.
Proof.
  unfold get_megabytes. split.
  - change (inject_Z (1024 * 1024)) with (1048576)%Q. field.
  - change (inject_Z (1024 * 1024)) with (1048576)%Q. rewrite inject_Z_mult. change (inject_Z 1048576) with (1048576)%Q. field.
Qed.

Example C145_megabytes_example : (get_megabytes 1572864 == 3 # 2)%Q.
Proof. done. Qed.

(** The path for the database is the one that is used, and has the hash as its last
    element. *)
Theorem C145_path md5 b cache db rv :
  package_db_path cache (md5 (hash_text b (db_repo db) (db_types db) (rv_full rv))) =
    db_file md5 b (cache ++ ["pkgr"; "r_packagedb_caches"])%list db rv /\
  (forall h h', package_db_path cache h = package_db_path cache h' -> h = h').
Proof.
  unfold package_db_path, db_file. split; [by rewrite <- app_assoc|]. intros h h' E. apply app_inv_head in E. congruence.
Qed.

Example C145_path_example : package_db_path ["home"; ".cache"] "0f" = ["home"; ".cache"; "pkgr"; "r_packagedb_caches"; "0f"].
Proof. done. Qed.

Print Assumptions C145_graph.
Print Assumptions C145_list.
Print Assumptions C145_list_refuted.
Print Assumptions C145_dir_name.
Print Assumptions C145_dir_name_refuted.
Print Assumptions C145_all_deps.
Print Assumptions C145_megabytes.
Print Assumptions C145_path.
