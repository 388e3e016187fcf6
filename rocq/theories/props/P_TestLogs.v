(** C153: what the end-to-end tests read from the log. *)
From stdpp Require Import strings list gmap sorting.
From Coq Require Import Ascii ZArith NArith Lia.
From Verif.model Require Import GoStr Desc Nexus RepoDb Pacman Graph Plan Origins Logging Json Records TestLogs.
From Verif.spec Require Import RepoSpec GraphSpec PlanSpec JsonSpec RecordsSpec TestLogsSpec OriginSpec.
From Verif.proofs Require Import GoStrLemmas JsonProofs RecordsProofs TestLogsProofs Exact8Proofs.
From Verif.props Require Import P_Origin.

Local Open Scope string_scope.

(** * C153 *)

(** The tests read the messages about origins, each once, whatever else pkgr has written, as
    long as the message occurs nowhere else. *)
Theorem C153_read parse timed os t : reads_json parse -> logged timed os t ->
  (exists l, set_logs parse t l) /\
  forall l, set_logs parse t l -> exists l', l ≡ₚ l' /\ Forall2 read_as os l'.
Proof.
  intros P L. pose proof (logged_collect parse timed os t P L) as E. split.
  - exists (merge_sort msg_le (map origin_msg os)). exists (map origin_msg os). split; [done|]. split; [apply merge_sort_Permutation|].
    apply (StronglySorted_merge_sort msg_le).
  - intros l (l0 & E' & Pm & _). rewrite E in E'. injection E' as <-. exists (map origin_msg os). split; [done|].
    apply Forall2_fmap_r, Forall_Forall2_diag, Forall_true. apply origin_read_as.
Qed.

(** The texts that are compared with golden files do not depend on the order in which pkgr has
    written the messages. *)
Theorem C153_golden parse timed timed' os os' t t' l l' : reads_json parse -> logged timed os t -> logged timed' os' t' -> os ≡ₚ os' ->
  set_logs parse t l -> set_logs parse t' l' -> golden l = golden l' /\ golden_type l = golden_type l'.
Proof.
  intros P L L' Po (l0 & E & Pm & S) (l0' & E' & Pm' & S').
  rewrite (logged_collect parse timed os t P L) in E. injection E as <-.
  rewrite (logged_collect parse timed' os' t' P L') in E'. injection E' as <-.
  apply (golden_one set_key); [|by rewrite Pm, Pm', Po|exact S|exact S'].
  rewrite Pm. apply Forall_fmap, Forall_true. done.
Qed.

(** Also for other texts: if all messages are the same. *)
Theorem C153_sorted parse t t' l l' g : set_logs parse t l -> set_logs parse t' l' -> l ≡ₚ l' -> Forall (fun m => sm_msg m = g) l ->
  golden l = golden l' /\ golden_type l = golden_type l'.
Proof. intros (_ & _ & _ & S) (_ & _ & _ & S') P G. by apply (golden_one g). Qed.

(** A test finds an origin if and only if pkgr has told it. *)
Theorem C153_found parse timed os t l pkg version repo rel : reads_json parse -> logged timed os t -> set_logs parse t l ->
  (has_msg l pkg version repo rel = true <->
   exists o, o ∈ os /\ og_package o = pkg /\ og_version o = version /\ og_repo o = repo /\ relationship_says (og_user o) rel).
Proof.
  intros P L (l0 & E & Pm & _). rewrite (logged_collect parse timed os t P L) in E. injection E as <-. rewrite has_msg_spec.
  setoid_rewrite Pm. setoid_rewrite elem_of_list_fmap. split.
  - intros (m & (o & -> & Ho) & R). exists o. rewrite rel_says. done.
  - intros (o & Ho & R). exists (origin_msg o). rewrite rel_says in R. split; [by exists o|done].
Qed.

Theorem C153_found_type parse timed os t l pkg version repo rel ty : reads_json parse -> logged timed os t -> set_logs parse t l ->
  (has_msg_type l pkg version repo rel ty = true <->
   exists o, o ∈ os /\ og_package o = pkg /\ og_version o = version /\ og_repo o = repo /\ relationship_says (og_user o) rel /\ type_says (og_type o) ty).
Proof.
  intros P L (l0 & E & Pm & _). rewrite (logged_collect parse timed os t P L) in E. injection E as <-. rewrite has_msg_type_spec.
  setoid_rewrite Pm. setoid_rewrite elem_of_list_fmap. split.
  - intros (m & (o & -> & Ho) & R). exists o. rewrite rel_says, type_says_word. done.
  - intros (o & Ho & R). exists (origin_msg o). rewrite rel_says, type_says_word in R. split; [by exists o|done].
Qed.

(** What a test finds about a plan is what will be downloaded. *)
Theorem C153_plan parse timed t l nx nr o pkgs pre cfg update le ip pkg version repo rel :
  nexus_ok nx -> ~ available nx "R" -> oracle_ok o -> standard_config nr cfg -> (forall p, p ∈ pkgs -> available nx p) ->
  resolve_installation_reqs o pkgs pre cfg nx update le nr = PlanOk ip ->
  reads_json parse -> logged timed (origin_lines nx pkgs ip) t -> set_logs parse t l ->
  (has_msg l pkg version repo rel = true <->
   exists dl, dl ∈ ip_downloads ip /\ d_package (dl_package dl) = pkg /\ d_version (dl_package dl) = version /\
     ru_name (pc_repo (dl_config dl)) = repo /\ ((pkg ∈ pkgs /\ rel = "user_defined") \/ (pkg ∉ pkgs /\ rel = "dependency"))).
Proof.
  intros H1 H2 H3 H4 H5 H6 P L S. rewrite (C153_found parse timed _ t l pkg version repo rel P L S).
  destruct (C134_told nx nr o pkgs pre cfg update le ip H1 H2 H3 H4 H5 H6) as [Ha Hb]. split.
  - intros (x & Hx & E1 & E2 & E3 & R). destruct (Hb x Hx) as (dl & Hd & T1 & T2 & T3 & T4 & T5). exists dl.
    split; [done|]. split; [congruence|]. split; [congruence|]. split; [congruence|].
    rewrite <- E1, T1. destruct R as [[Hu ->]|[Hu ->]]; [left|right]; (split; [|done]); rewrite <- T5; congruence.
  - intros (dl & Hd & E1 & E2 & E3 & R). destruct (Ha dl Hd) as (x & Hx & T1 & T2 & T3 & T4 & T5). exists x.
    split; [done|]. split; [congruence|]. split; [congruence|]. split; [congruence|]. rewrite E1 in T5.
    destruct R as [[Hp ->]|[Hp ->]]; [left|right]; (split; [|done]); [by apply T5|].
    destruct (og_user x); [|done]. by destruct Hp; apply T5.
Qed.

(** The logs for which no order is needed: they are read in the order in which they were
    written, and the filter keeps those with the name, in this order. *)
Theorem C153_generic {A} pick (read : string -> option A) t t' x y : no_newline t ->
  generic_logs pick read t = Some x -> generic_logs pick read t' = Some y -> generic_logs pick read (t +:+ newline +:+ t') = Some (x ++ y)%list.
Proof.
  intros N Hx Hy. unfold generic_logs, output_lines in *.
  rewrite (Exact8Proofs.split_with (ascii_of_nat 10) t t' (no_newline_without t N) : split_char (ascii_of_nat 10) (t +:+ newline +:+ t') = _).
  rewrite (Exact8Proofs.split_without (ascii_of_nat 10) t (no_newline_without t N)) in Hx.
  apply (collect_app pick read [t]); done.
Qed.

Theorem C153_filter {A} (pkg : A -> string) name l :
  sublist (filter_by_tag pkg name l) l /\ forall x, x ∈ filter_by_tag pkg name l <-> x ∈ l /\ pkg x = name.
Proof.
  induction l as [|x l [IH1 IH2]]; cbn [filter_by_tag].
  - split; [constructor|]. intros x. rewrite elem_of_nil. tauto.
  - destruct (String.eqb_spec (pkg x) name) as [E|E].
    + split; [by constructor|]. intros y. rewrite !elem_of_cons, IH2. naive_solver.
    + split; [by constructor|]. intros y. rewrite elem_of_cons, IH2. naive_solver.
Qed.

Lemma lines_of_join l : l <> [] -> Forall no_newline l -> output_lines (join newline l) = l.
Proof.
  unfold output_lines. induction l as [|x l IH]; intros Hn H; [done|]. apply Forall_cons in H as [Hx H]. destruct l as [|y l].
  - apply (Exact8Proofs.split_without (ascii_of_nat 10) x (no_newline_without x Hx)).
  - change (join newline (x :: y :: l)) with (x +:+ newline +:+ join newline (y :: l)).
    rewrite (Exact8Proofs.split_with (ascii_of_nat 10) x _ (no_newline_without x Hx) : split_char (ascii_of_nat 10) (x +:+ newline +:+ _) = _).
    by rewrite IH.
Qed.

(** A golden file has one line for each message, so that equal files have equal lines. *)
Theorem C153_lines l : l <> [] -> Forall (fun m => no_newline (msg_text m) /\ no_newline (msg_text_type m)) l ->
  output_lines (golden l) = map msg_text l /\ output_lines (golden_type l) = map msg_text_type l.
Proof.
  intros Hn H. split; apply lines_of_join; try (by destruct l); apply Forall_fmap; (eapply Forall_impl; [exact H|]); by intros m [? ?].
Qed.

(** Other members of a record do not change what is read. *)
Theorem C153_unrelated parse line line' l1 l2 k v :
  parse line = Some (JObj (l1 ++ l2)%list) -> parse line' = Some (JObj (l1 ++ (k, v) :: l2)%list) ->
  Forall (fun n => equal_fold k n = false) ["msg"; "pkg"; "relationship"; "repo"; "version"; "type"] ->
  read_set_msg parse line' = read_set_msg parse line.
Proof.
  intros E E' H. unfold read_set_msg. rewrite E, E'. clear E E'. generalize empty_msg. induction l1 as [|kv l1 IH]; intros m; cbn [app set_members].
  - rewrite !Forall_cons in H. destruct H as (H1 & H2 & H3 & H4 & H5 & H6 & _). destruct m as [g p r o w t].
    unfold set_member. cbn [fst]. by rewrite H1, H2, H3, H4, H5, H6.
  - destruct (set_member m kv); [|done]. apply IH.
Qed.

Definition ex_o1 : origin := {| og_package := "R6"; og_repo := "CRAN"; og_type := STSource; og_version := "2.4.1"; og_user := true |}.
Definition ex_o2 : origin := {| og_package := "Rcpp"; og_repo := "MPN"; og_type := STBinary; og_version := "1.0.5"; og_user := false |}.
Definition ex_out : string :=
  format_entry false (origin_entry "" ex_o2) +:+ format_entry false (LogEntry LInfo "package installation sources" "" {["CRAN" := JNum 1]}) +:+
  format_entry false (origin_entry "" ex_o1) +:+ "".

Example C153_example : logged false [ex_o2; ex_o1] ex_out /\
  ex_out = join newline
    ["{""level"":""debug"",""msg"":""package repository set"",""pkg"":""Rcpp"",""relationship"":""dependency"",""repo"":""MPN"",""type"":2,""version"":""1.0.5""}";
     "{""CRAN"":1,""level"":""info"",""msg"":""package installation sources""}";
     "{""level"":""debug"",""msg"":""package repository set"",""pkg"":""R6"",""relationship"":""user_defined"",""repo"":""CRAN"",""type"":1,""version"":""2.4.1""}"; ""] /\
  forall parse l, reads_json parse -> set_logs parse ex_out l ->
    golden_type l = "msg: 'package repository set', pkg: 'R6', version: '2.4.1', repo: 'CRAN', relationship: user_defined', type: source" +:+ newline +:+
                    "msg: 'package repository set', pkg: 'Rcpp', version: '1.0.5', repo: 'MPN', relationship: dependency', type: binary".
Proof.
  assert (logged false [ex_o2; ex_o1] ex_out) as L.
  { constructor; [split_and!; by apply low_utf8|by apply low_utf8|]. apply logged_other.
    - apply contains_false. by vm_compute.
    - constructor; [split_and!; by apply low_utf8|by apply low_utf8|constructor]. }
  split; [done|]. split; [by vm_compute|]. intros parse l P (l0 & E & Pm & S).
  rewrite (logged_collect parse false _ _ P L) in E. injection E as <-.
  assert (golden l = golden [origin_msg ex_o1; origin_msg ex_o2] /\ golden_type l = golden_type [origin_msg ex_o1; origin_msg ex_o2]) as [_ ->].
  { apply (golden_one set_key); [rewrite Pm; by repeat constructor|rewrite Pm; constructor|exact S|].
    constructor; [repeat constructor|]. constructor; [|constructor]. by vm_compute. }
  by vm_compute.
Qed.

Example C153_lines_example :
  output_lines (golden_type [origin_msg ex_o1; origin_msg ex_o2]) =
    ["msg: 'package repository set', pkg: 'R6', version: '2.4.1', repo: 'CRAN', relationship: user_defined', type: source";
     "msg: 'package repository set', pkg: 'Rcpp', version: '1.0.5', repo: 'MPN', relationship: dependency', type: binary"] /\
  set_members empty_msg [("level", JStr "debug"); ("msg", JStr "a"); ("my", JNum 3)] = Some (SetMsg "a" "" "" "" "" 0).
Proof. by vm_compute. Qed.

(** Another record in which the message occurs, here as the text of a field, is taken for a message. *)
Theorem C153_other_refuted : exists e, en_msg e <> "package repository set" /\ forall parse l, reads_json parse ->
  set_logs parse (format_entry false e) l -> l = [SetMsg "cmd output" "" "" "" "" 0].
Proof.
  exists (LogEntry LDebug "cmd output" "" {["output" := JStr "package repository set"]}). split; [done|]. intros parse l P (l0 & E & Pm & _).
  set (e := LogEntry LDebug "cmd output" "" {["output" := JStr "package repository set"]}) in E.
  replace (format_entry false e) with (format_entry false e +:+ "") in E by apply app_nil_str.
  rewrite lines_of_entry in E. cbn [collect_lines] in E.
  replace (contains set_key (flat true (in_order (fun v => v) (entry_data false e)))) with true in E by by vm_compute.
  unfold read_set_msg in E. rewrite (P _ _ (flat_reads true _)) in E. vm_compute in E. injection E as <-.
  by apply Permutation_singleton_r in Pm.
Qed.

(** Then the texts may depend on the order of the records: two that differ in their messages
    only are equal for the order. *)
Theorem C153_golden_refuted : exists e e' : log_entry, forall parse, reads_json parse ->
  exists m m', set_logs parse (format_entry false e +:+ format_entry false e') m /\
    set_logs parse (format_entry false e' +:+ format_entry false e) m' /\ golden m <> golden m'.
Proof.
  exists (LogEntry LDebug "package repository set" "" {["pkg" := JStr "R6"]}), (LogEntry LDebug "package repository set again" "" {["pkg" := JStr "R6"]}).
  set (e := LogEntry LDebug "package repository set" "" {["pkg" := JStr "R6"]}).
  set (e' := LogEntry LDebug "package repository set again" "" {["pkg" := JStr "R6"]}).
  intros parse P.
  assert (forall x y, (x = e \/ x = e') -> (y = e \/ y = e') ->
    collect_lines (contains set_key) (read_set_msg parse) (output_lines (format_entry false x +:+ format_entry false y)) =
      Some [SetMsg (en_msg x) "R6" "" "" "" 0; SetMsg (en_msg y) "R6" "" "" "" 0]) as C.
  { intros x y Hx Hy. replace (format_entry false y) with (format_entry false y +:+ "") by apply app_nil_str.
    rewrite !lines_of_entry. cbn [collect_lines].
    assert (forall z, z = e \/ z = e' -> contains set_key (flat true (in_order (fun v => v) (entry_data false z))) = true /\
      read_set_msg parse (flat true (in_order (fun v => v) (entry_data false z))) = Some (SetMsg (en_msg z) "R6" "" "" "" 0)) as R.
    { intros z Hz. split; [destruct Hz as [-> | ->]; by vm_compute|]. unfold read_set_msg. rewrite (P _ _ (flat_reads true _)).
      destruct Hz as [-> | ->]; by vm_compute. }
    destruct (R x Hx) as [-> ->]. destruct (R y Hy) as [-> ->]. by vm_compute. }
  eexists _, _. split; [|split].
  - eexists. split; [apply C; auto|]. split; [done|]. constructor; [repeat constructor|]. constructor; [by vm_compute|constructor].
  - eexists. split; [apply C; auto|]. split; [done|]. constructor; [repeat constructor|]. constructor; [by vm_compute|constructor].
  - by vm_compute.
Qed.

(** PkgrJsonLogOutput finds nothing, whatever pkgr has written. *)
Theorem C153_output_refuted : (forall logs results, collect_output logs results = logs) /\
  forall parse logs search, search <> "" -> exists err, output_contains parse logs search [] false = ([], false, err).
Proof.
  split; [done|]. intros parse logs search S. destruct (output_nothing parse search logs [] false S) as [H1 H2].
  destruct (output_contains parse logs search [] false) as [[m f] err]. cbn [fst snd] in *. exists err. by destruct H2 as [-> | ->]; subst f.
Qed.

Print Assumptions C153_read.
Print Assumptions C153_golden.
Print Assumptions C153_sorted.
Print Assumptions C153_found.
Print Assumptions C153_found_type.
Print Assumptions C153_plan.
Print Assumptions C153_generic.
Print Assumptions C153_filter.
Print Assumptions C153_other_refuted.
Print Assumptions C153_golden_refuted.
Print Assumptions C153_output_refuted.

Print Assumptions C153_lines.
Print Assumptions C153_unrelated.
