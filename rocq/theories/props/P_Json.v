(** C148: inspect and load write JSON that says what they have found. *)
From stdpp Require Import strings list gmap sorting.
From Coq Require Import Ascii NArith Lia.
From Verif.model Require Import GoStr Graph Json Desc Pacman Origins LoadCmd.
From Verif.spec Require Import GraphSpec PlanSpec JsonSpec.
From Verif.proofs Require Import GoStrLemmas DerivedProofs JsonProofs JsonTextProofs.

Local Open Scope string_scope.

(** Every value that is written is read as the same value, up to bytes that are not
    UTF-8, which are replaced. *)
Theorem C148_reads : exists m, (forall s, Mended s (m s)) /\
  forall v, Reads (pretty_print v) (jmap m v) /\ Reads (json_marshal v) (jmap m v).
Proof.
  exists mend. split; [apply mended_mend|]. intros v. split; [apply pretty_reads|].
  rewrite <- (app_nil_str (json_marshal v)). by apply marshal_reads.
Qed.

(** A text is at most one value, and there is only one way to replace bytes, none in
    UTF-8. *)
Theorem C148_one : (forall t v w, Reads t v -> Reads t w -> v = w) /\
  (forall s a b, Mended s a -> Mended s b -> a = b) /\ (forall s, Utf8 s -> Mended s s).
Proof.
  split; [apply reads_one|]. split; [apply mended_unique|]. intros s H. rewrite <- (mend_utf8 s H) at 2. apply mended_mend.
Qed.

(** What is written is UTF-8, whatever the texts in the value are. *)
Theorem C148_utf8 v : Utf8 (pretty_print v) /\ Utf8 (json_marshal v).
Proof. split; (apply utf8_app; [apply encode_utf8|]; by apply low_utf8). Qed.

(** inspect writes no characters of HTML; other texts of simple characters are written as
    they are, by load in any case. *)
Theorem C148_text : (forall v, each_char no_html_char (pretty_print v)) /\
  (forall s, each_char simple_char s -> json_marshal (JStr s) = """" +:+ s +:+ """" +:+ newline) /\
  (forall s, each_char simple_char s -> each_char no_html_char s -> pretty_print (JStr s) = """" +:+ s +:+ """" +:+ newline).
Proof.
  split; [|split].
  - intros v. apply each_app. split; [apply encode_html|]; now_html.
  - intros s H. unfold json_marshal. cbn [encode]. unfold quoted. rewrite escape_simple by done. by rewrite !app_assoc_str.
  - intros s H H'. unfold pretty_print. cbn [encode]. unfold quoted. rewrite escape_simple by done. by rewrite !app_assoc_str.
Qed.

(** inspect --deps: each package with its dependencies. *)
Theorem C148_deps (m : gmap string (list string)) :
  (forall k l, m !! k = Some l -> Utf8 k /\ Forall Utf8 l) ->
  exists v, Reads (deps_text m) v /\ says_map says_list m v.
Proof.
  intros H. exists (jmap mend (in_order slice m)). split; [apply pretty_reads|].
  apply in_order_says. intros k l E. destruct (H k l E) as [Hk Hl]. split; [done|].
  rewrite slice_mend by done. apply slice_says.
Qed.

Lemma field_here l k x : NoDup l.*1 -> (k, x) ∈ l -> field (JObj l) k x.
Proof.
  intros N H. exists l. split; [done|]. intros y. split; [|by intros ->]. intros Hy.
  apply elem_of_list_lookup in H as [i Hi]. apply elem_of_list_lookup in Hy as [j Hj].
  assert (i = j) as <-; [|congruence].
  eapply (NoDup_lookup l.*1); [done| |]; rewrite list_lookup_fmap; [by rewrite Hi|by rewrite Hj].
Qed.

Ltac here := apply field_here; [by apply (bool_decide_unpack _); vm_compute|rewrite !elem_of_cons; auto 12].

(** inspect --installed-from: who has installed the packages of the library. *)
Theorem C148_installed (ip : gmap string desc) (keys : list string) : Forall Utf8 keys ->
  exists v pkgr packrat unknown a b c, Reads (installed_from_text ip keys) v /\
    field v "pkgr" a /\ says_list pkgr a /\ field v "packrat" b /\ says_list packrat b /\
    field v "unknown" c /\ says_list unknown c /\
    (forall k, k ∈ pkgr <-> k ∈ keys /\ exists d, ip !! k = Some d /\ d_pkgr_version d <> "") /\
    (forall k, k ∈ packrat <-> k ∈ keys /\ forall d, ip !! k = Some d -> d_pkgr_version d = "") /\
    unknown = [] /\ length pkgr + length packrat = length keys.
Proof.
  intros Hk. set (x := by_installed_from ip keys).
  set (fp := fun k => match ip !! k with Some d => negb (String.eqb (d_pkgr_version d) "") | None => false end).
  assert (if_pkgr x = List.filter fp keys) as E1 by done.
  assert (if_packrat x = List.filter (fun k => negb (fp k)) keys) as E2 by done.
  assert (forall k, fp k = true <-> exists d, ip !! k = Some d /\ d_pkgr_version d <> "") as Hfp.
  { intros k. unfold fp. destruct (ip !! k) as [d|]; [|split; [done|by intros (d & ? & _)]].
    rewrite negb_true_iff, String.eqb_neq. split; [by exists d|]. intros (d' & E & ?). by injection E as ->. }
  assert (forall k, negb (fp k) = true <-> forall d, ip !! k = Some d -> d_pkgr_version d = "") as Hfn.
  { intros k. unfold fp. destruct (ip !! k) as [d|]; [|done].
    rewrite negb_involutive, String.eqb_eq. split; [by intros ? d' [= <-]|]. intros H. by apply H. }
  assert (forall p : string -> bool, Forall Utf8 (List.filter p keys)) as Hu.
  { intros p. apply Forall_forall. intros k Hin. apply elem_of_list_In, filter_In in Hin as [Hin _].
    rewrite Forall_forall in Hk. apply Hk. by apply elem_of_list_In. }
  exists (jmap mend (installed_json x)), (if_pkgr x), (if_packrat x), [], (slice (if_pkgr x)), (slice (if_packrat x)), JNull.
  split; [apply pretty_reads|].
  assert (jmap mend (installed_json x) = installed_json x) as ->.
  { unfold installed_json. cbn [jmap map fst snd]. rewrite !slice_mend; [by rewrite !mend_utf8 by by apply low_utf8|..]; [constructor|..].
    - rewrite E2. apply Hu.
    - rewrite E1. apply Hu. }
  unfold installed_json. change (slice (if_unknown x)) with JNull.
  split; [here|]. split; [apply slice_says|]. split; [here|]. split; [apply slice_says|]. split; [here|]. split; [by right|].
  split; [|split; [|split; [done|]]].
  - intros k. rewrite E1, elem_of_list_In, filter_In, <- elem_of_list_In, Hfp. done.
  - intros k. rewrite E2, elem_of_list_In, filter_In, <- elem_of_list_In, Hfn. done.
  - rewrite E1, E2. clear. induction keys as [|k keys IH]; [done|]. cbn [List.filter]. destruct (fp k); cbn [negb length]; lia.
Qed.

Lemma result_says x : utf8_result x -> says_result x (jmap mend (result_json x)).
Proof.
  intros (H1 & H2 & H3 & H4 & H5 & H6). unfold result_json. cbn [jmap map fst snd].
  rewrite (mend_utf8 (fr_pkg x)), (mend_utf8 (fr_version x)), (mend_utf8 (fr_path x)), (mend_utf8 (fr_exiterr x)),
    (mend_utf8 (fr_stdout x)), (mend_utf8 (fr_stderr x)) by done. rewrite !mend_utf8 by by apply low_utf8.
  split; [here|]. split; [here|]. split; [here|]. split; [here|]. split; [here|]. split; here.
Qed.

(** load --json: the session, the result for each package and the number of failures. *)
Theorem C148_load rpath rversion (rep : full_report) :
  Utf8 rpath -> Utf8 rversion -> Forall Utf8 (fl_libs rep) ->
  (forall k x, fl_results rep !! k = Some x -> Utf8 k /\ utf8_result x) ->
  exists v, Reads (load_text rpath rversion rep) v /\ says_report rpath rversion rep v.
Proof.
  intros Hp Hv Hl Hr. exists (jmap mend (report_json rpath rversion rep)). split; [by apply marshal_reads|].
  exists (JObj [("LibPaths", slice (fl_libs rep)); ("RPath", JStr rpath); ("RVersion", JStr rversion)]),
    (slice (fl_libs rep)), (jmap mend (in_order result_json (fl_results rep))).
  assert (jmap mend (report_json rpath rversion rep) =
    JObj [("RMetadata", JObj [("LibPaths", slice (fl_libs rep)); ("RPath", JStr rpath); ("RVersion", JStr rversion)]);
      ("LoadResults", jmap mend (in_order result_json (fl_results rep))); ("Failures", JNum (N.of_nat (fl_failures rep)))]) as ->.
  { set (o := in_order result_json (fl_results rep)). unfold report_json. fold o.
    change (jmap mend (JObj ?l)) with (JObj (map (fun kx => (mend kx.1, jmap mend kx.2)) l)).
    cbn [map fst snd]. rewrite !(mend_utf8 "RMetadata"), !(mend_utf8 "LoadResults"), !(mend_utf8 "Failures") by by apply low_utf8.
    change (jmap mend (JObj ?l)) with (JObj (map (fun kx => (mend kx.1, jmap mend kx.2)) l)).
    cbn [map fst snd]. rewrite slice_mend by done. cbn [jmap]. rewrite (mend_utf8 rpath), (mend_utf8 rversion) by done.
    rewrite !mend_utf8 by by apply low_utf8. done. }
  split; [here|]. split; [here|]. split; [apply slice_says|]. split; [here|]. split; [here|]. split; [here|].
  split; [|here]. apply in_order_says. intros k x E. destruct (Hr k x E) as [Hk Hx]. split; [done|]. by apply result_says.
Qed.

(** ** Examples *)

Definition ex_deps : gmap string (list string) := {["processx" := ["R6"; "ps"]; "ghost" := []; "a<b" := ["x""y"]]}.

Example C148_example_text : deps_text ex_deps = "{
  ""a\u003cb"": [
    ""x\""y""
  ],
  ""ghost"": null,
  ""processx"": [
    ""R6"",
    ""ps""
  ]
}
".
Proof. by vm_compute. Qed.

Example C148_example_deps : exists v, Reads (deps_text ex_deps) v /\ says_map says_list ex_deps v.
Proof.
  apply C148_deps. intros k l E. unfold ex_deps in E.
  apply lookup_insert_Some in E as [[<- <-]|[_ E]]; [split; [|repeat constructor]; by apply low_utf8|].
  apply lookup_insert_Some in E as [[<- <-]|[_ E]]; [split; [|repeat constructor]; by apply low_utf8|].
  apply lookup_singleton_Some in E as [<- <-]. split; [|repeat constructor]; by apply low_utf8.
Qed.

Example C148_example_read :
  read_value 10 (deps_text ex_deps) =
    Some (JObj [("a<b", JArr [JStr "x""y"]); ("ghost", JNull); ("processx", JArr [JStr "R6"; JStr "ps"])], newline).
Proof. by vm_compute. Qed.

Example C148_example_html :
  json_marshal (JStr "a<b & c") = """a<b & c""" +:+ newline /\ pretty_print (JStr "a<b & c") = """a\u003cb \u0026 c""" +:+ newline.
Proof. by vm_compute. Qed.

(** A text with characters of one to four bytes, and the end of a line of JavaScript. *)
Definition ex_chars : string := utf8 65 +:+ utf8 233 +:+ utf8 8364 +:+ utf8 8232 +:+ utf8 128512.

Example C148_example_chars : Utf8 ex_chars /\ Reads (json_marshal (JStr ex_chars)) (JStr ex_chars).
Proof.
  assert (Utf8 ex_chars) as H.
  { do 4 (apply utf8_app; [rewrite <- (app_nil_str (utf8 _)); constructor; [unfold scalar; lia|constructor]|]).
    rewrite <- (app_nil_str (utf8 128512)). constructor; [unfold scalar; lia|constructor]. }
  split; [done|]. destruct C148_reads as (m & M & R). destruct (R (JStr ex_chars)) as [_ R'].
  destruct C148_one as (_ & U & V). cbn [jmap] in R'. by rewrite (U _ _ _ (M ex_chars) (V _ H)) in R'.
Qed.

Definition ex_rep : full_report := {|
  fl_libs := ["/usr/lib/R"]; fl_failures := 1;
  fl_results := {["R6" := {| fr_pkg := "R6"; fr_version := "2.5"; fr_path := "/lib/R6"; fr_exiterr := ""; fr_stdout := "";
                             fr_stderr := ""; fr_success := true |};
                  "ps" := {| fr_pkg := "ps"; fr_version := "could not retrieve"; fr_path := "could not retrieve";
                             fr_exiterr := "exit status 1"; fr_stdout := ""; fr_stderr := "Error & more"; fr_success := false |}]} |}.

Example C148_example_load : exists v, Reads (load_text "R" (session_version 4 2 1) ex_rep) v /\
  says_report "R" "4.2.1" ex_rep v.
Proof.
  apply (C148_load "R" "4.2.1"); [by apply low_utf8..| |].
  - repeat constructor. by apply low_utf8.
  - intros k x E. unfold ex_rep in E. cbn [fl_results] in E.
    apply lookup_insert_Some in E as [[<- <-]|[_ E]].
    { split; [by apply low_utf8|]. split; [by apply low_utf8|]. split; [by apply low_utf8|]. split; [by apply low_utf8|].
      split; [by apply low_utf8|]. split; by apply low_utf8. }
    apply lookup_singleton_Some in E as [<- <-].
    split; [by apply low_utf8|]. split; [by apply low_utf8|]. split; [by apply low_utf8|]. split; [by apply low_utf8|].
    split; [by apply low_utf8|]. split; by apply low_utf8.
Qed.

(** ** What does not hold *)

(** Names that are not UTF-8 (say, of a directory in Latin-1) are not told: different
    records are written with the same text, in which one name stands twice. *)
Theorem C148_bytes_refuted :
  let e := String (ascii_of_N 233) "" in let a := String (ascii_of_N 224) "" in
  let m1 : gmap string (list string) := {[e := ["R6"]; a := ["R6"]]} in
  let m2 : gmap string (list string) := {[String (ascii_of_N 232) "" := ["R6"]; a := ["R6"]]} in
  m1 <> m2 /\ deps_text m1 = deps_text m2 /\ forall v, Reads (deps_text m1) v -> ~ says_map says_list m1 v.
Proof.
  intros e a m1 m2. split; [|split].
  - intros E. assert (m1 !! e = m2 !! e) as E' by by rewrite E. by vm_compute in E'.
  - by vm_compute.
  - intros v R (l & -> & N & _).
    assert (Reads (deps_text m1) (JObj [(utf8 65533, JArr [JStr "R6"]); (utf8 65533, JArr [JStr "R6"])])) as R'.
    { exists 10, newline. by vm_compute. }
    pose proof (reads_one _ _ _ R R') as E. injection E as ->. cbn in N. apply NoDup_cons in N as [N _]. apply N. by left.
Qed.

Print Assumptions C148_reads.
Print Assumptions C148_one.
Print Assumptions C148_utf8.
Print Assumptions C148_deps.
Print Assumptions C148_installed.
Print Assumptions C148_load.
Print Assumptions C148_bytes_refuted.

Print Assumptions C148_text.
