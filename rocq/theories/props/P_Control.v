(** C101-C104: what a DESCRIPTION file or an index record says is what pkgr reads. *)
From stdpp Require Import strings list gmap.
From Coq Require Import Ascii ZArith Lia.
From Verif.model Require Import GoStr Version Desc Nexus RepoDb Control.
From Verif.spec Require Import StrSpec VersionSpec RepoSpec FetchSpec UrlSpec ControlSpec.
From Verif.proofs Require Import GoStrLemmas RepoProofs FetchProofs UrlProofs ControlProofs.

Local Open Scope string_scope.
Local Arguments Ascii.eqb : simpl never.
Local Arguments char_eqb : simpl never.

(** C101 *)
Theorem C101_record_read : forall fs trailing w, record_ok fs -> says fs w ->
  (parse_desc (record_text fs trailing) = None <-> exists e, e ∈ all_entries w /\ parse_dep e = None) /\
  (forall d, parse_desc (record_text fs trailing) = Some d -> describes w d).
Proof. exact record_read. Qed.
Print Assumptions C101_record_read.

(** A record with a list over several lines and a package listed twice. *)
Definition ex_record : list field :=
  [Field "Package" " a" []; Field "Version" "  1.2-3 " [];
   Field "Depends" "" ["    R (>= 3.5),"; String (ascii_of_nat 9) "methods"];
   Field "Imports" " b (>= 1.2) , c," ["  b (>= 2.0)"]; Field "NeedsCompilation" " Yes" []].
Definition ex_written : written :=
  Written "a" "1.2-3" "" "" "Yes" ["b (>= 1.2)"; "c"; "b (>= 2.0)"] [] ["R (>= 3.5)"; "methods"] [] "" "" "".

Ltac here := apply elem_of_list_In; cbn; tauto.
Ltac strip a b := split; [by apply trimmed_bare|exists a, b; done].

Lemma ex_record_ok : record_ok ex_record.
Proof.
  split; [done|]. split; [|by apply (bool_decide_unpack _); vm_compute].
  repeat constructor; try done.
  - exists " "%char, "   R (>= 3.5),". split; [done|]. split; [done|]. done.
  - exists (ascii_of_nat 9), "methods". split; [done|]. split; [done|]. done.
  - exists " "%char, " b (>= 2.0)". split; [done|]. split; [done|]. done.
Qed.

Lemma ex_record_says : says ex_record ex_written.
Proof.
  assert (forall k, k ∉ map fd_name ex_record -> shows ex_record k "") as Hno by (intros k Hk; by right).
  assert (forall k, k ∉ map fd_name ex_record -> lists ex_record k []) as Hnl by (intros k Hk; by right).
  split; [left; exists (Field "Package" " a" []); split; [here|]; split; [done|]; split; [done|]; strip " " ""|].
  split; [left; exists (Field "Version" "  1.2-3 " []); split; [here|]; split; [done|]; split; [done|]; strip "  " " "|].
  split; [apply Hno; by apply (bool_decide_unpack _); vm_compute|].
  split; [apply Hno; by apply (bool_decide_unpack _); vm_compute|].
  split; [left; exists (Field "NeedsCompilation" " Yes" []); split; [here|]; split; [done|]; split; [done|]; strip " " ""|].
  split.
  { left. exists (Field "Imports" " b (>= 1.2) , c," ["  b (>= 2.0)"]). split; [here|]. split; [done|].
    split; [|by repeat constructor]. exists [" b (>= 1.2) "; " c"; String lf "  b (>= 2.0)"].
    split; [done|]. split; [done|]. split; [by repeat constructor|].
    constructor; [strip " " " "|]. constructor; [strip " " ""|]. constructor; [strip (String lf "  ") ""|constructor]. }
  split; [apply Hnl; by apply (bool_decide_unpack _); vm_compute|].
  split.
  { left. exists (Field "Depends" "" ["    R (>= 3.5),"; String (ascii_of_nat 9) "methods"]). split; [here|]. split; [done|].
    split; [|by repeat constructor]. exists [String lf "    R (>= 3.5)"; String lf (String (ascii_of_nat 9) "methods")].
    split; [done|]. split; [done|]. split; [by repeat constructor|].
    constructor; [strip (String lf "    ") ""|].
    constructor; [strip (String lf (String (ascii_of_nat 9) "")) ""|constructor]. }
  split; [apply Hnl; by apply (bool_decide_unpack _); vm_compute|].
  split; [apply Hno; by apply (bool_decide_unpack _); vm_compute|].
  split; [apply Hno; by apply (bool_decide_unpack _); vm_compute|].
  apply Hno; by apply (bool_decide_unpack _); vm_compute.
Qed.

Example C101_example : record_ok ex_record /\ says ex_record ex_written /\
  exists d, parse_desc (record_text ex_record true) = Some d /\ d_version d = "1.2-3" /\
    d_needs_compilation d = true /\ dep_constraint <$> d_depends d !! "methods" = Some CNone /\
    v_string ∘ dep_version <$> d_depends d !! "R" = Some "3.5" /\
    v_string ∘ dep_version <$> d_imports d !! "b" = Some "2.0".
Proof.
  split; [exact ex_record_ok|]. split; [exact ex_record_says|]. eexists. split; [vm_compute; reflexivity|].
  split; [reflexivity|]. split; [reflexivity|]. split; [|split]; vm_compute; reflexivity.
Qed.

(** C102 *)
Theorem C102_index_read : forall rv eol rs last trailing ws, rv_ok rv ->
  eol = String lf "" \/ eol = String cr (String lf "") ->
  Forall index_record_ok (rs ++ [last])%list -> Forall2 says (rs ++ [last])%list ws ->
  let body := index_text eol (map record_lines_of rs) (record_lines_of last) trailing in
  (read_index parse_desc rv (Some body) = None <->
     exists w e, w ∈ ws /\ e ∈ all_entries w /\ parse_dep e = None) /\
  (forall m, read_index parse_desc rv (Some body) = Some m ->
     exists ds, Forall2 describes ws ds /\
       forall p d, m !! p = Some d <-> last_such (usable_record rv p) ds d).
Proof. exact read_index_says. Qed.
Print Assumptions C102_index_read.

Example C102_example :
  let b := [Field "Package" "b" []; Field "Version" "0.1" []; Field "Depends" "R (>= 9.9)" []] in
  let body := index_text (String cr (String lf "")) [record_lines_of ex_record] (record_lines_of b) true in
  Forall index_record_ok [ex_record; b] /\
  exists m, read_index parse_desc (RVersion 3 6 1) (Some body) = Some m /\
    d_version <$> m !! "a" = Some "1.2-3" /\ m !! "b" = None.
Proof.
  split.
  - constructor; [split; [exact ex_record_ok|by repeat constructor]|].
    constructor; [split; [|by repeat constructor]|constructor].
    split; [done|]. split; [by repeat constructor|]. by apply (bool_decide_unpack _); vm_compute.
  - eexists. split; [vm_compute; reflexivity|]. split; vm_compute; reflexivity.
Qed.

(** C103: false, two empty lines after the last record make the whole index
    unreadable (the piece left over is a single line feed). *)
Theorem C103_blank_lines_refuted :
  let body := "Package: a" +:+ line_ends (String lf "") 1 in
  (exists m, read_index parse_desc (RVersion 3 6 1) (Some body) = Some m /\ m !! "a" <> None) /\
  read_index parse_desc (RVersion 3 6 1) (Some (body +:+ line_ends (String lf "") 2)) = None.
Proof.
  split; [|vm_compute; reflexivity]. eexists. split; [vm_compute; reflexivity|]. by vm_compute.
Qed.
Print Assumptions C103_blank_lines_refuted.

(** It holds for an even number of line ends.  Missing: an odd number of three or
    more. *)
Theorem C103_blank_lines_partial : forall parse rv eol recs last k,
  eol = String lf "" \/ eol = String cr (String lf "") ->
  Forall (fun ls => ls <> [] /\ Forall line_ok ls) recs -> last <> [] -> Forall line_ok last ->
  let body := index_text eol recs last false in
  read_index parse rv (Some (body +:+ line_ends eol (2 * k))) = read_index parse rv (Some body).
Proof.
  intros parse rv eol recs last k He H1 H2 H3 body. unfold read_index, body. by rewrite record_texts_ends.
Qed.
Print Assumptions C103_blank_lines_partial.

(** An odd number of three or more always fails; one line end is part of C102. *)
Theorem C103_exact : forall rv eol recs last k,
  eol = String lf "" \/ eol = String cr (String lf "") ->
  Forall (fun ls => ls <> [] /\ Forall line_ok ls) recs -> last <> [] -> Forall line_ok last ->
  let body := index_text eol recs last false in
  read_index parse_desc rv (Some (body +:+ line_ends eol (2 * k + 3))) = None.
Proof.
  intros rv eol recs last k He H1 H2 H3 body. unfold read_index, body. rewrite record_texts_odd by done.
  assert (parse_all parse_desc (record_texts (index_text eol recs last false) ++ [String lf ""]) = None) as ->; [|done].
  apply parse_all_none. exists (String lf ""). split; [apply elem_of_app; right; by left|vm_compute; reflexivity].
Qed.
Print Assumptions C103_exact.

Example C103_example :
  let nl2 := String cr (String lf "") in
  record_texts (index_text nl2 [["Package: a"]] ["Package: b"; "Version: 1.0"] false +:+ line_ends nl2 4) =
  ["Package: a"; "Package: b" +:+ String lf "Version: 1.0"].
Proof. vm_compute. reflexivity. Qed.

(** C104: false for a local repository: an index that cannot be read, or not to
    its end, is taken for what was read of it. *)
Theorem C104_unreadable_index_refuted :
  get_body (CannotRead "") = Body "" /\ read_index parse_desc (RVersion 3 6 1) (Some "") = Some ∅ /\
  exists m, get_body (CannotRead "Package: a") = Body "Package: a" /\
    read_index parse_desc (RVersion 3 6 1) (Some "Package: a") = Some m /\ d_version <$> m !! "a" = Some "".
Proof.
  split; [done|]. split; [vm_compute; reflexivity|]. eexists. split; [done|].
  split; vm_compute; reflexivity.
Qed.
Print Assumptions C104_unreadable_index_refuted.

(** It holds for web repositories and missing files: the bytes used are those
    of an index read to its end.  Missing: local files that cannot be read. *)
Theorem C104_unreadable_index_partial : forall a b, get_body a = Body b ->
  a = Status 200 (Some b) \/ a = Contents b \/ exists got, a = CannotRead got.
Proof.
  intros [|n [t|]| |got|t] b; cbn; try done.
  - destruct (N.eqb_spec n 200) as [->|]; [|done]. intros [= ->]. by left.
  - by destruct (n =? 200)%N.
  - intros _. right. right. by exists got.
  - intros [= ->]. right. by left.
Qed.
Print Assumptions C104_unreadable_index_partial.

Example C104_example :
  get_body (Status 404 (Some "Not found")) = BodyError /\ get_body (Status 200 None) = BodyError /\
  get_body NoFile = BodyError /\ get_body (Status 200 (Some "Package: a")) = Body "Package: a".
Proof. done. Qed.

(** C105: false, a comma at the end of a list gives a dependency without a name. *)
Theorem C105_dependency_names_refuted :
  exists d, parse_desc ("Package: a" +:+ String lf "Imports: b,") = Some d /\
    d_imports d !! "" = Some (Dep "" zero_version CNone).
Proof. eexists. split; [vm_compute; reflexivity|]. vm_compute. reflexivity. Qed.
Print Assumptions C105_dependency_names_refuted.

(** It holds if every entry names something.  Missing: lists with an empty entry. *)
Theorem C105_dependency_names_partial : forall fs trailing w d, record_ok fs -> says fs w ->
  parse_desc (record_text fs trailing) = Some d ->
  (forall n x, d_imports d !! n = Some x -> exists e, e ∈ w_imports w /\ named e n) /\
  (forall n x, d_suggests d !! n = Some x -> exists e, e ∈ w_suggests w /\ named e n) /\
  (forall n x, d_depends d !! n = Some x -> exists e, e ∈ w_depends w /\ named e n) /\
  (forall n x, d_linkingto d !! n = Some x -> exists e, e ∈ w_linkingto w /\ named e n).
Proof.
  intros fs trailing w d Hok Hs Hd. apply (record_read _ trailing _ Hok Hs) in Hd.
  destruct Hd as (_ & _ & _ & _ & _ & H1 & H2 & H3 & H4 & _).
  split; [|split; [|split]]; intros n x; by apply dependencies_named.
Qed.
Print Assumptions C105_dependency_names_partial.

(** In all cases the names of the dependencies are the names in the entries, those
    without a name included. *)
Theorem C105_exact : forall fs trailing w d, record_ok fs -> says fs w ->
  parse_desc (record_text fs trailing) = Some d -> forall n,
  ((exists x, d_imports d !! n = Some x) <-> exists e, e ∈ w_imports w /\ named e n) /\
  ((exists x, d_suggests d !! n = Some x) <-> exists e, e ∈ w_suggests w /\ named e n) /\
  ((exists x, d_depends d !! n = Some x) <-> exists e, e ∈ w_depends w /\ named e n) /\
  ((exists x, d_linkingto d !! n = Some x) <-> exists e, e ∈ w_linkingto w /\ named e n).
Proof.
  intros fs trailing w d Hok Hs Hd n. destruct (record_read _ trailing _ Hok Hs) as [Hnone Hsome].
  assert (Hp : forall e, e ∈ all_entries w -> parse_dep e <> None).
  { intros e He E. rewrite (proj2 Hnone) in Hd; [done|]. by exists e. }
  unfold all_entries in Hp. destruct (Hsome d Hd) as (_ & _ & _ & _ & _ & H1 & H2 & H3 & H4 & _).
  split; [|split; [|split]]; (apply dependencies_names; [done|]); intros e He; apply Hp; set_solver.
Qed.
Print Assumptions C105_exact.

Example C105_example : named " b (>= 1.2)" "b" /\
  exists d, parse_desc (record_text ex_record false) = Some d /\
    d_imports d !! "" = None /\ elements (dom (D := gset string) (d_imports d)) = ["b"; "c"].
Proof.
  split.
  - exists " b ", "(>= 1.2)". split; [done|]. split; [done|]. split; [right; by eexists|]. strip " " " ".
  - eexists. split; [vm_compute; reflexivity|]. split; vm_compute; reflexivity.
Qed.

(** C72, from the text of an index: the package is left out for every version of R. *)
Theorem C72_index_refuted : forall rv,
  read_index parse_desc rv (Some ("Package: a" +:+ String lf ("Depends: R" +:+ String lf ""))) = Some ∅.
Proof.
  intros rv. unfold read_index.
  match goal with |- context [parse_all ?p ?l] => let r := eval vm_compute in (parse_all p l) in change (parse_all p l) with r end.
  cbn [add_records]. unfold keep_record, is_r_compatible.
  match goal with |- context [d_depends ?d !! ?k] => let r := eval vm_compute in (d_depends d !! k) in change (d_depends d !! k) with r end.
  cbv iota. unfold check_r_version. cbn [dep_constraint]. by destruct (parse_version (rv_full rv)).
Qed.
Print Assumptions C72_index_refuted.
