(** What the validation tools should do, after their usage texts. *)
From stdpp Require Import strings list gmap.
From Coq Require Import Ascii ZArith QArith.
From Verif.model Require Import GoStr Fs Valtools.
From Verif.spec Require Import StrSpec ConfigSpec.

Local Open Scope string_scope.

(** * checkmat *)

(** [01] a valid file name: relative, with slashes, without "." and ".." elements;
    [l] are its elements. *)
Definition names (f : string) (l : list string) : Prop :=
  l <> [] /\ (forall x, x ∈ l -> plain_name x) /\ f = join "/" l.

(** The files that are named by an entry. *)
Definition file_of (e : entry) (f : string) : Prop :=
  f <> "" /\ (f = en_code e \/ f = en_doc e) \/ f ∈ en_tests e.

(** [ext] is the extension of the file name [stem] followed by [ext]. *)
Definition extension (stem ext : string) : Prop :=
  ext = "" /\ (forall a b, stem <> a +:+ "." +:+ b) \/
  exists y, ext = "." +:+ y /\ forall a b, y <> a +:+ "." +:+ b.

(** Underscores are substituted for spaces. *)
Inductive spelled : string -> string -> Prop :=
| sp_nil : spelled "" ""
| sp_space s t : spelled s t -> spelled (String "_" s) (String " " t)
| sp_same c s t : c <> "_"%char -> spelled s t -> spelled (String c s) (String c t).

(** The file [x] documents the entry point [point]. *)
Definition documents (x point : string) : Prop :=
  exists stem ext, x = stem +:+ ext /\ extension stem ext /\ spelled stem point.

(** The problems of a matrix; [docs] are the files with documentation, [top] is the
    directory of the project. *)
Inductive problem (es : list entry) (docs : list string) (top : path) (f : fsys) : issue -> Prop :=
| pb_name e x : e ∈ es -> file_of e x -> (forall l, ~ names x l) -> problem es docs top f (BadName x)
| pb_file e x l : e ∈ es -> file_of e x -> names x l -> f (top ++ l)%list = None ->
    problem es docs top f (NoSuchFile (top ++ l)%list)
| pb_doc e l x : e ∈ es -> en_skip e = false -> names (en_doc e) (l ++ [x])%list -> ~ documents x (en_point e) ->
    problem es docs top f (Mismatch (en_point e) (en_doc e))
| pb_no_doc e : e ∈ es -> en_skip e = false -> en_doc e = "" -> problem es docs top f (Mismatch (en_point e) "")
| pb_twice a e1 b e2 c : es = (a ++ e1 :: b ++ e2 :: c)%list -> en_point e1 = en_point e2 ->
    problem es docs top f (Twice (en_point e1))
| pb_entry x : x ∈ docs -> (forall e, e ∈ es -> ~ documents x (en_point e)) -> problem es docs top f (NoEntry x).

(** A file with this path cannot be looked for: something above it is not a directory. *)
Definition blocked (f : fsys) (p : path) : Prop :=
  exists q x r c, p = (q ++ x :: r)%list /\ f q = Some (File c).

(** * fmttests *)

Definition result_word (action : string) : option string :=
  if String.eqb action "fail" then Some "failed"
  else if String.eqb action "pass" then Some "passed"
  else if String.eqb action "skip" then Some "skipped"
  else None.

Definition subtest (test : string) : Prop := exists a b, test = a +:+ "/" +:+ b.

(** The last element of a package path. *)
Definition last_element (s x : string) : Prop :=
  (forall a b, x <> a +:+ "/" +:+ b) /\ (s = x \/ exists a, s = a +:+ "/" +:+ x).

(** The record [e] is displayed with the status [w]. *)
Definition visible (subtests : bool) (e : event) (w : string) : Prop :=
  ev_test e <> "" /\ result_word (ev_action e) = Some w /\
  (w = "passed" -> subtests = false -> ~ subtest (ev_test e)).

(** The lines for a list of records. *)
Inductive displays (subtests : bool) : list event -> list (string * string * string) -> Prop :=
| dp_nil : displays subtests [] []
| dp_hidden e es out : (forall w, ~ visible subtests e w) -> displays subtests es out -> displays subtests (e :: es) out
| dp_line e es out w b : visible subtests e w -> last_element (ev_package e) b -> displays subtests es out ->
    displays subtests (e :: es) ((b, ev_test e, w) :: out).

(** The output of a test in a list of records. *)
Definition output_of (package test : string) (es : list event) : list string :=
  map ev_output (List.filter (fun e => String.eqb (ev_action e) "output" && String.eqb (ev_package e) package &&
    String.eqb (ev_test e) test) es).

(** The output of each failing test up to its failure, [before] being the records so far. *)
Fixpoint failure_output (before es : list event) : list string :=
  match es with
  | [] => []
  | e :: es' =>
      ((if negb (String.eqb (ev_test e) "") && String.eqb (ev_action e) "fail"
        then output_of (ev_package e) (ev_test e) before else []) ++ failure_output (before ++ [e]) es')%list
  end.

(** Records that are not about benchmarks and have a known action. *)
Definition known (e : event) : Prop :=
  ev_action e ∈ ["fail"; "pass"; "skip"; "output"; "cont"; "pause"; "run"; "start"].

(** * filecov *)

Definition sum (l : list N) : N := fold_right N.add 0%N l.

(** Statements, and those that were run. *)
Definition statements (p : profile) : N := sum (map fst (pr_blocks p)).
Definition executed (p : profile) : N := sum (map fst (List.filter (fun b => negb (b.2 =? 0)%N) (pr_blocks p))).

(** [q] is the percentage of [part] in [whole]. *)
Definition is_percentage (q : Q) (part whole : N) : Prop :=
  (whole = 0%N /\ q == 0 \/
   whole <> 0%N /\ q * inject_Z (Z.of_N whole) == 100 * inject_Z (Z.of_N part))%Q.
