(** The tools for validation: internal/valtools (checkmat, fmttests, filecov). *)
From stdpp Require Import strings list gmap.
From Coq Require Import Ascii ZArith QArith.
From Verif.model Require Import GoStr Fs.

Local Open Scope string_scope.

(** * checkmat: internal/valtools/checkmat/main.go *)

(** internal/valtools/checkmat/main.go 54-60: entry. *)
Record entry := { en_point : string; en_code : string; en_doc : string; en_tests : list string; en_skip : bool }.

(** internal/valtools/checkmat/main.go 75-86: entryFiles. *)
Definition entry_files (e : entry) : list string :=
  ((if String.eqb (en_code e) "" then [] else [en_code e]) ++
   (if String.eqb (en_doc e) "" then [] else [en_doc e]) ++ en_tests e)%list.

(** io/fs.ValidPath (library). Names read from YAML are valid UTF-8. Used in
    internal/valtools/checkmat/main.go 93. *)
Definition valid_path (s : string) : bool :=
  String.eqb s "." ||
  forallb (fun x => negb (String.eqb x "") && negb (String.eqb x ".") && negb (String.eqb x "..")) (split_slash s).

(** What is written for an issue (internal/valtools/checkmat/main.go 95, 113, 142, 157, 187). *)
Inductive issue :=
| BadName (file : string)
| NoSuchFile (p : path)
| Mismatch (point doc : string)
| Twice (point : string)
| NoEntry (file : string).

Global Instance issue_eq_dec : EqDecision issue.
Proof. solve_decision. Defined.

(** internal/valtools/checkmat/main.go 88-101: checkValidFileNames. *)
Definition check_names (es : list entry) : list issue :=
  flat_map (fun e => map BadName (List.filter (fun f => negb (valid_path f)) (entry_files e))) es.

(** os.Stat: a name below something that is not a directory gives another error than a
    missing file. Used in internal/valtools/checkmat/main.go 111. *)
Inductive stat_result := StatOk | StatMissing | StatError.

(** A helper for internal/valtools/checkmat/main.go 111: something on the way is a
    file. *)
Fixpoint under_file (f : fsys) (done p : path) : bool :=
  match p with
  | [] => false
  | x :: l => match f done with Some (File _) => true | _ => under_file f (done ++ [x])%list l end
  end.

(** os.Stat, as in internal/valtools/checkmat/main.go 111. *)
Definition stat (f : fsys) (p : path) : stat_result :=
  if under_file f [] p then StatError
  else match f p with Some _ => StatOk | None => StatMissing end.

(** internal/valtools/checkmat/main.go 103-121: checkMissingFiles; the flag is an error. *)
Fixpoint check_files (f : fsys) (top : path) (files : list string) : list issue * bool :=
  match files with
  | [] => ([], false)
  | x :: l =>
      match stat f (join_path top x) with
      | StatOk => check_files f top l
      | StatMissing => let '(is, e) := check_files f top l in (NoSuchFile (join_path top x) :: is, e)
      | StatError => ([], true)
      end
  end.

(** path/filepath.Base (library), on Unix. Used in internal/valtools/checkmat/main.go
    130. *)
Definition go_base (s : string) : string :=
  List.last (List.filter (fun x => negb (String.eqb x "")) (split_slash s)) (if String.eqb s "" then "." else "/").

(** The name without what path/filepath.Ext (library) gives: the text from the last dot
    on. Used in internal/valtools/checkmat/main.go 131. *)
Fixpoint before_last_dot (s : string) : option string :=
  match s with
  | "" => None
  | String c r =>
      match before_last_dot r with
      | Some a => Some (String c a)
      | None => if char_eqb c "." then Some "" else None
      end
  end.

(** internal/valtools/checkmat/main.go 131. *)
Definition without_ext (s : string) : string := match before_last_dot s with Some a => a | None => s end.

(** strings.ReplaceAll for single bytes, as in internal/valtools/checkmat/main.go
    133. *)
Fixpoint replace_byte (a b : ascii) (s : string) : string :=
  match s with
  | "" => ""
  | String c r => String (if char_eqb c a then b else c) (replace_byte a b r)
  end.

(** internal/valtools/checkmat/main.go 129-134: docToEntrypoint. *)
Definition doc_point (f : string) : string := replace_byte "_" " " (without_ext (go_base f)).

(** internal/valtools/checkmat/main.go 136-151: checkEntrypointDocMismatch. *)
Definition check_docs (es : list entry) : list issue :=
  map (fun e => Mismatch (en_point e) (en_doc e))
    (List.filter (fun e => negb (en_skip e) && negb (String.eqb (doc_point (en_doc e)) (en_point e))) es).

(** internal/valtools/checkmat/main.go 153-168: checkDupEntrypoints. *)
Fixpoint check_twice (seen : list string) (es : list entry) : list issue :=
  match es with
  | [] => []
  | e :: l =>
      if bool_decide (en_point e ∈ seen) then Twice (en_point e) :: check_twice seen l
      else check_twice (en_point e :: seen) l
  end.

(** internal/valtools/checkmat/main.go 170-200: checkMissingEntries; [docs] are the names in the directory, [None]
    if it cannot be read. *)
Definition check_entries (es : list entry) (docs : list string) : list issue :=
  map NoEntry (List.filter (fun f => negb (bool_decide (doc_point f ∈ map en_point es))) docs).

(** internal/valtools/checkmat/main.go 205-235: check, with the reading of the matrix ([None]: an error).  Result:
    what is written and whether an error is returned. *)
Definition check_matrix (matrix : option (list entry)) (docs : option (list string)) (top : path) (f : fsys) :
    list issue * bool :=
  match matrix with
  | None => ([], true)
  | Some es =>
      match check_files f top (flat_map entry_files es) with
      | (is, true) => ((check_names es ++ is)%list, true)
      | (is, false) =>
          let before := (check_names es ++ is ++ check_docs es ++ check_twice [] es)%list in
          match docs with
          | None => (before, true)
          | Some l => ((before ++ check_entries es l)%list, false)
          end
      end
  end.

(** internal/valtools/checkmat/main.go 237-265: main, with two arguments. *)
Definition checkmat_exit (r : list issue * bool) : Z :=
  if r.2 then 2 else match r.1 with [] => 0 | _ => 1 end.

(** * fmttests: internal/valtools/fmttests/main.go *)

(** internal/valtools/fmttests/main.go 40-47: event; what is read from one line ([None]: not a JSON record). *)
Record event := { ev_action : string; ev_package : string; ev_test : string; ev_output : string }.

(** internal/valtools/fmttests/main.go 55-63: packageBaseName. *)
Definition package_base (s : string) : string := List.last (split_slash s) s.

(** internal/valtools/fmttests/main.go 49-53 (summary) and what is written on the two streams. *)
Record test_run := {
  tr_failed : list string; tr_passed : list string; tr_skipped : list string;
  tr_out : list (string * string * string);   (** package, test, status *)
  tr_err : list string
}.

(** internal/valtools/fmttests/main.go 79-83: before the first event. *)
Definition empty_run : test_run := {| tr_failed := []; tr_passed := []; tr_skipped := []; tr_out := []; tr_err := [] |}.

(** internal/valtools/fmttests/main.go 125. *)
Definition has_slash (s : string) : bool := contains "/" s.

(** internal/valtools/fmttests/main.go 124-130: the line that is displayed. *)
Definition show (subtests always : bool) (status : string) (e : event) (out : list (string * string * string)) :
    list (string * string * string) :=
  if subtests || always || negb (has_slash (ev_test e)) then
    (out ++ [(package_base (ev_package e), ev_test e, status)])%list
  else out.

(** internal/valtools/fmttests/main.go 79-139: processEvents, one line; [lines] are the output lines so far of each
    test.  [None]: an error is returned. *)
Definition process_event (subtests : bool) (e : event) (r : test_run) (lines : gmap (string * string) (list string)) :
    option (test_run * gmap (string * string) (list string)) :=
  let k := (ev_package e, ev_test e) in
  let a := ev_action e in
  if String.eqb (ev_test e) "" then Some (r, lines)
  else if String.eqb a "fail" then
    Some ({| tr_failed := (tr_failed r ++ [ev_test e])%list; tr_passed := tr_passed r; tr_skipped := tr_skipped r;
             tr_out := show subtests true "failed" e (tr_out r);
             tr_err := (tr_err r ++ default [] (lines !! k))%list |}, lines)
  else if String.eqb a "pass" then
    Some ({| tr_failed := tr_failed r; tr_passed := (tr_passed r ++ [ev_test e])%list; tr_skipped := tr_skipped r;
             tr_out := show subtests false "passed" e (tr_out r); tr_err := tr_err r |}, lines)
  else if String.eqb a "skip" then
    Some ({| tr_failed := tr_failed r; tr_passed := tr_passed r; tr_skipped := (tr_skipped r ++ [ev_test e])%list;
             tr_out := show subtests true "skipped" e (tr_out r); tr_err := tr_err r |}, lines)
  else if String.eqb a "bench" then None
  else if String.eqb a "output" then
    Some (r, <[k := (default [] (lines !! k) ++ [ev_output e])%list]> lines)
  else if String.eqb a "cont" || String.eqb a "pause" || String.eqb a "run" || String.eqb a "start" then Some (r, lines)
  else None.

(** internal/valtools/fmttests/main.go 79-139. [scan_ok]: the scanner ends without error
    (it fails on a line of more than 64 KiB). The flag of the result is an error. *)
Fixpoint process_events (subtests : bool) (es : list (option event)) (scan_ok : bool) (r : test_run)
    (lines : gmap (string * string) (list string)) : test_run * bool :=
  match es with
  | [] => (r, negb scan_ok)
  | None :: _ => (r, true)
  | Some e :: es' =>
      match process_event subtests e r lines with
      | None => (r, true)
      | Some (r', lines') => process_events subtests es' scan_ok r' lines'
      end
  end.

(** internal/valtools/fmttests/main.go 79-139: processEvents. *)
Definition run_events (subtests : bool) (es : list (option event)) (scan_ok : bool) : test_run * bool :=
  process_events subtests es scan_ok empty_run ∅.

(** internal/valtools/fmttests/main.go 141-164: main, without further arguments. *)
Definition fmttests_exit (allow_skips : bool) (res : test_run * bool) : Z :=
  match res with
  | (_, true) => 2
  | (r, false) =>
      if negb (bool_decide (tr_failed r = [])) || (negb allow_skips && negb (bool_decide (tr_skipped r = []))) then 1 else 0
  end.

(** * filecov: internal/valtools/filecov/main.go *)

(** golang.org/x/tools/cover (library): a profile has a file name and blocks, each with
    a number of statements and a count. Used in internal/valtools/filecov/main.go 48,
    79, 156. *)
Record profile := { pr_file : string; pr_blocks : list (N * N) }.

(** internal/valtools/filecov/main.go 43-59: tallyCovered: covered and total. *)
Definition tally_covered (p : profile) : N * N :=
  fold_left (fun t b => ((if (0 <? b.2) then t.1 + b.1 else t.1), t.2 + b.1)%N) (pr_blocks p) (0%N, 0%N).

(** internal/valtools/filecov/main.go 71-77: percent.  Simplified: an exact number instead of a floating-point one. *)
Definition percent (covered total : N) : Q :=
  if (total =? 0)%N then 0 else inject_Z (Z.of_N covered) / inject_Z (Z.of_N total) * 100.

(** internal/valtools/filecov/main.go 61-69: coverage. *)
Record coverage := { cv_overall : Q; cv_files : list (string * Q) }.

(** internal/valtools/filecov/main.go 79-96: percentCovered. *)
Definition percent_covered (ps : list profile) : coverage :=
  let ts := map tally_covered ps in
  {| cv_overall := percent (fold_left N.add (map fst ts) 0%N) (fold_left N.add (map snd ts) 0%N);
     cv_files := map (fun p => (pr_file p, percent (tally_covered p).1 (tally_covered p).2)) ps |}.

(** internal/valtools/filecov/main.go 98-136: shortenFileNames.  [links] is path/filepath.EvalSymlinks ([None]: an
    error); [None]: an error is returned. *)
Definition shorten_one (links : string -> option string) (mprefix lprefix file : string) : option string :=
  if negb (String.eqb lprefix "") && has_prefix "/" file then
    match links file with
    | None => None
    | Some g => Some (trim_prefix lprefix g)
    end
  else Some (trim_prefix mprefix file).

(** internal/valtools/filecov/main.go 98-136: shortenFileNames. *)
Definition shorten_names (links : string -> option string) (modpath localpath : string) (files : list string) :
    option (list string) :=
  if String.eqb modpath "" then Some files
  else
    match (if String.eqb localpath "" then Some "" else match links localpath with Some l => Some (l +:+ "/") | None => None end) with
    | None => None
    | Some lprefix => mapM (shorten_one links (modpath +:+ "/") lprefix) files
    end.
