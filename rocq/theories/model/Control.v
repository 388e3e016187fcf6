(** Reading a DESCRIPTION file or one record of a PACKAGES index: desc/desc.go
    101-124 ([ReadDesc], [ParseDesc]).  The work is done by the external library
    pault.ag/go/debian/control, whose source is not part of the repository; the
    definitions below follow its documented behaviour for one paragraph (see
    DESIGN.md). *)
From stdpp Require Import strings list gmap.
From Coq Require Import Ascii ZArith.
From Verif.model Require Import GoStr Version Desc.

Local Open Scope string_scope.

(** The lines of a text, without their line feeds; a last line feed does not start
    another line. Library code behind desc/desc.go 109 and 119. *)
Fixpoint drop_last_empty (l : list string) : list string :=
  match l with
  | [] => []
  | [x] => if String.eqb x "" then [] else [x]
  | x :: l' => x :: drop_last_empty l'
  end.

(** Library code behind desc/desc.go 109 and 119: the lines of a text. *)
Definition text_lines (s : string) : list string :=
  drop_last_empty (split_char (ascii_of_nat 10) s).

(** A line that continues the value of the field above it: the first byte is dropped and
    white space at the end is removed; a single dot stands for an empty line. Library
    code behind desc/desc.go 109 and 119. *)
Definition continued (old line : string) : string :=
  let t := match line with "" => "" | String _ r => trim_right is_space r end in
  let t := if String.eqb t "." then "" else t in
  if String.eqb old "" then t +:+ newline
  else (if has_suffix newline old then old else old +:+ newline) +:+ t +:+ newline.

(** Library code behind desc/desc.go 109 and 119: a test of the first byte of a line. *)
Definition starts_with (f : ascii -> bool) (s : string) : bool :=
  match s with "" => false | String c _ => f c end.

(** Library code behind desc/desc.go 109 and 119: a continuation line starts with a
    blank or a tab. *)
Definition is_continuation (c : ascii) : bool :=
  char_eqb c " "%char || char_eqb c (ascii_of_nat 9).

(** Library code behind desc/desc.go 109 and 119: the lines that separate paragraphs. *)
Definition is_empty_line (s : string) : bool :=
  String.eqb s "" || String.eqb s (String (ascii_of_nat 13) "").

(** One paragraph. [some] tells whether a field was seen, [key] is the last one. Empty
    lines before the first field are skipped, one after it ends the paragraph; lines
    starting with a number sign are comments. [None] is an error: a line without a
    colon, or no field at all (io.EOF). Library code behind desc/desc.go 109 and 119. *)
Fixpoint read_fields (ls : list string) (some : bool) (key : string) (vals : gmap string string)
    : option (gmap string string) :=
  match ls with
  | [] => if some then Some vals else None
  | l :: ls' =>
      if is_empty_line l then if some then Some vals else read_fields ls' some key vals
      else if starts_with (char_eqb "#"%char) l then read_fields ls' some key vals
      else if starts_with is_continuation l then
        read_fields ls' some key (<[key := continued (default "" (vals !! key)) l]> vals)
      else match split_on_n (char_eqb ":"%char) 2 l with
           | [k; v] => read_fields ls' true (trim_space k) (<[trim_space k := trim_space v]> vals)
           | _ => None
           end
  end.

(** desc/structs.go 115-121, the tags: delim is a comma, strip is line feed,
    carriage return, tab and blank. *)
Definition is_strip (c : ascii) : bool :=
  char_eqb c (ascii_of_nat 10) || char_eqb c (ascii_of_nat 13) || char_eqb c (ascii_of_nat 9)
  || char_eqb c " "%char.

(** desc/structs.go 101-125: a field of type string. *)
Definition string_field (vals : gmap string string) (k : string) : string := default "" (vals !! k).

(** desc/structs.go 115-121: a field of type []string with delim and strip. *)
Definition list_field (vals : gmap string string) (k : string) : list string :=
  match vals !! k with
  | None => []
  | Some v => map (trim is_strip) (split_char ","%char (trim is_strip v))
  end.

(** desc/structs.go 101-125: the fields of [desc] that [NewDesc] copies. *)
Definition decode_desc (vals : gmap string string) : raw_desc :=
  RawDesc (string_field vals "Package") (string_field vals "Version") (string_field vals "Path")
    (string_field vals "Repository") (string_field vals "NeedsCompilation")
    (list_field vals "Imports") (list_field vals "Suggests")
    (list_field vals "Depends") (list_field vals "LinkingTo")
    (string_field vals "PkgrVersion") (string_field vals "PkgrInstallType")
    (string_field vals "PkgrRepositoryURL").

(** desc/desc.go 101-124: [ReadDesc] and [ParseDesc] on the text of the file.
    [None] is an error or a panic in [ParseDep]; callers use the result of a
    failed read in no other way. *)
Definition parse_desc (text : string) : option desc :=
  match read_fields (text_lines text) false "" ∅ with
  | Some vals => new_desc (decode_desc vals)
  | None => None
  end.

(** cran/repodb.go 168-206: how the index of a repository answers.  [Unreachable]
    is a failed HTTP request; [Status n b] an answer with status [n] whose body is
    [b] ([None]: reading it fails); the others are about a local file. *)
Inductive index_answer :=
| Unreachable
| Status (n : N) (b : option string)
| NoFile
| CannotRead (got : string)
| Contents (b : string).

(** cran/repodb.go 166-206: what becomes of the body: the end of the program, an error,
    or its text. *)
Inductive index_body :=
| BodyFatal
| BodyError
| Body (b : string).

(** cran/repodb.go 168-206.  The error of [ioutil.ReadAll] on a local file is
    assigned and never looked at; [os.Open] failing for another reason than a
    missing file leaves a nil file, on which [ReadAll] gives no bytes. *)
Definition get_body (a : index_answer) : index_body :=
  match a with
  | Unreachable => BodyFatal
  | Status n b => if (n =? 200)%N then match b with Some t => Body t | None => BodyError end else BodyError
  | NoFile => BodyError
  | CannotRead got => Body got
  | Contents b => Body b
  end.
