(** What inspect and load write as JSON: cmd/experiment.go 72-78, cmd/utils.go 69-76,
    cmd/load.go 156-165, 189-196, cmd/structs.go. *)
From stdpp Require Import strings list gmap.
From Coq Require Import Ascii NArith.
From Verif.model Require Import GoStr Graph Inspect Desc Pacman Origins Env Fs Load LoadCmd.

Local Open Scope string_scope.

(** cmd/inspect.go 125 and cmd/load.go 190: The values that are written: maps, structs,
    slices, texts, truth values and numbers; [JNum n] is n, [JNeg p] is -p (exit codes in the log).
    Simplified: no other numbers, which do not occur. *)
Inductive json :=
| JNull
| JBool (b : bool)
| JNum (n : N)
| JNeg (p : positive)
| JStr (s : string)
| JArr (l : list json)
| JObj (l : list (string * json)).

(** The digits used in the escapes of encoding/json (library). Used in
    cmd/experiment.go 73 and cmd/utils.go 73. *)
Definition hex_char (n : N) : ascii := ascii_of_N (if (n <? 10)%N then 48 + n else 87 + n).

(** encoding/json (library, Go 1.24): a byte below 128.  [html]: the characters of HTML
    are escaped, too. Used in cmd/experiment.go 73 and, without, cmd/utils.go 72. *)
Definition escape_low (html : bool) (b : ascii) : string :=
  let n := N_of_ascii b in
  if ((n =? 34) || (n =? 92))%N then String "\" (String b "")
  else if (n =? 8)%N then "\b"
  else if (n =? 12)%N then "\f"
  else if (n =? 10)%N then "\n"
  else if (n =? 13)%N then "\r"
  else if (n =? 9)%N then "\t"
  else if ((n <? 32) || (html && ((n =? 60) || (n =? 62) || (n =? 38))))%N
    then "\u00" +:+ String (hex_char (n / 16)) (String (hex_char (n mod 16)) "")
  else String b "".

(** unicode/utf8 (library): [lo] to [hi]. Used in cmd/experiment.go 73. *)
Definition byte_in (lo hi : N) (b : ascii) : bool := ((lo <=? N_of_ascii b) && (N_of_ascii b <=? hi))%N.

(** unicode/utf8.DecodeRune (library): two, three and four bytes that are one
    character. Used in cmd/experiment.go 73. *)
Definition rune2 (b1 b2 : ascii) : bool := byte_in 194 223 b1 && byte_in 128 191 b2.

(** unicode/utf8.DecodeRune (library): three bytes. Used in cmd/experiment.go 73. *)
Definition rune3 (b1 b2 b3 : ascii) : bool :=
  ((byte_in 224 224 b1 && byte_in 160 191 b2) || (byte_in 225 236 b1 && byte_in 128 191 b2) ||
   (byte_in 237 237 b1 && byte_in 128 159 b2) || (byte_in 238 239 b1 && byte_in 128 191 b2)) && byte_in 128 191 b3.

(** unicode/utf8.DecodeRune (library): four bytes. Used in cmd/experiment.go 73. *)
Definition rune4 (b1 b2 b3 b4 : ascii) : bool :=
  ((byte_in 240 240 b1 && byte_in 144 191 b2) || (byte_in 241 243 b1 && byte_in 128 191 b2) ||
   (byte_in 244 244 b1 && byte_in 128 143 b2)) && byte_in 128 191 b3 && byte_in 128 191 b4.

(** encoding/json (library): U+2028 and U+2029, which JavaScript takes for ends of
    lines. Used in cmd/experiment.go 73. *)
Definition line_sep (b1 b2 b3 : ascii) : bool := byte_in 226 226 b1 && byte_in 128 128 b2 && byte_in 168 169 b3.

(** encoding/json (library): what stands for a byte that is not part of a character.
    Used in cmd/experiment.go 73. *)
Definition bad_rune : string := "\ufffd".

(** encoding/json.appendString (library): a text, without the quotes around it. Used in
    cmd/experiment.go 73 and cmd/utils.go 73. *)
Fixpoint escape (html : bool) (s : string) : string :=
  match s with
  | "" => ""
  | String b1 s1 =>
      if (N_of_ascii b1 <? 128)%N then escape_low html b1 +:+ escape html s1
      else
        match s1 with
        | "" => bad_rune +:+ escape html s1
        | String b2 s2 =>
            if rune2 b1 b2 then String b1 (String b2 (escape html s2))
            else
              match s2 with
              | "" => bad_rune +:+ escape html s1
              | String b3 s3 =>
                  if rune3 b1 b2 b3 then
                    if line_sep b1 b2 b3 then "\u202" +:+ String (hex_char (N_of_ascii b3 mod 16)) (escape html s3)
                    else String b1 (String b2 (String b3 (escape html s3)))
                  else
                    match s3 with
                    | "" => bad_rune +:+ escape html s1
                    | String b4 s4 =>
                        if rune4 b1 b2 b3 b4 then String b1 (String b2 (String b3 (String b4 (escape html s4))))
                        else bad_rune +:+ escape html s1
                    end
              end
        end
  end.

(** A text with its quotes. Used in cmd/experiment.go 73 and cmd/utils.go 73. *)
Definition quoted (html : bool) (s : string) : string := """" +:+ escape html s +:+ """".

(** encoding/json.Indent (library): a new line, [d] levels deep. Used in
    cmd/experiment.go 73 and cmd/utils.go 73. *)
Fixpoint levels (ind : string) (d : nat) : string :=
  match d with 0 => "" | S d' => ind +:+ levels ind d' end.

(** A new line and its indentation. Used in cmd/experiment.go 73 and cmd/utils.go 73. *)
Definition line (ind : string) (d : nat) : string := newline +:+ levels ind d.

(** encoding/json.MarshalIndent (library), a value written [d] levels deep.
    Simplified: the library writes the value in one line and indents the result. Used
    in cmd/experiment.go 73 and cmd/utils.go 69-76. *)
Fixpoint encode (html : bool) (ind : string) (d : nat) (v : json) : string :=
  match v with
  | JNull => "null"
  | JBool true => "true"
  | JBool false => "false"
  | JNum n => itoa n
  | JNeg p => "-" +:+ itoa (Npos p)
  | JStr s => quoted html s
  | JArr [] => "[]"
  | JArr (x :: l) =>
      "[" +:+ line ind (S d) +:+ encode html ind (S d) x +:+
      (fix more (l : list json) : string :=
         match l with
         | [] => line ind d +:+ "]"
         | y :: l' => "," +:+ line ind (S d) +:+ encode html ind (S d) y +:+ more l'
         end) l
  | JObj [] => "{}"
  | JObj ((k, x) :: l) =>
      "{" +:+ line ind (S d) +:+ quoted html k +:+ ": " +:+ encode html ind (S d) x +:+
      (fix more (l : list (string * json)) : string :=
         match l with
         | [] => line ind d +:+ "}"
         | (k', y) :: l' => "," +:+ line ind (S d) +:+ quoted html k' +:+ ": " +:+ encode html ind (S d) y +:+ more l'
         end) l
  end.

(** cmd/experiment.go 72-78: prettyPrint; the values of pkgr can always be written. *)
Definition pretty_print (v : json) : string := encode true "  " 0 v +:+ newline.

(** cmd/utils.go 69-76: JsonMarshal; Encode ends the text with a new line. *)
Definition json_marshal (v : json) : string := encode false "    " 0 v +:+ newline.

(** encoding/json (library): a slice; nil is written as null.  The slices of pkgr that
    are empty are nil, since they were made by append. Used in cmd/inspect.go 125. *)
Definition slice (l : list string) : json := match l with [] => JNull | _ => JArr (map JStr l) end.

(** encoding/json (library): a map is written in the order of its keys. Used in
    cmd/inspect.go 125. *)
Definition in_order {A} (f : A -> json) (m : gmap string A) : json :=
  JObj (omap (fun k => (fun x => (k, f x)) <$> m !! k) (sort_strings (elements (dom (D := gset string) m)))).

(** cmd/inspect.go 116-127: what is printed without --tree. *)
Definition deps_text (deps : gmap string (list string)) : string := pretty_print (in_order slice deps).

(** pacman/utils.go 136-140: the names in JSON. *)
Definition installed_json (x : installed_from) : json :=
  JObj [("pkgr", slice (if_pkgr x)); ("packrat", slice (if_packrat x)); ("unknown", slice (if_unknown x))].

(** pacman/utils.go 70-85: GetPackagesByInstalledFrom; [keys] is the order of iteration
    over the packages found. *)
Definition by_installed_from (ip : gmap string desc) (keys : list string) : installed_from :=
  {| if_pkgr := (get_installers ip keys).1; if_packrat := (get_installers ip keys).2; if_unknown := [] |}.

(** cmd/inspect.go 129-131: printInstalledFromPackages. *)
Definition installed_from_text (ip : gmap string desc) (keys : list string) : string :=
  pretty_print (installed_json (by_installed_from ip keys)).

(** cmd/structs.go 36-46: LoadResult. *)
Definition result_json (x : full_result) : json :=
  JObj [("Package", JStr (fr_pkg x)); ("Version", JStr (fr_version x)); ("Path", JStr (fr_path x));
        ("Exiterr", JStr (fr_exiterr x)); ("Stdout", JStr (fr_stdout x)); ("Stderr", JStr (fr_stderr x));
        ("Success", JBool (fr_success x))].

(** cmd/load.go 156-165: getRSessionMetadata, the text of the version. *)
Definition session_version (major minor patch : N) : string :=
  itoa major +:+ "." +:+ itoa minor +:+ "." +:+ itoa patch.

(** cmd/structs.go 14-18 and 71-75: LoadReport with the metadata of the session. *)
Definition report_json (rpath rversion : string) (rep : full_report) : json :=
  JObj [("RMetadata", JObj [("LibPaths", slice (fl_libs rep)); ("RPath", JStr rpath); ("RVersion", JStr rversion)]);
        ("LoadResults", in_order result_json (fl_results rep));
        ("Failures", JNum (N.of_nat (fl_failures rep)))].

(** cmd/load.go 189-196: printJsonLoadReport. *)
Definition load_text (rpath rversion : string) (rep : full_report) : string :=
  json_marshal (report_json rpath rversion rep) +:+ " " +:+ newline.
