(** Reading /etc/os-release: cran/utils.go 169-208. *)
From stdpp Require Import strings list gmap.
From Coq Require Import Ascii ZArith NArith.
From Verif.model Require Import GoStr Install Download Urls.

Local Open Scope string_scope.

(** The quote of cran/utils.go 181-183. *)
Definition dquote : ascii := ascii_of_nat 34.

(** The end of a line in cran/utils.go 181-183. *)
Definition line_feed : ascii := ascii_of_nat 10.

(** cran/utils.go 181-183: the regular expression is a group of the shortest
    text ending with "=" and a group of a byte other than a quote and the rest of
    the line; quotes are put around the second group, everywhere.  A match begins at the start of a line, ends its first group at the first "="
    of the line that is followed by a byte other than a quote (a line feed is
    such a byte), and goes on to the end of the line; [inside] is the state
    within the second group. *)
Fixpoint quote_values (inside : bool) (s : string) : string :=
  match s with
  | "" => if inside then String dquote "" else ""
  | String c s' =>
      if inside then
        if char_eqb c line_feed then String dquote (String c (quote_values false s'))
        else String c (quote_values true s')
      else if char_eqb c "="%char then
        match s' with
        | "" => s
        | String d s'' =>
            if char_eqb d dquote then String c (quote_values false s')
            else String c (String dquote (String d (quote_values true s'')))
        end
      else String c (quote_values false s')
  end.

(** The TOML reader (library), for the lines that occur: blank, comment, or a bare key
    and a basic string. Simplified: escapes, other kinds of values, quoted keys and
    tables count as errors, and keys are compared exactly. Used in cran/utils.go
    188-192. *)
Definition bare_key_char (c : ascii) : bool :=
  let n := nat_of_ascii c in
  (((65 <=? n) && (n <=? 90)) || ((97 <=? n) && (n <=? 122)) || ((48 <=? n) && (n <=? 57)) || (n =? 95) || (n =? 45))%nat.

(** The characters of a string in TOML (cran/utils.go 188-192) without escapes. *)
Definition basic_char (c : ascii) : bool :=
  let n := nat_of_ascii c in ((32 <=? n) && negb (n =? 34) && negb (n =? 92) && negb (n =? 127))%nat.

(** Blanks in TOML (cran/utils.go 188-192). *)
Definition toml_space (c : ascii) : bool := let n := nat_of_ascii c in ((n =? 32) || (n =? 9))%nat.

(** The longest prefix of bytes in [f], and the rest. A helper for the reader used in
    cran/utils.go 188-192. *)
Fixpoint span (f : ascii -> bool) (s : string) : string * string :=
  match s with
  | "" => ("", "")
  | String c s' => if f c then let '(a, b) := span f s' in (String c a, b) else ("", s)
  end.

(** What may follow on a line in TOML (cran/utils.go 188-192): blanks and a comment. *)
Definition rest_ok (s : string) : bool :=
  match trim_left toml_space s with
  | "" => true
  | String c _ => char_eqb c "#"%char
  end.

(** What a line can be for the reader of cran/utils.go 188-192. *)
Inductive toml_line := TNone | TPair (k v : string) | TError.

(** A line in TOML (cran/utils.go 188-192). *)
Definition read_toml_line (l : string) : toml_line :=
  let '(k, r) := span bare_key_char (trim_left toml_space l) in
  match k with
  | "" => if rest_ok r then TNone else TError
  | _ =>
      match trim_left toml_space r with
      | String e r1 =>
          if char_eqb e "="%char then
            match trim_left toml_space r1 with
            | String q r2 =>
                if char_eqb q dquote then
                  let '(v, r3) := span basic_char r2 in
                  match r3 with
                  | String q' r4 => if char_eqb q' dquote && rest_ok r4 then TPair k v else TError
                  | "" => TError
                  end
                else TError
            | "" => TError
            end
          else TError
      | "" => TError
      end
  end.

(** The lines in TOML (cran/utils.go 188-192); a key that is given twice is an error. *)
Fixpoint read_toml_lines (ls : list string) (m : gmap string string) : option (gmap string string) :=
  match ls with
  | [] => Some m
  | l :: ls' =>
      match read_toml_line l with
      | TNone => read_toml_lines ls' m
      | TError => None
      | TPair k v =>
          match m !! k with
          | Some _ => None
          | None => read_toml_lines ls' (<[k := v]> m)
          end
      end
  end.

(** cran/utils.go 188-192: toml.Decode, simplified as above. *)
Definition read_toml (s : string) : option (gmap string string) := read_toml_lines (split_char line_feed s) ∅.

(** cran/utils.go 169-208: ReadOsRelease; [file] is the contents of
    /etc/os-release, [None] when it cannot be read.  [None]: an error. *)
Definition read_os_release (file : option string) : option os_release :=
  match file with
  | None => None
  | Some s =>
      match read_toml (quote_values false s) with
      | None => None
      | Some m =>
          Some {| or_id := default "" (m !! "ID"); or_version_id := default "" (m !! "VERSION_ID");
                  or_codename := default "" (m !! "VERSION_CODENAME") |}
      end
  end.
