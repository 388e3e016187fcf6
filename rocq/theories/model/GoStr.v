(** Go standard-library string functions used by pkgr, on byte strings.

    These are models of library code ([strings], [strconv], [regexp] with a
    fixed one-byte class), not of code in /repo; the call sites are cited in the
    files that use them.  White space and letter case are ASCII only. *)
From stdpp Require Import strings list.
From Coq Require Import Ascii ZArith.

Local Open Scope string_scope.

(** Equality of bytes, used throughout; for example in desc/version.go 11. *)
Definition char_eqb (a b : ascii) : bool := Ascii.eqb a b.

(** [unicode.IsSpace] restricted to ASCII: \t \n \v \f \r and blank. Used by TrimSpace
    in desc/desc.go 22 and rcmd/rp/lines.go 24. *)
Definition is_space (c : ascii) : bool :=
  match nat_of_ascii c with
  | 9 | 10 | 11 | 12 | 13 | 32 => true
  | _ => false
  end.

(** The blank of strings.Trim in rcmd/nvp.go 10. *)
Definition is_blank (c : ascii) : bool := char_eqb c " "%char.

(** The line feed of cran/repodb.go 208. *)
Definition newline : string := String (ascii_of_nat 10) "".

(** The carriage return of cran/repodb.go 208. *)
Definition carriage_return : string := String (ascii_of_nat 13) "".

(** [strings.HasPrefix] / [strings.TrimPrefix]. Used in rcmd/Rsettings.go 70,
    configlib/config.go 137-138 and cran/repodb.go 168. *)
Fixpoint cut_prefix (p s : string) : option string :=
  match p with
  | "" => Some s
  | String c p' =>
      match s with
      | "" => None
      | String d s' => if char_eqb c d then cut_prefix p' s' else None
      end
  end.

(** [strings.HasPrefix], as in rcmd/Rsettings.go 70 and cran/repodb.go 168. *)
Definition has_prefix (p s : string) : bool :=
  match cut_prefix p s with Some _ => true | None => false end.

(** [strings.TrimPrefix], as in configlib/config.go 138. *)
Definition trim_prefix (p s : string) : string :=
  match cut_prefix p s with Some r => r | None => s end.

(** [strings.Index]: position of the first occurrence. Used in configlib/add_package.go
    91. *)
Fixpoint index_of (sub s : string) : option nat :=
  if has_prefix sub s then Some 0
  else match s with
       | "" => None
       | String _ s' => match index_of sub s' with Some n => Some (S n) | None => None end
       end.

(** [strings.Contains]. Used in desc/desc.go 25-37 and rcmd/install.go 604-606. *)
Definition contains (sub s : string) : bool :=
  match index_of sub s with Some _ => true | None => false end.

(** [strings.Replace(s, old, new, 1)] for a non-empty [old]. Used in desc/desc.go 24-39
    and rcmd/helpers.go 33-38. *)
Fixpoint replace1 (old new s : string) : string :=
  match cut_prefix old s with
  | Some r => new +:+ r
  | None => match s with
            | "" => ""
            | String c s' => String c (replace1 old new s')
            end
  end.

(** [strings.TrimLeftFunc], [strings.TrimRightFunc], [strings.TrimSpace] and
    [strings.Trim(s, " ")]. Used in desc/desc.go 22, rcmd/nvp.go 10 and
    configlib/config.go 264. *)
Fixpoint trim_left (f : ascii -> bool) (s : string) : string :=
  match s with
  | "" => ""
  | String c s' => if f c then trim_left f s' else s
  end.

(** [strings.TrimRightFunc], behind rcmd/nvp.go 10. *)
Fixpoint trim_right (f : ascii -> bool) (s : string) : string :=
  match s with
  | "" => ""
  | String c s' =>
      match trim_right f s' with
      | "" => if f c then "" else String c ""
      | r => String c r
      end
  end.

(** [strings.TrimFunc], behind rcmd/nvp.go 10. *)
Definition trim (f : ascii -> bool) (s : string) : string := trim_right f (trim_left f s).

(** [strings.TrimSpace], as in desc/desc.go 22, with ASCII white space only. *)
Definition trim_space : string -> string := trim is_space.

(** [strings.Trim(s, " ")], as in rcmd/nvp.go 10. *)
Definition trim_blank : string -> string := trim is_blank.

(** [strings.HasSuffix], [strings.TrimSuffix]. Used in configlib/config.go 137-138 and
    rcmd/Rsettings.go 37, 44. This is the text backwards. *)
Fixpoint string_rev (s acc : string) : string :=
  match s with
  | "" => acc
  | String c s' => string_rev s' (String c acc)
  end.

(** [strings.HasSuffix], as in configlib/config.go 137. *)
Definition has_suffix (p s : string) : bool :=
  has_prefix (string_rev p "") (string_rev s "").

(** [strings.TrimSuffix], as in configlib/config.go 138 and cran/repodb.go 104. *)
Definition trim_suffix (p s : string) : string :=
  match cut_prefix (string_rev p "") (string_rev s "") with
  | Some r => string_rev r ""
  | None => s
  end.

(** [strings.Split(s, sep)] for a one-byte separator (generalised to a byte class): the
    pieces between separators, always at least one. Used in desc/desc.go 21, rcmd/nvp.go
    15 and cmd/cleanCache.go 72. *)
Fixpoint split_on (f : ascii -> bool) (s : string) : list string :=
  match s with
  | "" => [""]
  | String c s' =>
      if f c then "" :: split_on f s'
      else match split_on f s' with
           | [] => [String c ""]
           | p :: ps => String c p :: ps
           end
  end.

(** [strings.Split] for a separator of one byte, as in rcmd/nvp.go 15. *)
Definition split_char (c : ascii) : string -> list string := split_on (char_eqb c).

(** [regexp.Split(s, n)] / [strings.SplitN(s, sep, n)] for a one-byte class and [n >=
    1]: at most [n] pieces, the last one being the unsplit remainder. Used in
    desc/version.go 11 and rcmd/configure.go 40. *)
Fixpoint split_on_n (f : ascii -> bool) (n : nat) (s : string) {struct s} : list string :=
  match n with
  | 0 => []
  | 1 => [s]
  | S n' =>
      match s with
      | "" => [""]
      | String c s' =>
          if f c then "" :: split_on_n f n' s'
          else match split_on_n f n s' with
               | [] => [String c ""]
               | p :: ps => String c p :: ps
               end
      end
  end.

(** [strings.Join]. Used in rcmd/Rsettings.go 109 and cmd/load.go 249-250. *)
Fixpoint join (sep : string) (l : list string) : string :=
  match l with
  | [] => ""
  | [x] => x
  | x :: l' => x +:+ sep +:+ join sep l'
  end.

(** [strings.Repeat(" ", n)] for [n >= 0]. Used in configlib/add_package.go 93. *)
Fixpoint repeat_blank (n : nat) : string :=
  match n with 0 => "" | S n' => String " " (repeat_blank n') end.

(** [strings.ToLower] / [strings.EqualFold], ASCII only. Used in logger/logger.go 81,
    desc/desc.go 70 and cran/pkg_nexus.go 90-92. *)
Definition lower_char (c : ascii) : ascii :=
  let n := nat_of_ascii c in
  if (65 <=? n)%nat && (n <=? 90)%nat then ascii_of_nat (n + 32) else c.

(** [strings.ToLower], as in logger/logger.go 81. *)
Fixpoint to_lower (s : string) : string :=
  match s with "" => "" | String c s' => String (lower_char c) (to_lower s') end.

(** [strings.EqualFold], as in desc/desc.go 70 and cran/pkg_nexus.go 90-92. *)
Definition equal_fold (a b : string) : bool := String.eqb (to_lower a) (to_lower b).

(** [strconv.Atoi] on a 64-bit platform. The second component is the error: on a syntax
    error the value is 0, out of range it is saturated. Used in desc/version.go 12-22
    and rcmd/Rsettings.go 77-79. *)
Inductive num_error := NoError | SyntaxError | RangeError.

(** [strconv.Atoi] in desc/version.go 12-22: a digit. *)
Definition digit_value (c : ascii) : option Z :=
  let n := nat_of_ascii c in
  if (48 <=? n)%nat && (n <=? 57)%nat then Some (Z.of_nat n - 48)%Z else None.

(** [strconv.Atoi] in desc/version.go 12-22: the largest unsigned number. *)
Definition max_uint64 : Z := 18446744073709551615.

(** [strconv.Atoi] in desc/version.go 12-22: one more than the largest signed number. *)
Definition int64_cutoff : Z := 9223372036854775808.

(** [strconv.ParseUint(s, 10, 64)] main loop: left to right, stopping at the first
    non-digit (syntax error) or overflow (range error). Behind desc/version.go 12-22. *)
Fixpoint parse_uint_loop (n : Z) (s : string) : Z * num_error :=
  match s with
  | "" => (n, NoError)
  | String c s' =>
      match digit_value c with
      | None => (0%Z, SyntaxError)
      | Some d =>
          let n1 := (n * 10 + d)%Z in
          if (max_uint64 <? n1)%Z then (max_uint64, RangeError)
          else parse_uint_loop n1 s'
      end
  end.

(** [strconv.ParseUint], behind desc/version.go 12-22. *)
Definition parse_uint (s : string) : Z * num_error :=
  match s with
  | "" => (0%Z, SyntaxError)
  | _ => parse_uint_loop 0 s
  end.

(** [strconv.ParseInt], behind desc/version.go 12-22: the part after the sign. *)
Definition atoi_signed (neg : bool) (s : string) : Z * num_error :=
  match parse_uint s with
  | (_, SyntaxError) => (0%Z, SyntaxError)
  | (un, e) =>
      if neg then
        if (int64_cutoff <? un)%Z then ((- int64_cutoff)%Z, RangeError) else ((- un)%Z, e)
      else
        if (int64_cutoff <=? un)%Z then ((int64_cutoff - 1)%Z, RangeError) else (un, e)
  end.

(** [strconv.Atoi], as in desc/version.go 12-22 and rcmd/Rsettings.go 77-79. *)
Definition atoi (s : string) : Z * num_error :=
  match s with
  | String c s' =>
      if char_eqb c "+"%char then atoi_signed false s'
      else if char_eqb c "-"%char then atoi_signed true s'
      else atoi_signed false s
  | "" => (0%Z, SyntaxError)
  end.

(** [strconv.Itoa] / [fmt.Sprintf("%d")] for natural numbers. Used in cran/r_version.go
    6-13 and cmd/load.go 159. *)
Definition digit_char (n : N) : ascii := ascii_of_N (48 + n).

(** [strconv.Itoa] with fuel, for cran/r_version.go 6-13 and cmd/load.go 159. *)
Fixpoint itoa_aux (fuel : nat) (n : N) (acc : string) : string :=
  match fuel with
  | 0 => acc
  | S fuel' =>
      let acc' := String (digit_char (n mod 10)) acc in
      if (n <? 10)%N then acc' else itoa_aux fuel' (n / 10) acc'
  end.

(** [strconv.Itoa], for cran/r_version.go 6-13 and cmd/load.go 159. *)
Definition itoa (n : N) : string := itoa_aux (S (N.to_nat (N.log2 n))) n "".
