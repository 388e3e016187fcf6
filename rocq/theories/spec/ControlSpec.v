(** Vocabulary for DESCRIPTION files and the records of an index: the format of
    a Debian control file, as described in the R manual (Writing R Extensions,
    The DESCRIPTION file). *)
From stdpp Require Import strings list gmap.
From Coq Require Import Ascii.
From Verif.model Require Import GoStr Version Desc.
From Verif.spec Require Import StrSpec FetchSpec RepoSpec UrlSpec.

Local Open Scope string_scope.

(** A field: its name, what follows the colon, and the lines that continue it. *)
Record field := Field { fd_name : string; fd_first : string; fd_more : list string }.

Definition field_lines (f : field) : list string :=
  (fd_name f +:+ ":" +:+ fd_first f) :: fd_more f.

(** No line feed, vertical tab or form feed. *)
Definition value_byte (c : ascii) : bool :=
  negb (existsb (Nat.eqb (nat_of_ascii c)) [10; 11; 12]).
Definition value_line (s : string) : Prop := all_bytes value_byte s = true.

(** A continuation line starts with a blank or a tab and is not just a dot. *)
Definition more_line (l : string) : Prop :=
  value_line l /\ exists c r, l = String c r /\ one_of (String (ascii_of_nat 9) " ") c = true /\
    (forall w, r = "." +:+ w -> all_bytes white w = false).

Definition field_ok (f : field) : Prop :=
  word_without ":#" (fd_name f) /\ value_line (fd_first f) /\ Forall more_line (fd_more f).

(** The text of a record: its fields one after the other, perhaps a last line feed. *)
Definition record_text (fs : list field) (trailing : bool) : string :=
  rec_text (String lf "") (concat (map field_lines fs)) +:+ (if trailing then String lf "" else "").

(** Everything after the colon, over all lines of the field. *)
Definition value_text (f : field) : string :=
  fd_first f +:+ String.concat "" (map (fun l => String lf l) (fd_more f)).

(** [e] is [p] without the white space around it. *)
Definition bare (e : string) : Prop :=
  (forall c r, e = String c r -> white c = false) /\
  (forall r c, e = r +:+ String c "" -> white c = false).
Definition stripped (p e : string) : Prop :=
  bare e /\ exists a b, p = a +:+ e +:+ b /\ all_bytes white a = true /\ all_bytes white b = true.

(** The entries of a comma-separated list, without the white space around them. *)
Definition no_comma (s : string) : Prop := all_bytes (fun c => negb (one_of "," c)) s = true.
Definition comma_list (v : string) (es : list string) : Prop :=
  exists ps, ps <> [] /\ v = join "," ps /\ Forall no_comma ps /\ Forall2 stripped ps es.
Definition one_line (s : string) : Prop := all_bytes (fun c => negb (is_lf c)) s = true.

(** Field [k] of the record holds the single-line text [v] (absent: nothing). *)
Definition shows (fs : list field) (k v : string) : Prop :=
  (exists f, f ∈ fs /\ fd_name f = k /\ fd_more f = [] /\ stripped (fd_first f) v) \/
  (k ∉ map fd_name fs /\ v = "").

(** Field [k] of the record lists [es], each entry on one line (absent: nothing). *)
Definition lists (fs : list field) (k : string) (es : list string) : Prop :=
  (exists f, f ∈ fs /\ fd_name f = k /\ comma_list (value_text f) es /\ Forall one_line es) \/
  (k ∉ map fd_name fs /\ es = []).

(** [m] has the dependencies [es] describes; of two entries for one package the
    last one counts. *)
Definition dependencies (es : list string) (m : gmap string dep) : Prop :=
  forall n x, m !! n = Some x <->
    exists e, parse_dep e = Some x /\
      last_such (fun e => exists y, parse_dep e = Some y /\ dep_name y = n) es e.

(** What a record says. *)
Record written := Written {
  w_package : string; w_version : string; w_path : string; w_repository : string; w_compile : string;
  w_imports : list string; w_suggests : list string; w_depends : list string; w_linkingto : list string;
  w_pkgr_version : string; w_pkgr_type : string; w_pkgr_url : string
}.
Definition says (fs : list field) (w : written) : Prop :=
  shows fs "Package" (w_package w) /\ shows fs "Version" (w_version w) /\ shows fs "Path" (w_path w) /\
  shows fs "Repository" (w_repository w) /\ shows fs "NeedsCompilation" (w_compile w) /\
  lists fs "Imports" (w_imports w) /\ lists fs "Suggests" (w_suggests w) /\
  lists fs "Depends" (w_depends w) /\ lists fs "LinkingTo" (w_linkingto w) /\
  shows fs "PkgrVersion" (w_pkgr_version w) /\ shows fs "PkgrInstallType" (w_pkgr_type w) /\
  shows fs "PkgrRepositoryURL" (w_pkgr_url w).
Definition all_entries (w : written) : list string :=
  (w_imports w ++ w_suggests w ++ w_depends w ++ w_linkingto w)%list.

(** The description that corresponds to what the record says. *)
Definition describes (w : written) (d : desc) : Prop :=
  d_package d = w_package w /\ d_version d = w_version w /\ d_path d = w_path w /\
  d_repository d = w_repository w /\ (d_needs_compilation d = true <-> same_word (w_compile w) "yes") /\
  dependencies (w_imports w) (d_imports d) /\ dependencies (w_suggests w) (d_suggests d) /\
  dependencies (w_depends w) (d_depends d) /\ dependencies (w_linkingto w) (d_linkingto d) /\
  d_pkgr_version d = w_pkgr_version w /\ d_pkgr_type d = w_pkgr_type w /\ d_pkgr_url d = w_pkgr_url w.

(** A well-formed record. *)
Definition record_ok (fs : list field) : Prop :=
  fs <> [] /\ Forall field_ok fs /\ NoDup (map fd_name fs).

(** The lines of a record, and a record that can stand in an index: no carriage
    return inside a line. *)
Definition record_lines_of (fs : list field) : list string := concat (map field_lines fs).
Definition index_record_ok (fs : list field) : Prop :=
  record_ok fs /\ Forall line_ok (record_lines_of fs).

(** [n] line ends. *)
Fixpoint line_ends (eol : string) (n : nat) : string :=
  match n with 0 => "" | S n' => eol +:+ line_ends eol n' end.

(** The name in a dependency entry: what comes before the first parenthesis. *)
Definition named (e n : string) : Prop :=
  exists p r, e = p +:+ r /\ all_bytes (fun c => negb (one_of "(" c)) p = true /\
    (r = "" \/ exists r', r = String "("%char r') /\ stripped p n.
