(** Independent vocabulary for index files and their cache. *)
From stdpp Require Import strings list gmap.
From Coq Require Import Ascii ZArith.
From Verif.model Require Import Desc Nexus RepoDb.
From Verif.spec Require Import StrSpec VersionSpec RepoSpec.

Local Open Scope string_scope.

Definition lf : ascii := ascii_of_nat 10.
Definition cr : ascii := ascii_of_nat 13.
Definition is_lf (c : ascii) : bool := Ascii.eqb c lf.
Definition is_cr (c : ascii) : bool := Ascii.eqb c cr.

(** A non-empty line: no line feed and no carriage return. *)
Definition line_bytes (s : string) : bool := all_bytes (fun c => negb (is_lf c) && negb (is_cr c)) s.
Definition line_ok (s : string) : Prop := s <> "" /\ line_bytes s = true.

(** A record is a list of lines joined by the line end. *)
Fixpoint rec_text (eol : string) (ls : list string) : string :=
  match ls with
  | [] => ""
  | [l] => l
  | l :: ls' => l +:+ eol +:+ rec_text eol ls'
  end.

(** An index: records separated by an empty line, the last one possibly ended by
    a line end. *)
Fixpoint index_text (eol : string) (recs : list (list string)) (last : list string) (trailing : bool) : string :=
  match recs with
  | [] => rec_text eol last +:+ (if trailing then eol else "")
  | r :: recs' => rec_text eol r +:+ eol +:+ eol +:+ index_text eol recs' last trailing
  end.

(** The whole seconds in [k] seconds when nanoseconds are counted with 64 bits. *)
Definition counted (k n : Z) : Prop :=
  exists ns q, (ns = k * 1000000000 + q * 18446744073709551616)%Z /\
    (-9223372036854775808 <= ns < 9223372036854775808)%Z /\ (n * 1000000000 <= ns < (n + 1) * 1000000000)%Z.

(** How old (in seconds) a cached index may be: one hour, unless the environment
    variable says otherwise. *)
Definition age_limit (env : option string) (n : Z) : Prop :=
  (exists s k, env = Some s /\ int_text s k /\ counted k n) \/
  ((forall s k, env = Some s -> ~ int_text s k) /\ n = 3600%Z).

(** The cached index exists and is young enough. *)
Definition fresh (now : Z) (env : option string) (cache : option cache_file) : Prop :=
  exists cf n, cache = Some cf /\ age_limit env n /\ (now < cf_mtime cf + n)%Z.

(** The results of the downloads of all source types, in any order. *)
Definition arrivals_of (outcome : source_type -> option (gmap string desc))
    (types : list (source_type * gmap string desc))
    (arr : list (source_type * option (gmap string desc))) : Prop :=
  arr ≡ₚ (fun tm => (tm.1, outcome tm.1)) <$> types.
