(** Repository indexes: cran/repodb.go, cran/r_version.go, cran/pkg_nexus.go
    (NewPkgDb). *)
From stdpp Require Import strings list gmap.
From Coq Require Import Ascii ZArith.
From Verif.model Require Import GoStr Version Desc Nexus.

Local Open Scope string_scope.

(** cran/structs.go 80-84: [RVersion]. *)
Record r_version := RVersion { rv_major : N; rv_minor : N; rv_patch : N }.

(** cran/r_version.go 6-8: [ToFullString]. *)
Definition rv_full (rv : r_version) : string :=
  itoa (rv_major rv) +:+ "." +:+ itoa (rv_minor rv) +:+ "." +:+ itoa (rv_patch rv).

(** cran/r_version.go 11-13: [ToString]. *)
Definition rv_short (rv : r_version) : string :=
  itoa (rv_major rv) +:+ "." +:+ itoa (rv_minor rv).

(** cran/repodb.go 283-309: [checkRVersionCompatibility].  The R version always
    parses, the [None] branch is unreachable. *)
Definition check_r_version (rv : r_version) (c : dep) : bool :=
  match parse_version (rv_full rv) with
  | None => false
  | Some iv =>
      let r := compare_versions iv (dep_version c) in
      match dep_constraint c with
      | CGT => (r >? 0)%Z
      | CGTE => (r >=? 0)%Z
      | CLT => (r <? 0)%Z
      | CLTE => (r <=? 0)%Z
      | CEquals => (r =? 0)%Z
      | CNone => false
      end
  end.

(** cran/repodb.go 274-281: [isRVersionCompatible]. *)
Definition is_r_compatible (d : desc) (rv : r_version) : bool :=
  match d_depends d !! "R" with
  | Some c => check_r_version rv c
  | None => true
  end.

(** cran/repodb.go 232-245: keep a record if it is compatible and has no Path. *)
Definition keep_record (rv : r_version) (d : desc) : bool :=
  is_r_compatible d rv && String.eqb (d_path d) "".

(** cran/repodb.go 214-246: the loop over the records of one index. *)
Fixpoint add_records (rv : r_version) (l : list desc) (m : gmap string desc) : gmap string desc :=
  match l with
  | [] => m
  | d :: l' =>
      add_records rv l' (if keep_record rv d then <[d_package d := d]> m else m)
  end.

(** cran/repodb.go 208: [bytes.ReplaceAll(body, "\r\n", "\n")]. *)
Fixpoint normalise_newlines (s : string) : string :=
  match s with
  | "" => ""
  | String c s' =>
      if char_eqb c (ascii_of_nat 13) then
        match s' with
        | String d s'' =>
            if char_eqb d (ascii_of_nat 10) then String d (normalise_newlines s'')
            else String c (normalise_newlines s')
        | "" => s
        end
      else String c (normalise_newlines s')
  end.

(** cran/repodb.go 209: [bytes.Split(body, "\n\n")], leftmost non-overlapping. *)
Fixpoint split_blank_lines (s : string) : list string :=
  match s with
  | "" => [""]
  | String c s' =>
      let plain := match split_blank_lines s' with
                   | [] => [String c ""]
                   | p :: ps => String c p :: ps
                   end in
      if char_eqb c (ascii_of_nat 10) then
        match s' with
        | String d s'' =>
            if char_eqb d (ascii_of_nat 10) then "" :: split_blank_lines s'' else plain
        | "" => plain
        end
      else plain
  end.

(** cran/repodb.go 208-231: the texts of the records of an index. *)
Definition record_texts (body : string) : list string :=
  List.filter (fun p => negb (String.eqb p "")) (split_blank_lines (normalise_newlines body)).

(** cran/repodb.go 162-248: one index; [parse] is the control-file parser
    (external), [body] is [None] when the download fails (status other than 200,
    read error, missing local file).  A record that does not parse fails the
    whole index. *)
Fixpoint parse_all (parse : string -> option desc) (l : list string) : option (list desc) :=
  match l with
  | [] => Some []
  | t :: l' =>
      match parse t, parse_all parse l' with
      | Some d, Some ds => Some (d :: ds)
      | _, _ => None
      end
  end.

(** cran/repodb.go 163-248: an index with the body that was read; [None] is an error. *)
Definition read_index (parse : string -> option desc) (rv : r_version)
    (body : option string) : option (gmap string desc) :=
  match body with
  | None => None
  | Some b =>
      match parse_all parse (record_texts b) with
      | None => None
      | Some ds => Some (add_records rv ds ∅)
      end
  end.

(** cran/repodb.go 254-265: results arrive in any order; an index that failed
    leaves the entry of its source type as it was. *)
Fixpoint set_descs (st : source_type) (m : gmap string desc)
    (l : list (source_type * gmap string desc)) : list (source_type * gmap string desc) :=
  match l with
  | [] => [(st, m)]
  | (t, x) :: l' => if decide (t = st) then (t, m) :: l' else (t, x) :: set_descs st m l'
  end.

(** cran/repodb.go 252-265: the results in the order in which they arrive. *)
Fixpoint collect_indexes (arrivals : list (source_type * option (gmap string desc)))
    (l : list (source_type * gmap string desc)) (errors : nat)
    : list (source_type * gmap string desc) * nat :=
  match arrivals with
  | [] => (l, errors)
  | (st, Some m) :: a => collect_indexes a (set_descs st m l) errors
  | (st, None) :: a => collect_indexes a l (S errors)
  end.

(** cran/repodb.go 55-64, 123-136. The index cache file: modification time (seconds) and
    contents. *)
Record cache_file := CacheFile { cf_mtime : Z; cf_types : list (source_type * gmap string desc) }.

(** cran/repodb.go 119-136, 267-271: how FetchPackages ends. *)
Inductive fetch_result :=
| FetchOk (types : list (source_type * gmap string desc))
| FetchError.

(** Arithmetic on time.Duration (library), which has 64 bits. Used in cran/repodb.go 134. *)
Definition wrap64 (z : Z) : Z := ((z + 2 ^ 63) mod 2 ^ 64 - 2 ^ 63)%Z.

(** cran/repodb.go 134: the seconds as nanoseconds.  Simplified: times are whole seconds. *)
Definition duration_seconds (n : Z) : Z := (wrap64 (n * 1000000000) / 1000000000)%Z.

(** cran/repodb.go 124-134: the maximum age, from the environment if it parses. *)
Definition max_age (env : option string) : Z :=
  match env with
  | None => 3600
  | Some s => match atoi s with (n, NoError) => duration_seconds n | _ => 3600 end
  end.

(** cran/repodb.go 119-272: [FetchPackages].  [arrivals] are the results of the
    concurrent downloads in arrival order (used only if there is no fresh cache);
    writing the cache is assumed to succeed.  Returns the result and the cache
    file afterwards.  Decoding merges the cached entries over the empty ones. *)
Definition fetch_packages (now : Z) (env : option string) (cache : option cache_file)
    (types : list (source_type * gmap string desc))
    (arrivals : list (source_type * option (gmap string desc)))
    : fetch_result * option cache_file :=
  match cache with
  | Some cf =>
      if (cf_mtime cf + max_age env >? now)%Z
      then (FetchOk (fold_left (fun l tm => set_descs tm.1 tm.2 l) (cf_types cf) types), cache)
      else
        let '(l, errors) := collect_indexes arrivals types 0 in
        if ((1 <? length l)%nat && (errors =? length l)%nat)%bool then (FetchError, None)
        else (FetchOk l, Some (CacheFile now l))
  | None =>
      let '(l, errors) := collect_indexes arrivals types 0 in
      if ((1 <? length l)%nat && (errors =? length l)%nat)%bool then (FetchError, None)
      else (FetchOk l, Some (CacheFile now l))
  end.

(** cran/repodb.go 28-52: [NewRepoDb], the initial entries. *)
Definition initial_types (supports_binary : bool) : list (source_type * gmap string desc) :=
  if supports_binary then [(STBinary, ∅); (STSource, ∅)] else [(STSource, ∅)].

(** cran/repodb.go 87-99: the text hashed by [Hash].  [stsum] is printed with
    [fmt.Sprint], which calls [SourceType.String] (cran/download-package.go
    41-49); the sum is 3 or 6, never 0 (Default) or 2 (Binary), so the printed
    text is always "source". *)
Definition source_type_number (st : source_type) : N :=
  match st with STDefault => 0 | STSource => 1 | STBinary => 2 end.

(** cran/repodb.go 92-95. *)
Definition source_type_sum (types : list (source_type * gmap string desc)) : N :=
  fold_left (fun acc tm => acc + (source_type_number tm.1 + 1))%N types 1%N.

(** cran/download-package.go 41-49: the text of a type. *)
Definition source_type_string (default_binary : bool) (n : N) : string :=
  if (n =? 0)%N then (if default_binary then "binary" else "source")
  else if (n =? 2)%N then "binary" else "source".

(** cran/repodb.go 97: the text that is hashed. *)
Definition hash_text (default_binary : bool) (r : repo_url)
    (types : list (source_type * gmap string desc)) (rversion : string) : string :=
  ru_name r +:+ ru_url r +:+ source_type_string default_binary (source_type_sum types) +:+ rversion.

(** cran/pkg_nexus.go 21-62: [NewPkgDb], the collection of the results of the
    concurrent [NewRepoDb] calls in arrival order; an arrival carries the index
    of its repository. *)
Fixpoint collect_repos (arrivals : list (nat * (repo_db + string)))
    (dbs : list (option repo_db)) (err : option string) : list (option repo_db) * option string :=
  match arrivals with
  | [] => (dbs, err)
  | (i, inl db) :: a => collect_repos a (<[i := Some db]> dbs) err
  | (i, inr e) :: a => collect_repos a dbs (Some e)
  end.

(** cran/pkg_nexus.go 17-62: [NewPkgDb]. *)
Definition new_pkg_db (n : nat) (arrivals : list (nat * (repo_db + string)))
    : list (option repo_db) * option string :=
  if (n =? 0)%nat then ([], Some "Package database must contain at least one RepoUrl")
  else collect_repos arrivals (replicate n None) None.
