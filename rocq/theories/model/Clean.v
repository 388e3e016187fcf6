(** Cleaning the package cache: cmd/cleanCache.go and cmd/utils.go. *)
From stdpp Require Import strings list.
From Coq Require Import Ascii.
From Verif.model Require Import GoStr Desc Nexus RepoDb Fs Install.

Local Open Scope string_scope.

(** cmd/utils.go 15-32: userCache; [default] is os.UserCacheDir or os.TempDir
    joined with "pkgr". *)
Definition user_cache (cwd default : path) (cfg : string) : path :=
  if String.eqb cfg "" then default else resolve cwd cfg.

(** cmd/cleanCache.go 144-146, with Readdir: the names of the directories
    in a directory, each once and in any order. *)
Definition lists_dirs (f : fsys) (d : path) (names : list string) : Prop :=
  NoDup names /\ forall x, x ∈ names <-> f (d ++ [x])%list = Some Dir.

(** afero.IsEmpty: a directory without entries. Used in cmd/cleanCache.go 161 and
    195. *)
Definition is_empty (f : fsys) (d : path) : Prop :=
  f d = Some Dir /\ forall x, f (d ++ [x])%list = None.

(** cmd/cleanCache.go 150-167 and 176-201: remove a sub-folder of a repository
    folder, then the repository folder if it has become empty. *)
Definition clean_one (cache : path) (sub x : string) (f f' : fsys) : Prop :=
  let f1 := remove_all (cache ++ [x; sub])%list f in
  (is_empty f1 (cache ++ [x])%list /\ f' = remove_all (cache ++ [x])%list f1)
  \/ (~ is_empty f1 (cache ++ [x])%list /\ f' = f1).

(** cmd/cleanCache.go 149-169 and 171-204: one folder after the other. Errors of
    removing are only logged. *)
Fixpoint clean_list (cache : path) (sub : string) (xs : list string) (f f' : fsys) : Prop :=
  match xs with
  | [] => f' = f
  | x :: r => exists f1, clean_one cache sub x f f1 /\ clean_list cache sub r f1 f'
  end.

(** The folders handled: cmd/cleanCache.go 148-149, 171-174.  [None]: all of them. *)
Definition targets (repos : option (list string)) (names : list string) : list string :=
  match repos with
  | None => names
  | Some l => flat_map (fun r => List.filter (String.eqb r) names) l
  end.

(** cmd/cleanCache.go 68-127: how cleanCacheFolders ends: by a panic, or with the files
    it leaves and possibly an error. *)
Inductive clean_result := Panics | Cleaned (f : fsys) (error : bool).

(** cmd/cleanCache.go 134-207: deleteCacheSubfolders.  When the cache cannot be
    opened [cacheDirFsObject] is nil and evaluating its method for the defer
    statement panics.  A cache that is a file has no folders. *)
Definition delete_sub (cache : path) (repos : option (list string)) (sub : string) (f : fsys)
    (r : clean_result) : Prop :=
  match f cache with
  | None => r = Panics
  | Some (File _) => r = Cleaned f false
  | Some Dir =>
      exists names f', lists_dirs f cache names /\ clean_list cache sub (targets repos names) f f'
                       /\ r = Cleaned f' false
  end.

(** cmd/cleanCache.go 129-132: deleteAllCacheSubfolders. *)
Definition delete_both (cache : path) (repos : option (list string)) (f : fsys) (r : clean_result) : Prop :=
  exists r1, delete_sub cache repos "src" f r1 /\
    match r1 with
    | Cleaned f1 false => delete_sub cache repos "binary" f1 r
    | _ => r = r1
    end.

(** cmd/cleanCache.go 54-61: the flags; [cc_repos] is the text of --repos. *)
Record clean_config := {
  cc_cwd : path; cc_default : path; cc_cache : string;
  cc_repos : string; cc_src_only : bool; cc_binaries_only : bool;
  cc_hashes : list string  (** hashes of the configured tarballs that can be opened *)
}.

(** cmd/cleanCache.go 70-76. *)
Definition repos_to_clear (s : string) : option (list string) :=
  if String.eqb s "ALL" then None else Some (split_char "," s).

(** cmd/cleanCache.go 101-124: the unpacked tarballs, below the configured cache
    directory and not [user_cache]. *)
Definition tarball_dir (c : clean_config) (h : string) : path :=
  if String.eqb (cc_cache c) "" then join_path (cc_cwd c) h
  else join_path (resolve (cc_cwd c) (cc_cache c)) h.

(** cmd/cleanCache.go 101-124: the loop over the tarballs of the configuration. *)
Definition clean_tarballs (c : clean_config) (f : fsys) : fsys :=
  fold_left (fun g h => remove_all (tarball_dir c h) g) (cc_hashes c) f.

(** cmd/cleanCache.go 68-127: cleanCacheFolders. *)
Definition clean_cache (c : clean_config) (f : fsys) (r : clean_result) : Prop :=
  let cache := user_cache (cc_cwd c) (cc_default c) (cc_cache c) in
  let repos := repos_to_clear (cc_repos c) in
  if cc_src_only c && cc_binaries_only c then r = Cleaned f true
  else
    exists r1,
      (if negb (cc_src_only c) && negb (cc_binaries_only c) then delete_both cache repos f r1
       else if cc_src_only c then delete_sub cache repos "src" f r1
       else delete_sub cache repos "binary" f r1)
      /\ match r1 with
         | Cleaned f1 false => r = Cleaned (clean_tarballs c f1) false
         | _ => r = r1
         end.

(** ** Package databases: cmd/cleanPkgdb.go *)

(** cran/repodb.go 311-319: GetRepoDbCacheFilePath, with Hash (87-99).  [dir] is
    the directory r_packagedb_caches. *)
Definition db_file (md5 : string -> string) (default_binary : bool) (dir : path) (db : repo_db) (rv : r_version) : path :=
  (dir ++ [md5 (hash_text default_binary (db_repo db) (db_types db) (rv_full rv))])%list.

(** cmd/cleanPkgdb.go 59-70: the names of the repositories to clear. *)
Definition dbs_to_clear (arg : string) (configured : list string) : list string :=
  if String.eqb arg "ALL" then configured else split_char "," arg.

(** cmd/cleanPkgdb.go 92-111: the loop of removePackageDatabases. *)
Definition remove_dbs (md5 : string -> string) (default_binary : bool) (dir : path) (names : list string)
    (dbs : list repo_db) (rv : r_version) (f : fsys) : fsys :=
  fold_left (fun g n =>
    fold_left (fun g db => if String.eqb (ru_name (db_repo db)) n then remove_all (db_file md5 default_binary dir db rv) g else g)
      dbs g) names f.

(** cmd/cleanPkgdb.go 57-81, 83-90: the repository databases are those of a plan
    with the R version of a new RSettings (rcmd/Rsettings.go 16-25). *)
Definition clean_pkgdbs (md5 : string -> string) (default_binary : bool) (dir : path) (arg : string)
    (configured : list string) (dbs : list repo_db) (rv : r_version) (f : fsys) : fsys :=
  remove_dbs md5 default_binary dir (dbs_to_clear arg configured) dbs rv f.
