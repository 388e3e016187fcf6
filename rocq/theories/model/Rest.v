(** Small functions, most of which nothing calls. *)
From stdpp Require Import strings list gmap.
From Coq Require Import Ascii ZArith QArith.
From Verif.model Require Import GoStr Version Desc Nexus Pacman Graph Fs Env.

Local Open Scope string_scope.

(** rcmd/nvp.go 32-39: GetNvp. *)
Fixpoint get_nvp (l : nvps) (name : string) : option nvp :=
  match l with [] => None | p :: l' => if String.eqb name (n_name p) then Some p else get_nvp l' name end.

(** rcmd/utils.go 9-13: sanitizeDirName, which nothing calls.  The second text is two
    backslashes. *)
Definition sanitize_dir_name (s : string) : string := trim_suffix "\\" (trim_suffix "/" s).

(** cmd/utils.go 63-66: libraryExists, which nothing calls. *)
Definition library_exists (f : fsys) (p : path) : bool := fs_exists f p.

(** gpsr/install.go 18-25: AllPkgDeps, which nothing calls. *)
Definition all_pkg_deps : pkg_deps := PkgDeps true true true true false.

(** cran/structs.go 62-64: GetMegabytes; a fraction for a float64. *)
Definition get_megabytes (size : Z) : Q := (inject_Z size / inject_Z (1024 * 1024))%Q.

(** cran/pkgdl.go 4-6: PkgAndRepoNames. *)
Definition pkg_and_repo_names (dl : pkg_dl) : string * string := (d_package (dl_package dl), ru_name (pc_repo (dl_config dl))).

(** cmd/cleanCache.go 209-215: sliceToString; [itoa] is strconv.Itoa. *)
Definition slice_to_string (itoa : nat -> string) (l : list string) : string :=
  fold_left (fun acc s => acc +:+ s +:+ "|") l ("Size: " +:+ itoa (length l) +:+ " :").

(** gpsr/dependencies.go 40-46: DisplayGraph, the lines, for the nodes with their
    dependencies. *)
Definition display_graph (g : list (string * list string)) : list string :=
  flat_map (fun n => map (fun d => n.1 +:+ " -> " +:+ d) n.2) g.

(** cran/repodb.go 322-330: GetPackageDbFilePath, the same as GetRepoDbCacheFilePath
    (312-319); [cache]: os.UserCacheDir, or os.TempDir without one. *)
Definition package_db_path (cache : path) (hash : string) : path := (cache ++ ["pkgr"; "r_packagedb_caches"; hash])%list.
