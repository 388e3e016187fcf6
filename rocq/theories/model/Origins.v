(** Where the packages of a plan come from, as planInstall tells, and lookups in the
    package database: cmd/plan.go 216-262, 344-381, cran/pkg_nexus.go, pacman/utils.go. *)
From stdpp Require Import strings list gmap.
From Coq Require Import Ascii ZArith.
From Verif.model Require Import GoStr Desc Nexus Pacman Graph.

Local Open Scope string_scope.

(** cmd/plan.go 357-363, 372-378: a message "package repository set".  [og_user]: the
    relationship is user_defined, otherwise dependency. *)
Record origin := { og_package : string; og_repo : string; og_type : source_type; og_version : string; og_user : bool }.

(** cmd/plan.go 357-363, 372-378: the fields for a package. *)
Definition origin_of (user : bool) (dl : pkg_dl) : origin :=
  {| og_package := d_package (dl_package dl); og_repo := ru_name (pc_repo (dl_config dl)); og_type := pc_type (dl_config dl);
     og_version := d_version (dl_package dl); og_user := user |}.

(** cmd/utils.go 54-61: stringInSlice. *)
Fixpoint string_in_slice (s : string) (slice : list string) : bool :=
  match slice with [] => false | e :: l => if String.eqb s e then true else string_in_slice s l end.

(** cmd/plan.go 355-365: logUserPackageRepos. *)
Definition log_user_repos (dls : list pkg_dl) : list origin := map (origin_of true) dls.

(** cmd/plan.go 367-381: logDependencyRepos.  [pkgs]: cfg.Packages. *)
Definition log_dependency_repos (pkgs : list string) (dls : list pkg_dl) : list origin :=
  map (origin_of false) (List.filter (fun dl => negb (string_in_slice (d_package (dl_package dl)) pkgs)) dls).

(** cmd/plan.go 216, 237, 261: all these messages, for a plan without missing packages. *)
Definition origin_lines (nx : nexus) (pkgs : list string) (ip : install_plan) : list origin :=
  (log_user_repos (ap_packages (get_packages nx pkgs)) ++ log_dependency_repos pkgs (ip_downloads ip))%list.

(** cran/pkg_nexus.go 100-103: pkgExists. *)
Definition pkg_exists (pkg : string) (db : gmap string desc) : bool := match db !! pkg with Some _ => true | None => false end.

(** cran/pkg_nexus.go 104-113: pkgExistsInRepo, the map in the order of iteration. *)
Fixpoint pkg_exists_in_repo (pkg : string) (dbs : list (source_type * gmap string desc)) : bool :=
  match dbs with [] => false | db :: l => if pkg_exists pkg db.2 then true else pkg_exists_in_repo pkg l end.

(** cran/pkg_nexus.go 193-208: GetAllPkgsByName.  The names are in the order of the
    iteration over a map: [perm] rearranges them. *)
Definition all_names_set (nx : nexus) : gset string :=
  fold_left (fun s db => fold_left (fun s tm => s ∪ dom (D := gset string) tm.2) (db_types db) s) (nx_db nx) ∅.

(** cran/pkg_nexus.go 193-208: GetAllPkgsByName. *)
Definition get_all_pkgs_by_name (perm : list string -> list string) (nx : nexus) : list string :=
  perm (elements (all_names_set nx)).

(** cmd/plan.go 217-231: the words that suggestions for missing packages are taken from
    (the library fuzzy is trained with them), if there are missing packages. *)
Definition suggestion_words (perm : list string -> list string) (nx : nexus) (pkgs : list string) : option (list string) :=
  match ap_missing (get_packages nx pkgs) with [] => None | _ => Some (get_all_pkgs_by_name perm nx) end.

(** cran/pkg_nexus.go 151-162: GetPackageFromRepo, which nothing calls.  The type of the
    customization is used as it is. *)
Fixpoint get_package_from_repo_loop (st : source_type) (pkg repo : string) (dbs : list repo_db) : option (desc * pkg_config) :=
  match dbs with
  | [] => None
  | db :: l =>
      if negb (String.eqb repo "") && negb (String.eqb (ru_name (db_repo db)) repo) then get_package_from_repo_loop st pkg repo l
      else
        match descs_of (db_types db) st !! pkg with
        | Some d => Some (d, PkgConfig (db_repo db) st)
        | None => get_package_from_repo_loop st pkg repo l
        end
  end.

(** cran/pkg_nexus.go 151-162: GetPackageFromRepo; Default is the zero value. *)
Definition get_package_from_repo (nx : nexus) (pkg repo : string) : option (desc * pkg_config) :=
  get_package_from_repo_loop (match nx_packages nx !! pkg with Some c => pc_type c | None => STDefault end) pkg repo (nx_db nx).

(** pacman/utils.go 136-140: InstalledFromPkgs. *)
Record installed_from := { if_pkgr : list string; if_packrat : list string; if_unknown : list string }.

(** pacman/utils.go 143-152: NotFromPkgr. *)
Definition not_from_pkgr (x : installed_from) : list string := (if_packrat x ++ if_unknown x)%list.

(** pacman/utils.go 155-157: FromPkgr. *)
Definition from_pkgr (x : installed_from) : list string := if_pkgr x.

(** cmd/utils.go 78-84, gpsr/solution.go 97-103: extractNamesFromDesc, in the order of
    iteration [perm]. *)
Definition extract_names (perm : list string -> list string) (m : gmap string desc) : list string :=
  perm (elements (dom (D := gset string) m)).
