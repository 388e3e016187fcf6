(** The package database: cran/structs.go, cran/pkg_nexus.go. *)
From stdpp Require Import strings list gmap.
From Coq Require Import Ascii ZArith.
From Verif.model Require Import GoStr Version Desc.

Local Open Scope string_scope.

(** cran/download-package.go 38-60: [SourceType]. *)
Inductive source_type := STDefault | STSource | STBinary.

Global Instance source_type_eq_dec : EqDecision source_type.
Proof. solve_decision. Defined.

(** cran/structs.go 13-17: [RepoURL]. *)
Record repo_url := RepoURL { ru_url : string; ru_name : string; ru_suffix : string }.

(** cran/structs.go 13-17: the zero value. *)
Definition empty_repo_url : repo_url := RepoURL "" "" "".

(** cran/structs.go 20-26: [RepoDb] (the [Time] field is never read).
    [db_types] is the map DescriptionsBySourceType. *)
Record repo_db := RepoDb {
  db_types : list (source_type * gmap string desc);
  db_repo : repo_url;
  db_default : source_type;
  db_suffix : string
}.

(** Lookup in DescriptionsBySourceType; a missing key is Go's nil (empty) map. Used in
    cran/pkg_nexus.go 143-144. *)
Fixpoint descs_of (l : list (source_type * gmap string desc)) (st : source_type) : gmap string desc :=
  match l with
  | [] => ∅
  | (t, m) :: l' => if decide (t = st) then m else descs_of l' st
  end.

(** cran/structs.go 42-45: [PkgConfig]. *)
Record pkg_config := PkgConfig { pc_repo : repo_url; pc_type : source_type }.

(** cran/structs.go 42-45: the zero value. *)
Definition empty_pkg_config : pkg_config := PkgConfig empty_repo_url STDefault.

(** cran/structs.go 48-52: [PkgNexus]; [nx_packages] is Config.Packages. *)
Record nexus := Nexus {
  nx_db : list repo_db;
  nx_packages : gmap string pkg_config;
  nx_default : source_type
}.

(** cran/pkg_nexus.go 66-76: [SetPackageRepo]; [None] is the error. *)
Fixpoint find_repo (l : list repo_db) (name : string) : option repo_db :=
  match l with
  | [] => None
  | db :: l' => if String.eqb (ru_name (db_repo db)) name then Some db else find_repo l' name
  end.

(** cran/pkg_nexus.go 66-76: [SetPackageRepo]; [None] is the error. *)
Definition set_package_repo (nx : nexus) (pkg repo : string) : option nexus :=
  match find_repo (nx_db nx) repo with
  | Some db =>
      let cfg := default empty_pkg_config (nx_packages nx !! pkg) in
      Some (Nexus (nx_db nx)
              (<[pkg := PkgConfig (db_repo db) (pc_type cfg)]> (nx_packages nx)) (nx_default nx))
  | None => None
  end.

(** cran/pkg_nexus.go 89-98: [setType]. *)
Definition set_type (t : string) : option source_type :=
  if equal_fold t "source" then Some STSource
  else if equal_fold t "binary" then Some STBinary
  else None.

(** cran/pkg_nexus.go 79-87: [SetPackageType]. *)
Definition set_package_type (nx : nexus) (pkg t : string) : option nexus :=
  match set_type t with
  | Some st =>
      let cfg := default empty_pkg_config (nx_packages nx !! pkg) in
      Some (Nexus (nx_db nx)
              (<[pkg := PkgConfig (pc_repo cfg) st]> (nx_packages nx)) (nx_default nx))
  | None => None
  end.

(** cran/pkg_nexus.go 115-125: [isCorrectRepo]. *)
Definition is_correct_repo (pkg : string) (r : repo_url) (cfg : gmap string pkg_config) : bool :=
  match cfg !! pkg with
  | Some c =>
      if String.eqb (ru_name (pc_repo c)) "" then true
      else String.eqb (ru_name (pc_repo c)) (ru_name r)
  | None => true
  end.

(** cran/pkg_nexus.go 135-138: the source type looked up in one repository.
    [exists_] tells whether the package has a customization. *)
Definition repo_source_type (st : source_type) (exists_ : bool) (db : repo_db) : source_type :=
  if negb (bool_decide (db_default db = st)) && negb exists_
     && negb (bool_decide (db_default db = STDefault))
  then db_default db else st.

(** cran/pkg_nexus.go 134-146: the repositories in order. *)
Fixpoint get_package_loop (cfgs : gmap string pkg_config) (pkg : string)
    (st : source_type) (exists_ : bool) (dbs : list repo_db) : option (desc * pkg_config) :=
  match dbs with
  | [] => None
  | db :: dbs' =>
      let rst := repo_source_type st exists_ db in
      match descs_of (db_types db) rst !! pkg with
      | Some d =>
          if is_correct_repo pkg (db_repo db) cfgs
          then Some (d, PkgConfig (db_repo db) rst)
          else get_package_loop cfgs pkg st exists_ dbs'
      | None => get_package_loop cfgs pkg st exists_ dbs'
      end
  end.

(** cran/pkg_nexus.go 128-148: [GetPackage]; [None] is [ok == false]. *)
Definition get_package (nx : nexus) (pkg : string) : option (desc * pkg_config) :=
  let '(st, ex) :=
    match nx_packages nx !! pkg with
    | Some c => (if decide (pc_type c = STDefault) then nx_default nx else pc_type c, true)
    | None => (nx_default nx, false)
    end in
  get_package_loop (nx_packages nx) pkg st ex (nx_db nx).

(** cran/pkg_nexus.go 128-148. The Go triple: zero values when the package is not
    found. *)
Definition get_package_go (nx : nexus) (pkg : string) : desc * pkg_config * bool :=
  match get_package nx pkg with
  | Some (d, c) => (d, c, true)
  | None => (empty_desc, empty_pkg_config, false)
  end.

(** cran/structs.go 67-70, 74-77: [PkgDl], [AvailablePkgs]. *)
Record pkg_dl := PkgDl { dl_config : pkg_config; dl_package : desc }.

(** cran/structs.go 74-77: [AvailablePkgs]. *)
Record available_pkgs := AvailablePkgs { ap_packages : list pkg_dl; ap_missing : list string }.

(** cran/pkg_nexus.go 166-179: [GetPackages]. *)
Definition get_packages (nx : nexus) (pkgs : list string) : available_pkgs :=
  AvailablePkgs
    (map (fun p => let '(d, c, _) := get_package_go nx p in PkgDl c d) pkgs)
    (List.filter (fun p => negb (get_package_go nx p).2) pkgs).

(** cran/pkg_nexus.go 184-190: [CheckAllAvailable]. *)
Definition check_all_available (nx : nexus) (pkgs : list string) : bool :=
  match ap_missing (get_packages nx pkgs) with [] => true | _ => false end.

(** cmd/plan.go 166-172: IgnorePackages deletes the packages from every
    repository and source type. *)
Definition ignore_package (nx : nexus) (p : string) : nexus :=
  Nexus (map (fun db => RepoDb (map (fun tm => (tm.1, delete p tm.2)) (db_types db))
                          (db_repo db) (db_default db) (db_suffix db)) (nx_db nx))
    (nx_packages nx) (nx_default nx).

(** cmd/plan.go 166-172, for all packages of IgnorePackages. *)
Definition ignore_packages (nx : nexus) (l : list string) : nexus :=
  fold_left ignore_package l nx.
