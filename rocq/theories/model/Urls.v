(** Repository settings and the addresses of indexes and packages: cmd/plan.go,
    cran/repodb.go, cran/download-package.go, cran/utils.go,
    configlib/get_customization.go. *)
From stdpp Require Import strings list gmap.
From Coq Require Import Ascii ZArith NArith.
From Verif.model Require Import GoStr Desc Nexus RepoDb Fs Install Download.

Local Open Scope string_scope.

(** cran/structs.go 92-105: the fields of OsRelease that are used. *)
Record os_release := { or_id : string; or_version_id : string; or_codename : string }.

(** cran/download-package.go 20-36: RepoType; [NoRepoType] is the zero value. *)
Inductive repo_type := NoRepoType | MPN | RSPM.

Global Instance repo_type_eq_dec : EqDecision repo_type.
Proof. solve_decision. Defined.

Global Instance goos_eq_dec : EqDecision goos.
Proof. solve_decision. Defined.

(** cran/utils.go 88-103: linuxKnownSupportsBinary; [None]: /etc/os-release
    cannot be read.  The table of known distributions only affects a message. *)
Definition linux_supports_binary (rel : option os_release) : bool :=
  match rel with
  | None => false
  | Some r => negb (String.eqb (or_id r) "")
  end.

(** cran/utils.go 68-85: SupportsBinary. *)
Definition supports_binary (os : goos) (rel : option os_release) (rt : repo_type) : bool :=
  match os with
  | Darwin | Windows => true
  | Linux => linux_supports_binary rel && bool_decide (rt = MPN)
  | OtherOs => false
  end.

(** cran/utils.go 111-140: getLinuxBinaryUri.  [None] is a run-time panic: the
    index expression [VersionId[0]] on an empty string.  The first byte is taken
    to be ASCII. *)
Definition linux_binary_uri (rel : option os_release) : option string :=
  match rel with
  | None => Some ""
  | Some r =>
      if String.eqb (or_id r) "" then Some ""
      else if String.eqb (or_id r) "ubuntu" then Some (or_id r +:+ "/" +:+ or_codename r)
      else if String.eqb (or_id r) "centos" || String.eqb (or_id r) "rhel" then
        match or_version_id r with
        | "" => None
        | String c _ => Some ("centos/" +:+ String c "")
        end
      else Some (or_id r +:+ "/" +:+ or_version_id r)
  end.

(** cran/utils.go 142-157: cranBinaryURL. *)
Definition cran_binary_url (os : goos) (rel : option os_release) (rv : r_version) : option string :=
  match os with
  | Darwin => Some (if (rv_major rv =? 4)%N then "macosx" else "macosx/el-capitan")
  | Windows => Some "windows"
  | Linux => match linux_binary_uri rel with Some u => Some ("linux/" +:+ u) | None => None end
  | OtherOs => Some ""
  end.

(** cran/repodb.go 102-112: GetPackagesFileURL. *)
Definition index_url (os : goos) (rel : option os_release) (rv : r_version) (db : repo_db) (st : source_type) :
    option string :=
  let base := trim_suffix "/" (ru_url (db_repo db)) in
  if bool_decide (st = STSource) then Some (base +:+ "/src/contrib/PACKAGES")
  else
    match cran_binary_url os rel rv with
    | None => None
    | Some u =>
        if negb (String.eqb (db_suffix db) "") && bool_decide (os = Linux) then
          Some (base +:+ "/bin/" +:+ u +:+ "/" +:+ db_suffix db +:+ "/contrib/" +:+ rv_short rv +:+ "/PACKAGES")
        else Some (base +:+ "/bin/" +:+ u +:+ "/contrib/" +:+ rv_short rv +:+ "/PACKAGES")
    end.

(** cran/download-package.go 172-188: the address of a package; [st] is the type
    after DownloadPackages has replaced Default (96-98), [file] the base name of
    the destination. *)
Definition package_url (os : goos) (rel : option os_release) (rv : r_version) (r : repo_url) (st : source_type)
    (file : string) : option string :=
  let base := trim_suffix "/" (ru_url r) in
  if bool_decide (st = STSource) then Some (base +:+ "/src/contrib/" +:+ file)
  else
    match cran_binary_url os rel rv with
    | None => None
    | Some u =>
        if negb (String.eqb (ru_suffix r) "") then
          Some (base +:+ "/bin/" +:+ u +:+ "/" +:+ ru_suffix r +:+ "/contrib/" +:+ rv_short rv +:+ "/" +:+ file)
        else Some (base +:+ "/bin/" +:+ u +:+ "/contrib/" +:+ rv_short rv +:+ "/" +:+ file)
    end.

(** cran/repodb.go 168 and cran/download-package.go 202: whether an index or a
    package is fetched over HTTP or opened as a file. *)
Definition is_http (url : string) : bool := has_prefix "http" url.

(** configlib/structs.go 14-20: RepoConfig, one entry under Customizations: Repos. *)
Record repo_custom := { rq_type : string; rq_repo_type : string; rq_suffix : string }.

(** configlib/structs.go 15-20: the zero value, as returned in
    configlib/get_customization.go 14. *)
Definition empty_repo_custom : repo_custom := {| rq_type := ""; rq_repo_type := ""; rq_suffix := "" |}.

(** configlib/structs.go 30-34: Customizations.Repos is a list of maps; a map is a list
    of entries with distinct names, in the order in which it is traversed. *)
Definition repo_customs := list (list (string * repo_custom)).

(** A lookup in a map, as in configlib/get_customization.go 8. *)
Fixpoint assoc {A : Type} (nm : string) (l : list (string * A)) : option A :=
  match l with
  | [] => None
  | (k, v) :: l' => if String.eqb k nm then Some v else assoc nm l'
  end.

(** configlib/get_customization.go 6-15: GetRepoCustomizationByName. *)
Fixpoint repo_custom_by_name (nm : string) (cs : repo_customs) : repo_custom :=
  match cs with
  | [] => empty_repo_custom
  | m :: cs' => match assoc nm m with Some v => v | None => repo_custom_by_name nm cs' end
  end.

(** cmd/plan.go 126-134: the repositories, from the list of maps under Repos. *)
Definition configured_repos (repos : list (list (string * string))) (cs : repo_customs) : list repo_url :=
  flat_map (map (fun nu => RepoURL nu.2 nu.1 (rq_suffix (repo_custom_by_name nu.1 cs)))) repos.

(** cran/structs.go 35-39: RepoConfig. *)
Record repo_config := { rc_default : source_type; rc_type : repo_type; rc_suffix : string }.

(** cran/structs.go 35-39: the zero value (cmd/plan.go 139). *)
Definition empty_repo_config : repo_config :=
  {| rc_default := STDefault; rc_type := NoRepoType; rc_suffix := "" |}.

(** cmd/plan.go 139-155: the settings made from one entry. *)
Definition make_repo_config (v : repo_custom) : repo_config :=
  let d1 := if equal_fold (rq_repo_type v) "MPN" then STBinary else STDefault in
  let t1 := if equal_fold (rq_repo_type v) "MPN" then MPN else NoRepoType in
  let t2 := if equal_fold (rq_repo_type v) "RSPM" then RSPM else t1 in
  let d2 := if equal_fold (rq_type v) "binary" then STBinary else d1 in
  let d3 := if equal_fold (rq_type v) "source" then STSource else d2 in
  {| rc_default := d3; rc_type := t2; rc_suffix := rq_suffix v |}.

(** cmd/plan.go 136-158: the map of settings. *)
Definition install_config (cs : repo_customs) : gmap string repo_config :=
  foldl (fun m nv => <[nv.1 := make_repo_config nv.2]> m) ∅ (concat cs).

(** cran/repodb.go 28-50 (NewRepoDb) as called in cran/pkg_nexus.go 37, before
    the indexes are fetched. *)
Definition new_repo_db (os : goos) (rel : option os_release) (cic : gmap string repo_config) (r : repo_url) : repo_db :=
  let rc := default empty_repo_config (cic !! ru_name r) in
  {| db_types := initial_types (supports_binary os rel (rc_type rc));
     db_repo := r;
     db_default := if bool_decide (rc_default rc = STDefault) then default_type os else rc_default rc;
     db_suffix := rc_suffix rc |}.

(** The databases of a configuration. This is cmd/plan.go 126-159 with cran/pkg_nexus.go
    34-60. *)
Definition configured_dbs (os : goos) (rel : option os_release) (repos : list (list (string * string)))
    (cs : repo_customs) : list repo_db :=
  map (new_repo_db os rel (install_config cs)) (configured_repos repos cs).
