(** Packages given as tarballs: unpacking all of them and installing them. *)
From stdpp Require Import strings list gmap.
From Coq Require Import Ascii ZArith.
From Verif.model Require Import GoStr Version Desc Nexus RepoDb Fs Extract Install.

Local Open Scope string_scope.

(** cmd/tarballOps.go 51-116. A tarball of the configuration: its path, its contents,
    what the archives library reads from it, and the names that afero.ReadDir finds in
    the directory after unpacking it. *)
Record tarball := { tb_path : string; tb_content : string; tb_archive : archive; tb_names : list string }.

(** gpsr/structs.go 20-24: [AdditionalPkg] (Type is always tarball). *)
Record additional := { ad_path : path; ad_origin : string }.

(** cmd/tarballOps.go 35, 139-147. The hexadecimal MD5 sum of contents, and
    desc.ParseDesc on the contents of a DESCRIPTION. *)
Record unpacking := { u_md5 : string -> string; u_parse : string -> option desc }.

(** cmd/tarballOps.go 139-147: getHashedTarballName: 8 bytes in hexadecimal. *)
Definition tarball_name (u : unpacking) (t : tarball) : string := String.substring 0 16 (u_md5 u (tb_content t)).

(** Lines 94-136: the second part of untar: the first directory; [None] is fatal. A name
    read from a directory is appended to its path as it is. This is cmd/tarballOps.go
    94-136. *)
Definition package_dir (names : list string) (dir : path) (f : fsys) : option path :=
  match List.filter (fun n => fs_dir_exists f (dir ++ [n])%list) names with
  | [] => None
  | n :: _ => Some (dir ++ [n])%list
  end.

(** Lines 22-45: one tarball. [None]: the program ends; a tarball that cannot be opened
    is not modelled. This is cmd/tarballOps.go 22-45. *)
Definition unpack_one (u : unpacking) (cache : path) (t : tarball) (f : fsys) : option (fsys * desc * additional) :=
  let dir := (cache ++ [tarball_name u t])%list in
  match untar (tb_archive t) dir f with
  | (_, false) => None
  | (f1, true) =>
      match package_dir (tb_names t) dir f1 with
      | None => None
      | Some p =>
          match f1 (p ++ ["DESCRIPTION"])%list with
          | Some (File c) =>
              match u_parse u c with
              | Some d => Some (f1, d, {| ad_path := p; ad_origin := tb_path t |})
              | None => None
              end
          | _ => None
          end
      end
  end.

(** cmd/tarballOps.go 16-48: unpackTarballs. *)
Fixpoint unpack_loop (u : unpacking) (cache : path) (ts : list tarball) (ds : list desc) (m : gmap string additional)
    (f : fsys) : option (fsys * list desc * gmap string additional) :=
  match ts with
  | [] => Some (f, ds, m)
  | t :: ts' =>
      match unpack_one u cache t f with
      | None => None
      | Some (f1, d, a) => unpack_loop u cache ts' (ds ++ [d])%list (<[d_package d := a]> m) f1
      end
  end.

(** cmd/tarballOps.go 16-48: unpackTarballs. *)
Definition unpack_tarballs (u : unpacking) (cache : path) (ts : list tarball) (f : fsys) :
    option (fsys * list desc * gmap string additional) := unpack_loop u cache ts [] ∅ f.

(** An absolute path as text. Such texts are made in cmd/tarballOps.go 136. *)
Definition path_text (p : path) : string := "/" +:+ join "/" p.

(** cmd/install.go 202-233: the request made up for a tarball.  Fields that Install
    does not use here are empty. *)
Definition additional_request (library : path) (pkgr name : string) (a : additional) : request :=
  {| q_pkg := name; q_path := path_text (ad_path a); q_meta_pkg := ""; q_meta_version := ""; q_type := STSource;
     q_repo := RepoURL (path_text (ad_path a)) "IndividualPackage" ""; q_library := library; q_build := true;
     q_pkgr := pkgr; q_rversion := RVersion 0 0 0; q_platform := "" |}.

(** cmd/install.go 161-274: installAdditionalPackages.  [l] is the map in the order in
    which it is iterated.  Result: whether an error is returned, and the R
    invocations.  R is run in the directory that the package directory is in (it is
    there since unpacking). *)
Fixpoint install_additional (R : rprog) (s : surroundings) (pkgr : string) (library : path) (l : list (string * additional))
    (f : fsys) : bool * fsys * list rcall :=
  match l with
  | [] => (false, f, [])
  | (name, a) :: l' =>
      match install R s (additional_request library pkgr name a) (ad_path a) library true (removelast (ad_path a)) f with
      | (_, err, f1, t1) =>
          match install_additional R s pkgr library l' f1 with
          | (errs, f2, t2) => (err || errs, f2, (t1 ++ t2)%list)
          end
      end
  end.
