(** Installing one package: rcmd/install.go and rcmd/helpers.go. *)
From stdpp Require Import strings list.
From Coq Require Import Ascii ZArith NArith.
From Verif.model Require Import GoStr Nexus RepoDb Fs Stamp Yml.

Local Open Scope string_scope.

(** rcmd/helpers.go 13-23, 31-42: the operating systems that are told apart. *)
Inductive goos := Darwin | Linux | Windows | OtherOs.

(** rcmd/helpers.go 12-28: binaryName, binaryNameOs.  [None]: log.Fatal. *)
Definition binary_name (os : goos) (pkg version platform : string) : option string :=
  match os with
  | Darwin => Some (pkg +:+ "_" +:+ version +:+ ".tgz")
  | Linux => Some (pkg +:+ "_" +:+ version +:+ "_R_" +:+ platform +:+ ".tar.gz")
  | Windows => Some (pkg +:+ "_" +:+ version +:+ ".zip")
  | OtherOs => None
  end.

(** rcmd/helpers.go 30-47: binaryExt, binaryExtOs, on the base name of the path. *)
Definition binary_ext (os : goos) (base platform : string) : option string :=
  match os with
  | Darwin => Some (replace1 "tar.gz" "tgz" base)
  | Linux => Some (replace1 ".tar.gz" ("_R_" +:+ platform +:+ ".tar.gz") base)
  | Windows => Some (replace1 "tar.gz" "zip" base)
  | OtherOs => None
  end.

(** path/filepath.Base of a cleaned absolute path. Used in rcmd/helpers.go 33-38 and
    rcmd/install.go 480. *)
Definition base_name (p : path) : string := List.last p "/".

(** A path given as text, relative to [d] unless absolute (rcmd/install.go 97-99,
    311-313). *)
Definition resolve (d : path) (s : string) : path :=
  if has_prefix "/" s then join_path [] s else join_path d s.

(** cran/utils.go 161-167: RepoURLHash; [md5] is the hexadecimal MD5 sum. *)
Definition repo_dir (md5 : string -> string) (r : repo_url) : string :=
  ru_name r +:+ "-" +:+ String.substring 0 12 (md5 (ru_url r)).

(** The surroundings: working directory of pkgr, the random name for a temporary
    directory (rcmd/install.go 297-300), base directory of the package cache,
    operating system, and goutils.ReadLinesFS on the contents of a file. *)
Record surroundings := {
  s_cwd : path; s_tmp : path; s_cache : path; s_os : goos; s_md5 : string -> string;
  s_read : string -> option (list string)
}.

(** rcmd/structs.go InstallRequest.  The library is absolute (cmd/install.go 106)
    and WorkDir is empty (cmd/install.go 128); a failed download has no path. *)
Record request := {
  q_pkg : string; q_path : string; q_meta_pkg : string; q_meta_version : string;
  q_type : source_type; q_repo : repo_url; q_library : path; q_build : bool;
  q_pkgr : string; q_rversion : r_version; q_platform : string
}.

(** rcmd/install.go 124-151: An invocation of R CMD INSTALL: working directory,
    --library, --build, and the package source. *)
Record rcall := { rc_dir : path; rc_library : path; rc_build : bool; rc_source : path }.

(** rcmd/install.go 157-184: What R does: exit status and new file system. *)
Definition rprog := rcall -> fsys -> Z * fsys.

(** rcmd/install.go 558 with cran/download-package.go 41-49: the text of a type. *)
Definition type_text (os : goos) (t : source_type) : string :=
  source_type_string (match os with Darwin | Windows => true | _ => false end)
    (match t with STDefault => 0 | STSource => 1 | STBinary => 2 end)%N.

(** rcmd/install.go 553-592: writeDescriptionInfo; errors are only logged. *)
Definition write_description (s : surroundings) (r : request) (library : path) (f : fsys) : fsys :=
  let p := join_path (join_path library (q_pkg r)) "DESCRIPTION" in
  match f p with
  | Some (File c) =>
      match s_read s c with
      | Some lines =>
          let new := write_lines (stamp lines (q_pkgr r) (type_text (s_os s) (q_type r)) (ru_url (q_repo r)) (ru_name (q_repo r))) in
          fun q => if bool_decide (q = p) then Some (File new) else f q
      | None => f
      end
  | _ => f
  end.

(** rcmd/install.go 68-222: Install, from an absolute path, in an existing working
    directory.  Result: exit code, whether an error is returned, file system and
    the R invocations.  R not starting is an exit status other than 0 here. *)
Definition install (R : rprog) (s : surroundings) (r : request) (source library : path) (build : bool)
    (dir : path) (f : fsys) : Z * bool * fsys * list rcall :=
  if fs_exists f source then
    let c := {| rc_dir := dir; rc_library := library; rc_build := build; rc_source := source |} in
    match R c f with
    | (code, f1) =>
        if (code =? 0)%Z then (0%Z, false, write_description s r library f1, [c])
        else (code, true, f1, [c])
    end
  else (1%Z, false, f, []).

(** rcmd/install.go 226-241: isInCache, where a binary is looked up. *)
Definition cache_path (s : surroundings) (r : request) : option path :=
  match binary_name (s_os s) (q_meta_pkg r) (q_meta_version r) (q_platform r) with
  | Some n =>
      Some (join_path (join_path (join_path (join_path (s_cache s) (repo_dir (s_md5 s) (q_repo r))) "binary")
              (rv_short (q_rversion r))) n)
  | None => None
  end.

(** rcmd/install.go 242-256, 285: the request when the binary is in the cache. *)
Definition as_binary (r : request) : request :=
  {| q_pkg := q_pkg r; q_path := q_path r; q_meta_pkg := q_meta_pkg r; q_meta_version := q_meta_version r;
     q_type := STBinary; q_repo := q_repo r; q_library := q_library r; q_build := false;
     q_pkgr := q_pkgr r; q_rversion := q_rversion r; q_platform := q_platform r |}.

(** rcmd/install.go 266-392 returns a result, a path and an error. [Stopped]: log.Fatal
    ends the program. *)
Inductive outcome := Stopped | Done (code : Z) (err : bool) (binary : option path).

(** rcmd/install.go 266-392: InstallThroughBinary. *)
Definition install_through_binary (R : rprog) (s : surroundings) (r : request) (f : fsys) :
    outcome * fsys * list rcall :=
  if fs_dir_exists f (join_path (q_library r) (q_pkg r)) then (Done (-999) false None, f, [])
  else
    match cache_path s r with
    | None => (Stopped, f, [])
    | Some bp =>
        if fs_exists f bp then
          match install R s (as_binary r) bp (q_library r) false (s_cwd s) f with
          | (code, err, f1, t) => (Done code err None, f1, t)
          end
        else
          match mkdir_all (s_tmp s) f with
          | None => (Stopped, f, [])
          | Some f0 =>
              let source := resolve (s_cwd s) (q_path r) in
              match install R s r source (s_tmp s) (q_build r) (s_tmp s) f0 with
              | (code, err, f1, t1) =>
                  let inst := join_path (s_tmp s) (q_pkg r) in
                  let f2 := if fs_dir_exists f1 inst then remove_all inst f1 else f1 in
                  if negb err && (code =? 0)%Z then
                    match binary_ext (s_os s) (base_name source) (q_platform r) with
                    | None => (Stopped, f2, t1)
                    | Some n =>
                        let ball := join_path (s_tmp s) n in
                        if fs_exists f2 ball then
                          match install R s r ball (q_library r) false (s_tmp s) f2 with
                          | (code2, err2, f3, t2) => (Done code2 err2 (Some ball), f3, (t1 ++ t2)%list)
                          end
                        else (Done 1 true None, f2, t1)
                    end
                  else (Done code err None, f2, t1)
              end
          end
    end.

(** rcmd/install.go 471-481: where the binary of a package downloaded to [p] is
    stored. *)
Definition store_path (p : path) (rv : r_version) (binary : path) : path :=
  join_path (join_path (join_path (removelast (removelast p)) "binary") (rv_short rv)) (base_name binary).
