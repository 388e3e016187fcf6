(** planInstall with what it reads and what it leaves: cmd/plan.go 83-326, for the
    commands plan and install. *)
From stdpp Require Import strings list gmap.
From Coq Require Import Ascii ZArith.
From Verif.model Require Import GoStr Version Desc Nexus RepoDb DbCache Graph Plan Pacman Fs Extract Install OsRelease Download Urls Tarballs
  Clean Commands.

Local Open Scope string_scope.

(** What planInstall takes from the configuration, the machine and R (cmd/plan.go
    87-214): the repositories and their settings, the library, the tarballs with the
    directory they are unpacked in (cfg.Cache), the files of Descriptions, the directory
    for databases, the version of R; reading directories and DESCRIPTION files. *)
Record plan_setting := PlanSetting {
  pv_os : goos; pv_rel : option os_release; pv_repos : list (list (string * string)); pv_customs : repo_customs;
  pv_conf : plan_config; pv_library : path; pv_cache : path; pv_tarballs : list tarball; pv_unpack : unpacking;
  pv_descriptions : list string; pv_read : fsys -> string -> option string;
  pv_md5 : string -> string; pv_db_dir : path; pv_rversion : r_version; pv_gob : gob;
  pv_list : fsys -> path -> list string; pv_parse : string -> desc
}.

(** What it works on: the files, and the databases in the cache, which are looked at with
    their times (cran/repodb.go 119-140).  Simplified: the two do not overlap. *)
Record plan_state := PlanState { st_fs : fsys; st_dbs : path -> db_place }.

(** The repositories and the clock during one run, for each repository in turn:
    cran/repodb.go 119-272. *)
Record fetch_world := FetchWorld {
  fw_now : Z; fw_env : option string; fw_arrivals : nat -> arrivals; fw_text : nat -> string; fw_how : nat -> writing;
  fw_rm : nat -> bool
}.

(** cran/repodb.go 28-52, 119-272: the use that the repository number [i] makes of the
    cache. *)
Definition use_of (w : fetch_world) (i : nat) (db : repo_db) : db_use :=
  {| u_now := fw_now w; u_env := fw_env w; u_types := db_types db; u_arrivals := fw_arrivals w i; u_text := fw_text w i;
     u_how := fw_how w i; u_rm := fw_rm w i |}.

(** cran/repodb.go 311-319: the file of a database. *)
Definition file_of (s : plan_setting) (db : repo_db) : path :=
  db_file (pv_md5 s) (bool_decide (default_type (pv_os s) = STBinary)) (pv_db_dir s) db (pv_rversion s).

(** cran/pkg_nexus.go 33-62 with cmd/plan.go 159-162: all databases, from number [i] on.
    [None]: the program ends.  Simplified: in Go they are fetched concurrently, which
    matters only when two of them have the same file (C146). *)
Fixpoint fetch_all (s : plan_setting) (w : fetch_world) (i : nat) (dbs : list repo_db) (P : path -> db_place)
    : option (list repo_db * (path -> db_place)) :=
  match dbs with
  | [] => Some ([], P)
  | db :: dbs' =>
      let '(r, p') := use_db (pv_gob s) (use_of w i db) (P (file_of s db)) in
      match r with
      | DbOk l =>
          match fetch_all s w (S i) dbs' (fun q => if bool_decide (q = file_of s db) then p' else P q) with
          | Some (l', P') => Some (RepoDb l (db_repo db) (db_default db) (db_suffix db) :: l', P')
          | None => None
          end
      | _ => None
      end
  end.

(** pacman/utils.go 24-48: the directories in the library and what their DESCRIPTION
    files say. *)
Definition library_dirs (s : plan_setting) (f : fsys) : list (string * option desc) :=
  map (fun n => (n, match f (pv_library s ++ [n; "DESCRIPTION"])%list with Some (File c) => Some (pv_parse s c) | _ => None end))
    (List.filter (fun n => fs_dir_exists f (pv_library s ++ [n])%list) (pv_list s f (pv_library s))).

(** cmd/plan.go 102-124: the packages that are installed. *)
Definition installed_now (s : plan_setting) (f : fsys) : gmap string desc :=
  if fs_dir_exists f (pv_library s) then prior_installed (library_dirs s f) ∅ else ∅.

(** cmd/plan.go 83-326: how it ends.  [PvEnded]: by a panic or a fatal message before
    there is a request; what is left then is not modelled. *)
Inductive plan_end :=
| PvEnded
| PvDone (r : planned_install) (m : gmap string additional) (st : plan_state).

(** cmd/plan.go 83-326: planInstall, as called by cmd/plan.go 73 and cmd/install.go 69. *)
Definition plan_once (s : plan_setting) (w : fetch_world) (o : oracle) (st : plan_state) : plan_end :=
  let f := st_fs st in
  match configured_dbs (pv_os s) (pv_rel s) (pv_repos s) (pv_customs s) with
  | [] => PvEnded
  | dbs =>
      match fetch_all s w 0 dbs (st_dbs st) with
      | None => PvEnded
      | Some (l, P) =>
          let nx := Nexus l ∅ (default_type (pv_os s)) in
          match set_plan_customizations (cf_suggests (pv_conf s)) (cf_packages (pv_conf s)) (cf_customs (pv_conf s))
                  (default_config (cf_no_recommended (pv_conf s))) (ignore_packages nx (cf_ignore (pv_conf s))) with
          | None => PvDone PIFatal ∅ (PlanState f P)
          | Some _ =>
              match unpack_tarballs (pv_unpack s) (pv_cache s) (pv_tarballs s) f with
              | None => PvEnded
              | Some (f', ds, m) =>
                  match unpack_descriptions (pv_read s f') (pv_descriptions s) with
                  | None => PvEnded
                  | Some ds' =>
                      PvDone (plan_install o (pv_conf s) nx ds ds' (installed_now s f) (fs_dir_exists f (pv_library s))) m
                        (PlanState f' P)
                  end
              end
          end
      end
  end.
