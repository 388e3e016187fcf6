(** Several runs of pkgr install with one library at the same time: cmd/install.go 55-159 with
    rollback/operations.go and rollback/types.go, change by change. *)
From stdpp Require Import strings list gmap relations.
From Coq Require Import Ascii ZArith.
From Verif.model Require Import GoStr Fs Rollback.

Local Open Scope string_scope.

(** What R CMD INSTALL puts into the library for a package (rcmd/install.go 121-162): what is
    at each path below its folder. *)
Notation tree := (list string -> option node) (only parsing).

(** A package to be installed, and whether it is given as a tarball: rcmd/install.go 395-551 and
    cmd/install.go 130. *)
Record job := Job { jb_name : string; jb_tree : list string -> option node; jb_tarball : bool }.

(** A run as planned: ip.CreateLibrary, the new packages, those to be updated and those to be
    overwritten by tarballs (rollback/types.go 12-70), what is to be installed, and
    whether errors are rolled back (cmd/install.go 139). *)
Record run := Run {
  rn_create : bool; rn_new : list string; rn_updates : list string; rn_overwrites : list string;
  rn_jobs : list job; rn_rollback : bool
}.

(** rollback/types.go 52-53 and 60-69: the packages that are renamed. *)
Definition rn_tags (r : run) : list string := (rn_updates r ++ rn_overwrites r)%list.

(** How far a run is: before cmd/install.go 70; renaming (86-90); installing (118-130);
    removing the library, the new packages, the failed ones, renaming the old ones
    (rollback/operations.go 16, 30, 101, 113); removing backups (cmd/install.go 150); at its
    end, with or without errors; or stopped by log.Fatal (72-82, 100-102). *)
Inductive phase :=
| RMake
| RTag (l : list string)
| RInstall (todo busy : list job) (bad : bool)
| RUndo
| RRemove (l : list string)
| RRestore (l : list string)
| RRename (p : string) (l : list string)
| RDelete (l : list string) (bad : bool)
| RDone (bad : bool)
| RStop.

(** R CMD INSTALL (rcmd/install.go 121-162): the folder of the package after it.
    Simplified: it is replaced at once, as R does by renaming it from its lock folder. *)
Definition put (lib : path) (p : string) (t : list string -> option node) (f : fsys) : fsys := fun q =>
  match strip (join_path lib p) q with Some s => t s | None => f q end.

(** cmd/install.go 139-150: what comes after the installation. *)
Definition after_install (r : run) (bad : bool) : phase :=
  if bad && rn_rollback r then (if rn_create r then RUndo else RRemove (rn_new r)) else RDelete (rn_tags r) bad.

(** cmd/install.go 70-150: one change by a run, with the file system as it is at that moment.  Simplified: folders are
    removed at once; the order in which packages are installed is left open, so that what is
    said holds for that of the scheduler in particular. *)
Inductive run_step (lib : path) (r : run) : phase * fsys -> phase * fsys -> Prop :=
(** cmd/install.go 70-84 *)
| step_made f f' : (if rn_create r then mkdir_all lib f = Some f' else f' = f) ->
    run_step lib r (RMake, f) (RTag (rn_tags r), f')
| step_not_made f : rn_create r = true -> mkdir_all lib f = None -> run_step lib r (RMake, f) (RStop, f)
(** rollback/operations.go 139-158 *)
| step_tag p l f : run_step lib r (RTag (p :: l), f) (RTag l, exec (tag_old lib p).1 f)
(** cmd/install.go 99-102 *)
| step_fetched f : run_step lib r (RTag [], f) (RInstall (rn_jobs r) [] false, f)
| step_not_fetched f : run_step lib r (RTag [], f) (RStop, f)
(** rcmd/install.go 270-276: a package that is there is not installed *)
| step_there l1 j l2 busy bad f : jb_tarball j = false -> fs_dir_exists f (join_path lib (jb_name j)) = true ->
    run_step lib r (RInstall (l1 ++ j :: l2)%list busy bad, f) (RInstall (l1 ++ l2)%list busy bad, f)
(** rcmd/install.go 277-296: a worker begins *)
| step_begin l1 j l2 busy bad f : jb_tarball j = true \/ fs_dir_exists f (join_path lib (jb_name j)) = false ->
    run_step lib r (RInstall (l1 ++ j :: l2)%list busy bad, f) (RInstall (l1 ++ l2)%list (j :: busy) bad, f)
(** rcmd/install.go 297-390, R succeeds *)
| step_put todo l1 j l2 bad f : fs_dir_exists f lib = true ->
    run_step lib r (RInstall todo (l1 ++ j :: l2)%list bad, f) (RInstall todo (l1 ++ l2)%list bad, put lib (jb_name j) (jb_tree j) f)
(** rcmd/install.go 297-390, R fails and leaves the folder as it was *)
| step_fails todo l1 j l2 bad f :
    run_step lib r (RInstall todo (l1 ++ j :: l2)%list bad, f) (RInstall todo (l1 ++ l2)%list true, f)
(** rcmd/install.go 395-551: all were installed, or after an error others were not *)
| step_installed todo bad f : todo = [] \/ bad = true -> run_step lib r (RInstall todo [] bad, f) (after_install r bad, f)
(** rollback/operations.go 16-28 *)
| step_undo f : run_step lib r (RUndo, f) (RDelete (rn_tags r) true, remove_all lib f)
(** rollback/operations.go 30-39 *)
| step_remove p l f : run_step lib r (RRemove (p :: l), f) (RRemove l, remove_all (join_path lib p) f)
| step_removed f : run_step lib r (RRemove [], f) (RRestore (rn_tags r), f)
(** rollback/operations.go 86-125 *)
| step_clear p l f : run_step lib r (RRestore (p :: l), f) (RRename p l, remove_all (join_path lib p) f)
| step_rename p l f f' : rename (join_path lib ("__OLD__" +:+ p)) (join_path lib p) f = Some f' ->
    run_step lib r (RRename p l, f) (RRestore l, f')
| step_not_renamed p l f : rename (join_path lib ("__OLD__" +:+ p)) (join_path lib p) f = None ->
    run_step lib r (RRename p l, f) (RDelete (rn_tags r) true, f)
| step_restored f : run_step lib r (RRestore [], f) (RDelete (rn_tags r) true, f)
(** rollback/operations.go 61-84 *)
| step_delete p l bad f : run_step lib r (RDelete (p :: l) bad, f) (RDelete l bad, remove_all (join_path lib ("__OLD__" +:+ p)) f)
| step_deleted bad f : run_step lib r (RDelete [] bad, f) (RDone bad, f).

(** Several runs (cmd/install.go 55-159) and the files. *)
Record runs_state := RunsState { rs_each : list phase; rs_fs : fsys }.

(** cmd/install.go 55-159 in several processes: one of them makes a change. *)
Inductive runs_step (lib : path) (rs : list run) : runs_state -> runs_state -> Prop :=
| runs_one i r a a' f f' x : rs !! i = Some r -> x !! i = Some a -> run_step lib r (a, f) (a', f') ->
    runs_step lib rs (RunsState x f) (RunsState (<[i := a']> x) f').

(** cmd/install.go 55: all before their first change. *)
Definition runs_started (rs : list run) (f : fsys) : runs_state := RunsState (map (fun _ => RMake) rs) f.
