(** Library life cycle of `pkgr install`: rollback/operations.go,
    rollback/types.go, rollback/structs.go and cmd/install.go 55-159. *)
From stdpp Require Import strings list gmap.
From Coq Require Import Ascii ZArith.
From Verif.model Require Import GoStr Version Desc Nexus Pacman Graph Fs.

Local Open Scope string_scope.

(** The changes of the file system a run makes, in order. [OInstall] stands for
    everything that InstallPackagePlan and installAdditionalPackages do. These are in
    cmd/install.go 77-150 and rollback/operations.go 11-158. *)
Inductive op :=
| OMkdirAll (p : path)
| ORename (a b : path)
| ORemoveAll (p : path)
| OInstall (f : fsys -> fsys).

(** The calls in rollback/operations.go 17, 31, 72, 103, 113, 143 and cmd/install.go 77;
    one that fails changes nothing. *)
Definition exec (o : op) (f : fsys) : fsys :=
  match o with
  | OMkdirAll p => default f (mkdir_all p f)
  | ORename a b => default f (rename a b f)
  | ORemoveAll p => remove_all p f
  | OInstall g => g f
  end.

(** The changes of cmd/install.go 70-150 one after the other. *)
Definition run_ops (l : list op) (f : fsys) : fsys := fold_left (fun f o => exec o f) l f.

(** rollback/structs.go 3-10: [UpdateAttempt]; the two versions are only logged and left out. *)
Record attempt := Attempt { ua_package : string; ua_active : path; ua_backup : path }.

(** rollback/operations.go 139-158: [tagOldInstallation]; a failed rename is logged only. *)
Definition tag_old (lib : path) (p : string) : op * attempt :=
  let active := join_path lib p in
  let backup := join_path lib ("__OLD__" +:+ p) in
  (ORename active backup, Attempt p active backup).

(** rollback/types.go 12-20 and 23-36: [RollbackPlan], [CreateRollbackPlan], with
    [discernNewPackages] (86-97). *)
Record rollback_plan := RollbackPlan {
  rp_all : list string; rp_new : list string;
  rp_updates : list attempt; rp_additional : list attempt
}.

(** rollback/types.go 86-97: [discernNewPackages]. *)
Definition new_packages (all : list string) (pre : gmap string desc) : list string :=
  List.filter (fun p => match pre !! p with Some _ => false | None => true end) all.

(** rollback/types.go 39-54: [PreparePackagesForUpdate]. *)
Definition updates_of (all : list string) (outdated : list outdated_package) : list string :=
  map op_package (List.filter (fun x => existsb (String.eqb (op_package x)) all) outdated).

(** rollback/types.go 56-70: [PrepareAdditionalPackagesForOverwrite]. *)
Definition overwrites_of (additional : list string) (pre : gmap string desc) : list string :=
  List.filter (fun p => match pre !! p with Some _ => true | None => false end) additional.

(** rollback/operations.go 86-125: [rollbackChangedPackages]; the flag tells
    whether an error was returned. *)
Fixpoint rollback_changed (f : fsys) (l : list attempt) : list op * bool :=
  match l with
  | [] => ([], false)
  | a :: l' =>
      let ops1 := if fs_exists f (ua_active a) then [ORemoveAll (ua_active a)] else [] in
      let f1 := run_ops ops1 f in
      match rename (ua_backup a) (ua_active a) f1 with
      | None => (ops1, true)
      | Some f2 =>
          let '(ops, e) := rollback_changed f2 l' in
          ((ops1 ++ ORename (ua_backup a) (ua_active a) :: ops)%list, e)
      end
  end.

(** rollback/operations.go 11-59: [RollbackPackageEnvironment]. *)
Definition rollback (f : fsys) (lib : path) (create_library : bool) (rp : rollback_plan) : list op * bool :=
  if create_library then ([ORemoveAll lib], false)
  else
    let ops1 := map (fun p => ORemoveAll (join_path lib p)) (rp_new rp) in
    let f1 := run_ops ops1 f in
    let '(ops2, e2) := rollback_changed f1 (rp_updates rp) in
    if e2 then ((ops1 ++ ops2)%list, true)
    else
      let f2 := run_ops ops2 f1 in
      let '(ops3, e3) := rollback_changed f2 (rp_additional rp) in
      ((ops1 ++ ops2 ++ ops3)%list, e3).

(** rollback/operations.go 61-84: [DeleteBackupPackageFolders]. *)
Fixpoint delete_backups (f : fsys) (l : list attempt) : list op :=
  match l with
  | [] => []
  | a :: l' =>
      if fs_exists f (ua_backup a)
      then ORemoveAll (ua_backup a) :: delete_backups (remove_all (ua_backup a) f) l'
      else delete_backups f l'
  end.

(** The settings of a run (configlib/structs.go 42-63). *)
Record run_config := RunConfig {
  rc_library : path; rc_strict : bool; rc_no_update : bool; rc_no_rollback : bool
}.

(** What a run works on: the plan with the iteration orders of DepDb ([ri_keys]) and of
    AdditionalPackageSources (in GetAllPackages and in
    PrepareAdditionalPackagesForOverwrite), and the packages found in the library. These
    are used in cmd/install.go 68-90 and rollback/types.go 23-70. *)
Record run_input := RunInput {
  ri_plan : install_plan; ri_keys : list string;
  ri_additional : list string; ri_additional' : list string;
  ri_preinstalled : gmap string desc
}.

(** rollback/types.go 24: the packages of the plan. *)
Definition ri_all (i : run_input) : list string :=
  get_all_packages (ri_plan i) (ri_keys i) (ri_additional i).

(** What the environment does: whether downloading fails, what the installation does to
    the file system and whether it reports errors (for the plan and for the tarballs).
    This is about cmd/install.go 99-135. *)
Record run_world := RunWorld {
  rw_download_fails : bool;
  rw_install : fsys -> fsys;
  rw_plan_error : bool; rw_additional_error : bool
}.

(** cmd/install.go 71-83, 100-102: log.Fatal; 154-158 and cmd/root.go 47-54: the exit
    status. *)
Inductive outcome := Fatal | Exit (code : Z).

(** The updates that are staged (cmd/install.go 86-89). *)
Definition staged_updates (c : run_config) (i : run_input) : list string :=
  if rc_no_update c then [] else updates_of (ri_all i) (ip_outdated (ri_plan i)).

(** rollback/types.go 56-70: the tarballs that are staged (cmd/install.go 90). *)
Definition staged_overwrites (i : run_input) : list string :=
  overwrites_of (ri_additional' i) (ri_preinstalled i).

(** rollback/types.go 12-20, after the steps of lines 53 and 69. *)
Definition plan_of_run (c : run_config) (i : run_input) : rollback_plan :=
  RollbackPlan (ri_all i) (new_packages (ri_all i) (ri_preinstalled i))
    (map (fun p => (tag_old (rc_library c) p).2) (staged_updates c i))
    (map (fun p => (tag_old (rc_library c) p).2) (staged_overwrites i)).

(** cmd/install.go 70-90: everything up to the downloads. *)
Definition prepare_ops (c : run_config) (i : run_input) : list op :=
  ((if ip_create_library (ri_plan i) then [OMkdirAll (rc_library c)] else []) ++
   map (fun p => (tag_old (rc_library c) p).1) (staged_updates c i) ++
   map (fun p => (tag_old (rc_library c) p).1) (staged_overwrites i))%list.

(** cmd/install.go 139-147. *)
Definition rollback_ops (c : run_config) (i : run_input) (w : run_world) (f : fsys) : list op :=
  if negb (rc_no_rollback c) && (rw_plan_error w || rw_additional_error w)
  then (rollback f (rc_library c) (ip_create_library (ri_plan i)) (plan_of_run c i)).1
  else [].

(** rollback/types.go 72-83 at cmd/install.go 150. *)
Definition cleanup_ops (c : run_config) (i : run_input) (f : fsys) : list op :=
  let rp := plan_of_run c i in
  let ops1 := delete_backups f (rp_updates rp) in
  (ops1 ++ delete_backups (run_ops ops1 f) (rp_additional rp))%list.

(** cmd/install.go 55-159: [rInstall] after planning; the changes made in each
    of its phases and how it ends; a phase that is not reached makes no changes. *)
Record run_trace := RunTrace {
  rt_prepare : list op; rt_install : list op; rt_rollback : list op; rt_cleanup : list op;
  rt_outcome : outcome
}.

(** cmd/install.go 55-159: [rInstall] from the plan on. *)
Definition r_install (c : run_config) (i : run_input) (w : run_world) (f : fsys) : run_trace :=
  let create := ip_create_library (ri_plan i) in
  if create && rc_strict c then RunTrace [] [] [] [] Fatal
  else if create && match mkdir_all (rc_library c) f with None => true | Some _ => false end
  then RunTrace [] [] [] [] Fatal
  else
    let prep := prepare_ops c i in
    if rw_download_fails w then RunTrace prep [] [] [] Fatal
    else
      let inst := [OInstall (rw_install w)] in
      let f2 := run_ops inst (run_ops prep f) in
      let rb := rollback_ops c i w f2 in
      let cl := cleanup_ops c i (run_ops rb f2) in
      RunTrace prep inst rb cl (Exit 0).

(** cmd/install.go 70-150: the changes in order. *)
Definition run_changes (t : run_trace) : list op :=
  (rt_prepare t ++ rt_install t ++ rt_rollback t ++ rt_cleanup t)%list.

(** cmd/install.go 55-159: the files after a run. *)
Definition run_final (c : run_config) (i : run_input) (w : run_world) (f : fsys) : fsys :=
  run_ops (run_changes (r_install c i w f)) f.
