(** Independent vocabulary for libraries on a file system. *)
From stdpp Require Import strings list gmap.
From Coq Require Import Ascii.
From Verif.model Require Import Desc Pacman Graph Fs Rollback.

Local Open Scope string_scope.

(** ** Names *)

Definition letter (c : ascii) : Prop :=
  65 <= nat_of_ascii c <= 90 \/ 97 <= nat_of_ascii c <= 122.

Definition name_char (c : ascii) : Prop :=
  letter c \/ 48 <= nat_of_ascii c <= 57 \/ c = "."%char.

Fixpoint all_chars (P : ascii -> Prop) (s : string) : Prop :=
  match s with
  | "" => True
  | String c r => P c /\ all_chars P r
  end.

(** R package names: letters, digits and dots, starting with a letter. *)
Definition r_name (p : string) : Prop :=
  match p with
  | "" => False
  | String c r => letter c /\ all_chars name_char r
  end.

Definition backup_of (p : string) : string := "__OLD__" +:+ p.

(** ** Trees *)

(** Every node but the root is in a directory. *)
Definition tree_ok (f : fsys) : Prop :=
  forall q x, f (q ++ [x])%list <> None -> f q = Some Dir.

(** [q] is [d] or below it. *)
Definition in_dir (d q : path) : Prop := exists s, q = (d ++ s)%list.

Definition same_fs (f g : fsys) : Prop := forall q, f q = g q.

(** Directory [x] of [lib] in [f] has the contents of directory [y] of [lib] in [g]. *)
Definition same_dir (lib : path) (x : string) (f : fsys) (y : string) (g : fsys) : Prop :=
  forall s, f (lib ++ x :: s)%list = g (lib ++ y :: s)%list.

(** Nothing called [x] is in [lib]. *)
Definition no_dir (lib : path) (x : string) (f : fsys) : Prop :=
  forall s, f (lib ++ x :: s)%list = None.

(** ** Installing *)

(** Places where installing may leave anything: temporary directories, the package
    cache, lock directories of R.  They are not the library or a directory it is in,
    nor anything in a package or in a backup of it. *)
Definition scratch_ok (lib : path) (sc : path -> Prop) : Prop :=
  forall q, sc q -> ~ in_dir q lib /\
    forall x s, q = (lib ++ x :: s)%list -> ~ r_name x /\ forall p, x <> backup_of p.

(** What installing may do to a file system: [g] differs from [f] only inside
    the directories of planned packages and in scratch places; a planned package
    that is present is left alone unless it is given as a tarball.  (That
    installing behaves like this is shown in C97.) *)
Definition install_frame (lib : path) (sc : path -> Prop) (all additional : list string) (f g : fsys) : Prop :=
  (forall q, ~ sc q -> (forall p, p ∈ all -> ~ in_dir (lib ++ [p])%list q) -> g q = f q) /\
  (forall p, p ∈ all -> p ∉ additional -> f (lib ++ [p])%list = Some Dir -> same_dir lib p g p f).

(** The packages of a run: those of the plan and those given as tarballs. *)
Definition required (i : run_input) : list string :=
  (ip_starting (ri_plan i) ++ ri_keys i ++ ri_additional i)%list.

(** What is assumed about installing in a run that starts in [f]. *)
Definition world_ok (c : run_config) (i : run_input) (sc : path -> Prop) (w : run_world) (f : fsys) : Prop :=
  let f1 := run_ops (prepare_ops c i) f in
  scratch_ok (rc_library c) sc /\
  install_frame (rc_library c) sc (required i) (ri_additional i) f1 (rw_install w f1) /\
  (tree_ok f1 -> tree_ok (rw_install w f1)).

(** ** Runs *)

(** The facts planning establishes: package names are R names, outdated packages
    are installed ones, the library exists unless it is to be created, and
    packages found in the library are directories of it. *)
Record run_ok (c : run_config) (i : run_input) (f : fsys) : Prop := {
  ro_names : forall p, p ∈ required i -> r_name p;
  ro_additional : ri_additional' i ≡ₚ ri_additional i;
  ro_additional_nodup : NoDup (ri_additional i);
  ro_outdated_nodup : NoDup (map op_package (ip_outdated (ri_plan i)));
  ro_outdated : forall x, x ∈ ip_outdated (ri_plan i) -> is_Some (ri_preinstalled i !! op_package x);
  ro_tree : tree_ok f;
  ro_create : ip_create_library (ri_plan i) = true <-> f (rc_library c) <> Some Dir;
  ro_scan : forall p, is_Some (ri_preinstalled i !! p) -> f (rc_library c ++ [p])%list = Some Dir
}.

(** Packages that are replaced: outdated ones that are planned, unless updates
    are off, and installed ones for which a tarball is given. *)
Definition updated (c : run_config) (i : run_input) (p : string) : Prop :=
  rc_no_update c = false /\ p ∈ required i /\ exists x, x ∈ ip_outdated (ri_plan i) /\ op_package x = p.

Definition overwritten (i : run_input) (p : string) : Prop :=
  p ∈ ri_additional i /\ is_Some (ri_preinstalled i !! p).

Definition replaced (c : run_config) (i : run_input) (p : string) : Prop := updated c i p \/ overwritten i p.

(** No left-over backup is in the way. *)
Definition no_stale_backups (c : run_config) (i : run_input) (f : fsys) : Prop :=
  forall p, replaced c i p -> f (rc_library c ++ [backup_of p])%list = None.

(** Planned packages that are not installed have no directory. *)
Definition new_are_absent (c : run_config) (i : run_input) (f : fsys) : Prop :=
  forall p, p ∈ required i -> ri_preinstalled i !! p = None -> f (rc_library c ++ [p])%list = None.

Definition failed (w : run_world) : Prop := rw_plan_error w = true \/ rw_additional_error w = true.

(** The directory listing the installed packages are read from; there may be
    further copies of a package (such as left-over backups) next to the directory
    named after it. *)
Definition lists_library (f : fsys) (lib : path) (dirs : list (string * option desc)) : Prop :=
  NoDup dirs.*1 /\ (forall x, x ∈ dirs.*1 <-> f (lib ++ [x])%list = Some Dir) /\
  (forall x d, (x, Some d) ∈ dirs -> d_package d <> "" -> d_package d ∈ dirs.*1).

(** ** Interruptions *)

(** States in which a single change can be interrupted: renaming is atomic,
    RemoveAll may have removed any part of the tree, MkdirAll may have made any
    of the directories, installing may have done anything it may do. *)
Definition interrupted_op (lib : path) (sc : path -> Prop) (all additional : list string) (o : op) (f f' : fsys) : Prop :=
  match o with
  | ORename _ _ => False
  | ORemoveAll d => forall q, f' q = f q \/ (in_dir d q /\ f' q = None)
  | OMkdirAll d => forall q, f' q = f q \/ (in_dir q d /\ f q = None /\ f' q = Some Dir)
  | OInstall _ => install_frame lib sc all additional f f'
  end.

(** States left when a sequence of changes is cut short anywhere. *)
Fixpoint interrupted (lib : path) (sc : path -> Prop) (all additional : list string) (l : list op) (f f' : fsys) : Prop :=
  f' = f \/
  match l with
  | [] => False
  | o :: l' => interrupted_op lib sc all additional o f f' \/ interrupted lib sc all additional l' (exec o f) f'
  end.
