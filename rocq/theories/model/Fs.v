(** File systems.  A path is the list of its components from the root, a file
    system a function from paths to nodes.  Only structural errors are modelled:
    permissions, quotas, symbolic links and concurrent users are not. *)
From stdpp Require Import strings list.
From Coq Require Import Ascii.
From Verif.model Require Import GoStr.

Local Open Scope string_scope.

(** Names of files as in rollback/operations.go 31: the components from the root. *)
Notation path := (list string) (only parsing).

(** What can be at a path, as far as cmd/plan.go 87 and rcmd/install.go 102 tell apart:
    a file with its contents or a directory. Links and permissions are left out. *)
Inductive node := File (content : string) | Dir.

Global Instance node_eq_dec : EqDecision node.
Proof. solve_decision. Defined.

(** The file system behind afero.NewOsFs (cmd/root.go 33) and package os; [None]:
    nothing there. *)
Definition fsys := list string -> option node.

(** path/filepath.Clean on the components of a relative path appended to a
    cleaned absolute path: filepath.Join as used in rollback/operations.go 31,
    140-141 and rcmd/install.go 270, 348. *)
Fixpoint add_components (p : path) (comps : list string) : path :=
  match comps with
  | [] => p
  | c :: l =>
      if String.eqb c "" || String.eqb c "." then add_components p l
      else if String.eqb c ".." then add_components (removelast p) l
      else add_components (p ++ [c])%list l
  end.

(** path/filepath.Clean, as in rollback/operations.go 31: the components of a text. *)
Fixpoint split_slash (s : string) : list string :=
  match s with
  | "" => [""]
  | String c r =>
      if Ascii.eqb c "/" then "" :: split_slash r
      else match split_slash r with
           | h :: t => String c h :: t
           | [] => [String c ""]
           end
  end.

(** path/filepath.Join of an absolute path and a text, as in rollback/operations.go
    31. *)
Definition join_path (p : path) (s : string) : path := add_components p (split_slash s).

(** The rest of [q] below [p]. A helper for what is below a directory in
    rollback/operations.go 31 and 140-141. *)
Fixpoint strip (p q : path) : option path :=
  match p, q with
  | [], _ => Some q
  | x :: p', y :: q' => if String.eqb x y then strip p' q' else None
  | _ :: _, [] => None
  end.

(** A helper for rollback/operations.go 31: [q] is [p] or below it. *)
Definition below (p q : path) : bool := match strip p q with Some _ => true | None => false end.

(** afero.Exists, Stat. Used in rollback/operations.go 69 and rcmd/install.go 102. *)
Definition fs_exists (f : fsys) (p : path) : bool := match f p with Some _ => true | None => false end.

(** afero.DirExists. Used in cmd/plan.go 87 and rcmd/install.go 270, 349. *)
Definition fs_dir_exists (f : fsys) (p : path) : bool := match f p with Some Dir => true | _ => false end.

(** os.RemoveAll. Used in rollback/operations.go 17, 31, 72, 103 and rcmd/install.go
    351. *)
Definition remove_all (p : path) (f : fsys) : fsys := fun q => if below p q then None else f q.

(** os.MkdirAll; [None] if a component is a file. A helper for [mkdir_all]: the
    directories on the way to a path (cmd/install.go 77). *)
Fixpoint prefixes (p : path) : list path :=
  match p with
  | [] => [[]]
  | c :: l => [] :: map (cons c) (prefixes l)
  end.

(** os.MkdirAll; [None] if a component is a file. Used in cmd/install.go 77,
    rcmd/install.go 301 and cran/download-package.go 84. *)
Definition mkdir_all (p : path) (f : fsys) : option fsys :=
  if existsb (fun a => match f a with Some (File _) => true | _ => false end) (prefixes p) then None
  else Some (fun q => if below q p then Some Dir else f q).

(** os.Rename (Go's Unix version, os/file_unix.go): fails when the source is missing,
    when the parent of the target is not a directory, when the target is a directory,
    when a directory would replace a file, and when a directory would be moved below
    itself. Used in rollback/operations.go 113 and 143. This tells directories from
    files. *)
Definition is_dir (n : node) : bool := match n with Dir => true | File _ => false end.

(** os.Rename in rollback/operations.go 113 and 143: the files after it. *)
Definition move (a b : path) (f : fsys) : fsys := fun q =>
  match strip b q with
  | Some s => f (a ++ s)%list
  | None => if below a q then None else f q
  end.

(** os.Rename in rollback/operations.go 113 and 143, with the errors above. *)
Definition rename (a b : path) (f : fsys) : option fsys :=
  match f a with
  | None => None
  | Some n =>
      if negb (fs_dir_exists f (removelast b)) then None
      else if fs_dir_exists f b then None
      else if is_dir n && (fs_exists f b || below a b) then None
      else Some (move a b f)
  end.
