(** Generating the documentation of the commands, and the directory of the package cache:
    internal/tools/docgen/main.go, rcmd/cache.go. *)
From stdpp Require Import strings list.
From Coq Require Import Ascii.
From Verif.model Require Import GoStr Fs Install Valtools.

Local Open Scope string_scope.

(** The commands of cobra (library) that internal/tools/docgen/main.go 13-23 goes through:
    name, whether IsAvailableCommand holds (so that it is not hidden), the text of its
    documentation, and the commands below it. *)
Inductive command := Command (name : string) (available : bool) (text : string) (below : list command).

(** cobra (library), CommandPath, as used by doc.GenMarkdownTree in
    internal/tools/docgen/main.go 22: the names from the root on. *)
Definition command_path (above name : string) : string := if String.eqb above "" then name else above +:+ " " +:+ name.

(** doc.GenMarkdownTree (library, called in internal/tools/docgen/main.go 22): the
    commands that are documented, with the texts; those below a command come first. *)
Fixpoint documented (above : string) (c : command) : list (string * string) :=
  match c with
  | Command name _ text below =>
      (flat_map (fun d => match d with Command _ av _ _ => if av then documented (command_path above name) d else [] end) below
       ++ [(command_path above name, text)])%list
  end.

(** doc.GenMarkdownTree (library, called in internal/tools/docgen/main.go 22): the name of
    a file. *)
Definition doc_name (cmd : string) : string := replace_byte " " "_" cmd +:+ ".md".

(** doc.GenMarkdownTree (library, called in internal/tools/docgen/main.go 22): write the
    files.  The names of commands have no slashes, as they are constants in the code. *)
Fixpoint write_docs (dir : path) (l : list (string * string)) (f : fsys) : fsys :=
  match l with
  | [] => f
  | (cmd, text) :: l' =>
      write_docs dir l' (fun q => if decide (q = (dir ++ [doc_name cmd])%list) then Some (File text) else f q)
  end.

(** internal/tools/docgen/main.go 13-23: gen; [None]: an error.  Errors of RemoveAll and
    of writing are left out. *)
Definition gen (root : command) (dir : path) (f : fsys) : option fsys :=
  match mkdir_all dir (remove_all dir f) with
  | None => None
  | Some f1 => Some (write_docs dir (documented "" root) f1)
  end.

(** rcmd/cache.go 12-24: NewPackageCache; [allowed]: directories may be made; [None]: it
    panics.  A directory that cannot be looked at counts as one below a file. *)
Definition new_package_cache (cwd : path) (dir : string) (must_work allowed : bool) (f : fsys) : option (path * fsys) :=
  let p := resolve cwd dir in
  match stat f p with
  | StatMissing =>
      match (if allowed then mkdir_all p f else None) with
      | Some f' => Some (p, f')
      | None => if must_work then None else Some (p, f)
      end
  | _ => Some (p, f)
  end.
