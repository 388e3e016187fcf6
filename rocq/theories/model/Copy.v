(** Copying a directory, for the tests: testhelper/fileio.go. *)
From stdpp Require Import strings list.
From Coq Require Import Ascii.
From Verif.model Require Import GoStr Fs.

Local Open Scope string_scope.

(** os.Mkdir, as in testhelper/fileio.go 31: an error is ignored there. The permissions are
    left out. *)
Definition try_mkdir (p : path) (f : fsys) : fsys :=
  if fs_exists f p || negb (fs_dir_exists f (removelast p)) then f
  else fun q => if bool_decide (q = p) then Some Dir else f q.

(** goutils.CopyFS (library, called in testhelper/fileio.go 37): open, create, copy the
    contents; [None]: an error. Errors while reading and writing are left out. *)
Definition copy_file (src dst : path) (f : fsys) : option fsys :=
  match f src with
  | Some (File c) =>
      if fs_dir_exists f dst || negb (fs_dir_exists f (removelast dst)) then None
      else Some (fun q => if bool_decide (q = dst) then Some (File c) else f q)
  | _ => None
  end.

(** testhelper/fileio.go 27-45: the loop over what is in the directory, with [rec] for the
    call of CopyDir in line 33.  An item is a name and whether it is a directory. *)
Fixpoint copy_items (rec : path -> path -> fsys -> option (fsys * bool)) (src dst : path) (items : list (string * bool)) (f : fsys) :
    option (fsys * bool) :=
  match items with
  | [] => Some (f, true)
  | (x, true) :: l =>
      match rec (src ++ [x])%list (dst ++ [x])%list (try_mkdir (dst ++ [x])%list f) with
      | Some (f', true) => copy_items rec src dst l f'
      | r => r
      end
  | (x, false) :: l =>
      match copy_file (src ++ [x])%list (dst ++ [x])%list f with
      | Some f' => copy_items rec src dst l f'
      | None => Some (f, false)
      end
  end.

(** testhelper/fileio.go 21: Readdir, the names and whether they are directories; [ls]
    gives the names in a directory. *)
Definition dir_items (ls : fsys -> list string -> list string) (f : fsys) (p : path) : list (string * bool) :=
  map (fun x => (x, fs_dir_exists f (p ++ [x])%list)) (ls f p).

(** testhelper/fileio.go 10-47: CopyDir; the files afterwards and whether it ends without
    an error.  [None]: it has not ended after [n] calls inside each other. *)
Fixpoint copy_dir (n : nat) (ls : fsys -> list string -> list string) (src dst : path) (f : fsys) : option (fsys * bool) :=
  match n with
  | 0 => None
  | S n' =>
      match mkdir_all dst f with
      | None => Some (f, false)
      | Some f1 =>
          if fs_dir_exists f1 src then copy_items (copy_dir n' ls) src dst (dir_items ls f1 src) f1
          else Some (f1, false)
      end
  end.
