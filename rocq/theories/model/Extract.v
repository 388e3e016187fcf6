(** Unpacking a tarball into the cache. *)
From stdpp Require Import strings list.
From Coq Require Import Ascii.
From Verif.model Require Import GoStr Fs Env.

Local Open Scope string_scope.

(** An entry of an archive as delivered by the archives library: name and type. A link,
    device or the like is [KOther]. A regular file whose contents cannot be read
    completely is [KBroken], with the part that could be read.
    internal/archive/extract.go 83-114. *)
Inductive kind := KDir | KReg (content : string) | KBroken (part : string) | KOther.

(** internal/archive/extract.go 74: fi.NameInArchive and fi.Mode(). *)
Record entry := { en_name : string; en_kind : kind }.

(** [a_known]: archives.Identify recognises the format and the file can be opened;
    [a_complete]: the stream of entries ends without an error.
    internal/archive/extract.go 39-52, 69-71. *)
Record archive := { a_known : bool; a_entries : list entry; a_complete : bool }.

(** path/filepath.IsLocal on Unix (internal/filepathlite, unixIsLocal). Used in
    internal/archive/extract.go 78. This is the test for components of dots. *)
Definition has_dots (comps : list string) : bool :=
  existsb (fun c => String.eqb c "." || String.eqb c "..") comps.

(** path/filepath.IsLocal on Unix, as in internal/archive/extract.go 78. *)
Definition is_local (s : string) : bool :=
  if has_prefix "/" s || String.eqb s "" then false
  else
    let t := if has_dots (split_slash s) then clean s else s in
    negb (String.eqb t ".." || has_prefix "../" t).

(** os.Root.OpenFile: the name is followed component by component from the root; every
    directory passed through has to exist. A trailing slash is ignored. Result: the path
    of the file. Used in internal/archive/extract.go 100. *)
Fixpoint follow (f : fsys) (depth : nat) (p : path) (comps : list string) : option path :=
  match comps with
  | [] => Some p
  | c :: l =>
      if String.eqb c "" || String.eqb c "." then follow f depth p l
      else if String.eqb c ".." then
        match depth with
        | 0 => None
        | S d => if fs_dir_exists f p then follow f d (removelast p) l else None
        end
      else if fs_dir_exists f p then follow f (S depth) (p ++ [c])%list l
      else None
  end.

(** Opening with O_CREATE and O_EXCL, then writing. internal/archive/extract.go
    100-111. *)
Definition create_excl (root : path) (name content : string) (f : fsys) : option fsys :=
  match follow f 0 root (split_slash name) with
  | None => None
  | Some p =>
      if fs_exists f p || negb (fs_dir_exists f (removelast p)) then None
      else Some (fun q => if bool_decide (q = p) then Some (File content) else f q)
  end.

(** internal/archive/extract.go 74-115: extractFile.  The flag is false when an
    error is returned; what has been done so far stays. *)
Definition extract_file (root : path) (e : entry) (f : fsys) : fsys * bool :=
  if negb (is_local (en_name e)) then (f, false)
  else
    let filename := join_path root (en_name e) in
    match en_kind e with
    | KDir => match mkdir_all filename f with Some f' => (f', true) | None => (f, false) end
    | KReg c | KBroken c =>
        match mkdir_all (removelast filename) f with
        | None => (f, false)
        | Some f1 =>
            match create_excl root (en_name e) c f1 with
            | None => (f1, false)
            | Some f2 => (f2, match en_kind e with KReg _ => true | _ => false end)
            end
        end
    | KOther => (f, false)
    end.

(** The extractor calls extractFile for each entry until one fails.
    internal/archive/extract.go 69-71. *)
Fixpoint extract_all (root : path) (l : list entry) (f : fsys) : fsys * bool :=
  match l with
  | [] => (f, true)
  | e :: l' =>
      match extract_file root e f with
      | (f', true) => extract_all root l' f'
      | (f', false) => (f', false)
      end
  end.

(** internal/archive/extract.go 38-72: Extract. *)
Definition extract (a : archive) (root : path) (f : fsys) : fsys * bool :=
  if negb (a_known a) then (f, false)
  else
    match mkdir_all root (remove_all root f) with
    | None => (remove_all root f, false)
    | Some f1 =>
        match extract_all root (a_entries a) f1 with
        | (f2, ok) => (f2, ok && a_complete a)
        end
    end.

(** cmd/tarballOps.go 50-92: the first part of untar.  [dir] is the directory in
    the cache named after the hash of the tarball; an error is fatal. *)
Definition untar (a : archive) (dir : path) (f : fsys) : fsys * bool :=
  if fs_dir_exists f dir then (f, true) else extract a dir f.
