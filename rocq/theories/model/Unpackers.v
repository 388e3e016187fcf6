(** Tarballs unpacked by several runs of pkgr that share a cache: untar, cmd/tarballOps.go
    50-92, and Extract, internal/archive/extract.go 38-115, step by step. *)
From stdpp Require Import strings list gmap.
From Coq Require Import Ascii ZArith.
From Verif.model Require Import GoStr Fs Env Extract Install Fetching Fetchers.

Local Open Scope string_scope.

(** One tarball of one run: its directory in the cache (cmd/tarballOps.go 65-71) and what the
    archives library reads from it (internal/archive/extract.go 39-52). *)
Record unpacker := Unpacker { up_dir : path; up_archive : archive }.

(** Where unpacking is: before the directory is looked for (cmd/tarballOps.go 72), before
    RemoveAll (internal/archive/extract.go 57), before MkdirAll (60), before the next of the
    entries that are left (69-71), before the file of an entry is opened (100), in io.Copy (106)
    after some bytes into a file, or at the end, with or without log.Fatal (cmd/tarballOps.go
    88-90). *)
Inductive unpacks :=
| ULook
| UClear
| UMake
| UEntries (l : list entry)
| UOpen (e : entry) (l : list entry)
| UCopy (p : path) (n : nat) (e : entry) (l : list entry)
| UDone
| UFail.

(** internal/archive/extract.go 92-111: the contents of a regular file, and whether they can be
    read to the end. *)
Definition body_of (e : entry) : option (string * bool) :=
  match en_kind e with
  | KReg c => Some (c, true)
  | KBroken c => Some (c, false)
  | _ => None
  end.

(** One step (cmd/tarballOps.go 72-92, internal/archive/extract.go 38-115).  Simplified:
    RemoveAll and MkdirAll are one step each, and os.Root finds its directory by name; it would
    stay with a directory that somebody has removed meanwhile. *)
Inductive unpack_step (u : unpacker) : unpacks * fsys -> unpacks * fsys -> Prop :=
| u_found f : fs_dir_exists f (up_dir u) = true -> unpack_step u (ULook, f) (UDone, f)
| u_absent f : fs_dir_exists f (up_dir u) = false -> a_known (up_archive u) = true -> unpack_step u (ULook, f) (UClear, f)
| u_unknown f : fs_dir_exists f (up_dir u) = false -> a_known (up_archive u) = false -> unpack_step u (ULook, f) (UFail, f)
| u_clear f : unpack_step u (UClear, f) (UMake, remove_all (up_dir u) f)
| u_make f f' : mkdir_all (up_dir u) f = Some f' -> unpack_step u (UMake, f) (UEntries (a_entries (up_archive u)), f')
| u_no_make f : mkdir_all (up_dir u) f = None -> unpack_step u (UMake, f) (UFail, f)
| u_end f : unpack_step u (UEntries [], f) (if a_complete (up_archive u) then UDone else UFail, f)
| u_not_local e l f : is_local (en_name e) = false -> unpack_step u (UEntries (e :: l), f) (UFail, f)
| u_other e l f : is_local (en_name e) = true -> en_kind e = KOther -> unpack_step u (UEntries (e :: l), f) (UFail, f)
| u_dir e l f f' : is_local (en_name e) = true -> en_kind e = KDir -> mkdir_all (join_path (up_dir u) (en_name e)) f = Some f' ->
    unpack_step u (UEntries (e :: l), f) (UEntries l, f')
| u_no_dir e l f : is_local (en_name e) = true -> en_kind e = KDir -> mkdir_all (join_path (up_dir u) (en_name e)) f = None ->
    unpack_step u (UEntries (e :: l), f) (UFail, f)
| u_parents e l f f' cb : is_local (en_name e) = true -> body_of e = Some cb ->
    mkdir_all (removelast (join_path (up_dir u) (en_name e))) f = Some f' ->
    unpack_step u (UEntries (e :: l), f) (UOpen e l, f')
| u_no_parents e l f cb : is_local (en_name e) = true -> body_of e = Some cb ->
    mkdir_all (removelast (join_path (up_dir u) (en_name e))) f = None ->
    unpack_step u (UEntries (e :: l), f) (UFail, f)
| u_open e l f f' p : follow f 0 (up_dir u) (split_slash (en_name e)) = Some p -> create_excl (up_dir u) (en_name e) "" f = Some f' ->
    unpack_step u (UOpen e l, f) (UCopy p 0 e l, f')
| u_no_open e l f : create_excl (up_dir u) (en_name e) "" f = None -> unpack_step u (UOpen e l, f) (UFail, f)
| u_copy p n m e l f c b s : body_of e = Some (c, b) -> n < m <= String.length c -> f p = Some (File s) ->
    unpack_step u (UCopy p n e l, f) (UCopy p m e l, write_file p (overlay n (substring n (m - n) c) s) f)
| u_copied p e l f c : body_of e = Some (c, true) -> unpack_step u (UCopy p (String.length c) e l, f) (UEntries l, f)
| u_broken p e l f c : body_of e = Some (c, false) -> unpack_step u (UCopy p (String.length c) e l, f) (UFail, f).

(** All tarballs of all runs, with the files (cmd/tarballOps.go 22-45).  *)
Record unpackers := Unpackers { us_fs : fsys; us_each : list unpacks }.

(** cmd/tarballOps.go 22-45: one of them makes a step.  Simplified: each may start at once, so
    that what is said holds in particular for the tarballs of one run, which are unpacked one
    after the other. *)
Inductive unpackers_step (es : list unpacker) : unpackers -> unpackers -> Prop :=
| ust_one x i u a b f' : es !! i = Some u -> us_each x !! i = Some a -> unpack_step u (a, us_fs x) (b, f') ->
    unpackers_step es x (Unpackers f' (<[i := b]> (us_each x))).

(** cmd/tarballOps.go 22: nobody has looked yet. *)
Definition unpack_started (es : list unpacker) (f : fsys) : unpackers := Unpackers f (map (fun _ => ULook) es).
