(** Databases in the user's cache that are used at the same time: by the goroutines of
    cran/pkg_nexus.go 36-41 or by several runs of pkgr.  The steps of FetchPackages,
    cran/repodb.go 119-272, Decode (55-64) and Encode (67-84). *)
From stdpp Require Import strings list gmap.
From Coq Require Import Ascii ZArith.
From Verif.model Require Import GoStr Version Desc Nexus RepoDb DbCache Fs.

Local Open Scope string_scope.

(** What a path leads to, as in [db_place], but with the number of the file: a file that is
    open can be removed or emptied by another program (cran/repodb.go 56, 73, 136). *)
Inductive slot := SNothing | SFile (k : nat) | SBad.

(** The files by path, and the time and contents of each file (cran/repodb.go 56, 73,
    123). *)
Record disk := Disk { dk_at : path -> slot; dk_node : nat -> Z * string }.

(** What os.Stat and os.Open see at a path (cran/repodb.go 56, 123). *)
Definition place (d : disk) (p : path) : db_place :=
  match dk_at d p with
  | SNothing => PNothing
  | SFile k => PFile (dk_node d k).1 (dk_node d k).2
  | SBad => PBad
  end.

(** The use that one goroutine makes of the file at a path: cran/repodb.go 119-272. *)
Record fetcher := Fetcher { fe_use : db_use; fe_file : path }.

(** Where a goroutine is in FetchPackages: before os.Stat (cran/repodb.go 123), before
    os.Remove (136), before Decode (134), before the indexes are fetched (142-269), before
    Encode (271) with the maps to write, in Encode with the file that is open and the
    number of bytes written, or done. *)
Inductive fetching :=
| FStart
| FRemove
| FOpen
| FFetch
| FCreate (l : db_maps)
| FWrite (l : db_maps) (k n : nat)
| FDone (r : fetched).

(** The number of bytes that are written (cran/repodb.go 76-83): all, or those before an
    error or the end of the program. *)
Definition limit (u : db_use) : nat :=
  match u_how u with
  | NotCreated => 0
  | WriteError n | KilledAt n => Nat.min n (String.length (u_text u))
  | Written => String.length (u_text u)
  end.

(** The beginning of a text, filled with zero bytes.  A file that was emptied by another
    program is filled when it is written at an offset (cran/repodb.go 76-79). *)
Fixpoint begin (n : nat) (s : string) : string :=
  match n, s with
  | 0, _ => ""
  | S n, "" => String Ascii.zero (begin n "")
  | S n, String c r => String c (begin n r)
  end.

(** A text without its first bytes, as cran/repodb.go 76-79. *)
Fixpoint drop_bytes (n : nat) (s : string) : string :=
  match n, s with 0, _ => s | S n, "" => "" | S n, String _ r => drop_bytes n r end.

(** Writing [c] at offset [n] of a file with the contents [s]: cran/repodb.go 76-79. *)
Definition overlay (n : nat) (c s : string) : string := begin n s +:+ c +:+ drop_bytes (n + String.length c) s.

(** The file at a path is set: os.Create and os.Remove (cran/repodb.go 73, 136). *)
Definition set_at (p : path) (x : slot) (d : disk) : disk :=
  Disk (fun q => if bool_decide (q = p) then x else dk_at d q) (dk_node d).

(** The contents of a file are set: cran/repodb.go 73, 76-79. *)
Definition set_node (k : nat) (x : Z * string) (d : disk) : disk :=
  Disk (dk_at d) (fun j => if bool_decide (j = k) then x else dk_node d j).

(** How Encode ends when nothing more is written (cran/repodb.go 76-84). *)
Definition write_end (u : db_use) (l : db_maps) : fetched :=
  match u_how u with Written => DbOk l | KilledAt _ => DbEnded | _ => DbError end.

(** One step of a goroutine (cran/repodb.go 119-272).  [free]: no path leads to the file
    with this number and nobody has it open.  Simplified: a file is read at once, and the
    clock stands still for one goroutine. *)
Inductive fetch_step (g : gob) (u : db_use) (p : path) (free : nat -> Prop) : fetching * disk -> fetching * disk -> Prop :=
| st_look_none d : dk_at d p = SNothing -> fetch_step g u p free (FStart, d) (FFetch, d)
| st_look_bad d : dk_at d p = SBad -> fetch_step g u p free (FStart, d) (FDone DbPanic, d)
| st_look_file d k : dk_at d p = SFile k ->
    fetch_step g u p free (FStart, d) (if ((dk_node d k).1 + max_age (u_env u) >? u_now u)%Z then FOpen else FRemove, d)
| st_remove d : u_rm u = true -> dk_at d p <> SBad -> fetch_step g u p free (FRemove, d) (FFetch, set_at p SNothing d)
| st_not_removed d : u_rm u = false \/ dk_at d p = SBad -> fetch_step g u p free (FRemove, d) (FFetch, d)
| st_read d k : dk_at d p = SFile k -> fetch_step g u p free (FOpen, d) (FDone (decode g (dk_node d k).2 (u_types u)), d)
| st_gone d : (forall k, dk_at d p <> SFile k) -> fetch_step g u p free (FOpen, d) (FDone DbError, d)
| st_fatal d : u_arrivals u = None -> fetch_step g u p free (FFetch, d) (FDone DbEnded, d)
| st_fetch d ar l e : u_arrivals u = Some ar -> collect_indexes ar (u_types u) 0 = (l, e) ->
    fetch_step g u p free (FFetch, d)
      (if ((1 <? length l)%nat && (e =? length l)%nat)%bool then FDone DbError else FCreate l, d)
| st_not_created d l : u_how u = NotCreated \/ dk_at d p = SBad -> fetch_step g u p free (FCreate l, d) (FDone DbError, d)
| st_create d l k : u_how u <> NotCreated -> dk_at d p = SNothing -> free k ->
    fetch_step g u p free (FCreate l, d) (FWrite l k 0, set_node k (u_now u, "") (set_at p (SFile k) d))
| st_empty d l k : u_how u <> NotCreated -> dk_at d p = SFile k ->
    fetch_step g u p free (FCreate l, d) (FWrite l k 0, set_node k (u_now u, "") d)
| st_write d l k n m : n < m <= limit u ->
    fetch_step g u p free (FWrite l k n, d)
      (FWrite l k m, set_node k (u_now u, overlay n (substring n (m - n) (u_text u)) (dk_node d k).2) d)
| st_end d l k : fetch_step g u p free (FWrite l k (limit u), d) (FDone (write_end u l), d).

(** All goroutines: cran/pkg_nexus.go 36-41. *)
Record fetchers := Fetchers { fs_disk : disk; fs_each : list fetching }.

(** No path leads to the file, and nobody has it open (cran/repodb.go 73). *)
Definition free_in (x : fetchers) (k : nat) : Prop :=
  (forall q, dk_at (fs_disk x) q <> SFile k) /\ (forall l n, FWrite l k n ∉ fs_each x).

(** cran/pkg_nexus.go 36-41: one of them makes a step. *)
Inductive fetchers_step (g : gob) (us : list fetcher) : fetchers -> fetchers -> Prop :=
| fst_one x i f a b d' : us !! i = Some f -> fs_each x !! i = Some a ->
    fetch_step g (fe_use f) (fe_file f) (free_in x) (a, fs_disk x) (b, d') ->
    fetchers_step g us x (Fetchers d' (<[i := b]> (fs_each x))).

(** cran/pkg_nexus.go 34-41: all have been started. *)
Definition started (us : list fetcher) (d : disk) : fetchers := Fetchers d (map (fun _ => FStart) us).
