(** The package database of a repository in the user's cache as a file:
    cran/repodb.go 54-84 (Decode, Encode) and 114-272 (FetchPackages). *)
From stdpp Require Import strings list gmap.
From Coq Require Import Ascii ZArith.
From Verif.model Require Import GoStr Version Desc Nexus RepoDb.

Local Open Scope string_scope.

(** The maps of a database (cran/structs.go, DescriptionsBySourceType), by type. Used in
    cran/repodb.go 54-84. *)
Notation db_maps := (list (source_type * gmap string desc)).

(** encoding/gob, as used in cran/repodb.go 62-63 and 76-79: texts that may be written
    for maps (Go goes through maps in any order), and what is read from a text; [None]
    is an error. *)
Record gob := { g_text : db_maps -> string -> Prop; g_read : string -> option db_maps }.

(** What is at the place of the cache file, as os.Stat and os.Open see it (cran/repodb.go
    123 and 56): nothing, a file with the time it was written and its contents, or
    something else, such as a file in place of a directory that leads there. *)
Inductive db_place :=
| PNothing
| PFile (mtime : Z) (bytes : string)
| PBad.

(** How writing goes (cran/repodb.go 67-84): the directory or the file cannot be made,
    writing fails after some bytes, the program is killed after some bytes, or all is
    written. *)
Inductive writing :=
| NotCreated
| WriteError (n : nat)
| KilledAt (n : nat)
| Written.

(** How FetchPackages ends (cran/repodb.go 119-272): with the maps, with an error, with a
    panic (line 134, fi is nil), by log.Fatal or because the program is killed. *)
Inductive fetched :=
| DbOk (l : db_maps)
| DbError
| DbPanic
| DbEnded.

(** cran/repodb.go 67-84: [Encode] of [s]; os.Create empties the file first. *)
Definition encode (now : Z) (l : db_maps) (s : string) (how : writing) (p : db_place) : fetched * db_place :=
  match p with
  | PBad => (DbError, PBad)
  | _ =>
      match how with
      | NotCreated => (DbError, p)
      | WriteError n => (DbError, PFile now (substring 0 n s))
      | KilledAt n => (DbEnded, PFile now (substring 0 n s))
      | Written => (DbOk l, PFile now s)
      end
  end.

(** cran/repodb.go 55-64: [Decode] into [types]. *)
Definition decode (g : gob) (s : string) (types : db_maps) : fetched :=
  match g_read g s with
  | Some l => DbOk (fold_left (fun l tm => set_descs tm.1 tm.2 l) l types)
  | None => DbError
  end.

(** What fetching the indexes gives (cran/repodb.go 152-264): results in the order of
    their arrival, or [None] when log.Fatal ends the program (line 168). *)
Definition arrivals := option (list (source_type * option (gmap string desc))).

(** cran/repodb.go 142-272: after the cache file was looked at; [s] is the text that is
    written if it comes to that. *)
Definition refetch (now : Z) (types : db_maps) (a : arrivals) (s : string) (how : writing) (p : db_place) : fetched * db_place :=
  match a with
  | None => (DbEnded, p)
  | Some ar =>
      let '(l, errors) := collect_indexes ar types 0 in
      if ((1 <? length l)%nat && (errors =? length l)%nat)%bool then (DbError, p)
      else encode now l s how p
  end.

(** cran/repodb.go 119-272: [FetchPackages]; [rm]: whether the old file can be removed
    (136-139), which is only told. *)
Definition fetch_db (g : gob) (now : Z) (env : option string) (types : db_maps) (a : arrivals) (s : string)
    (how : writing) (rm : bool) (p : db_place) : fetched * db_place :=
  match p with
  | PNothing => refetch now types a s how PNothing
  | PBad => (DbPanic, PBad)
  | PFile mtime bytes =>
      if (mtime + max_age env >? now)%Z then (decode g bytes types, p)
      else refetch now types a s how (if rm then PNothing else p)
  end.

(** One use of the file after the other, by runs of pkgr with the same hash
    (cran/repodb.go 86-101, 119-272). *)
Record db_use := {
  u_now : Z; u_env : option string; u_types : db_maps; u_arrivals : arrivals; u_text : string; u_how : writing; u_rm : bool
}.

(** cran/repodb.go 119-272 for one use. *)
Definition use_db (g : gob) (u : db_use) (p : db_place) : fetched * db_place :=
  fetch_db g (u_now u) (u_env u) (u_types u) (u_arrivals u) (u_text u) (u_how u) (u_rm u) p.

(** cran/repodb.go 119-272, again and again: the results and the file at last. *)
Fixpoint uses (g : gob) (us : list db_use) (p : db_place) : list fetched * db_place :=
  match us with
  | [] => ([], p)
  | u :: us' =>
      let '(r, p') := use_db g u p in
      let '(rs, p'') := uses g us' p' in (r :: rs, p'')
  end.
