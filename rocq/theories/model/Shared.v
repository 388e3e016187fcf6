(** The map of downloads that goroutines share: cran/sync.go. *)
From stdpp Require Import strings list gmap.
From Verif.model Require Import GoStr.

Local Open Scope string_scope.

(** cran/sync.go 19-39: an operation; a Download is left open as a [V]. *)
Inductive op (V : Type) := Put (k : string) (v : V) | Delete (k : string) | Get (k : string).
Arguments Put {V}. Arguments Delete {V}. Arguments Get {V}.

(** cran/sync.go 20, 27: Put and Delete take the lock, Get (35) the one for readers. *)
Definition is_write {V} (o : op V) : bool := match o with Get _ => false | _ => true end.

(** cran/sync.go 21, 28, 36: what is done with the map, and what Get gives. *)
Definition apply {V} (o : op V) (m : gmap string V) : gmap string V * option V :=
  match o with
  | Put k v => (<[k := v]> m, None)
  | Delete k => (delete k m, None)
  | Get k => (m, m !! k)
  end.

(** cran/sync.go 18-39: a goroutine in its operations: between them; with the lock, before
    the map is used; while it is used; afterwards, with the lock. *)
Inductive goroutine (V : Type) :=
| Between (l : list (op V)) | Locked (o : op V) (l : list (op V)) | Using (o : op V) (l : list (op V)) | Used (o : op V) (l : list (op V)).
Arguments Between {V}. Arguments Locked {V}. Arguments Using {V}. Arguments Used {V}.

(** cran/sync.go 8-11: the goroutines, the RWMutex (whether it is locked, and the number of
    readers), the map, the uses of the map that are over with their results, and whether
    the runtime has found concurrent uses of the map, one of them a write. *)
Record shared (V : Type) := Shared {
  sh_all : list (goroutine V); sh_locked : bool; sh_readers : nat; sh_map : gmap string V;
  sh_done : list (nat * op V * option V); sh_crashed : bool
}.
Arguments Shared {V}. Arguments sh_all {V}. Arguments sh_locked {V}. Arguments sh_readers {V}.
Arguments sh_map {V}. Arguments sh_done {V}. Arguments sh_crashed {V}.

(** sync.RWMutex (library), as used in cran/sync.go 20, 27, 35: Lock waits for writers and readers, RLock for writers.  That
    RLock also waits behind a waiting Lock is left out, so more orders are possible here. *)
Definition may_lock {V} (o : op V) (s : shared V) : bool :=
  negb (sh_locked s) && (if is_write o then (sh_readers s =? 0)%nat else true).

(** The check of the runtime for concurrent uses of a map, in cran/sync.go 21, 28, 36. *)
Definition in_conflict {V} (o : op V) (l : list (goroutine V)) : bool :=
  existsb (fun t => match t with Using o' _ => is_write o || is_write o' | _ => false end) l.

(** cran/sync.go 13-16: NewPkgMap, and goroutines that will use the map. *)
Definition new_shared {V} (programs : list (list (op V))) : shared V := Shared (map Between programs) false 0 ∅ [] false.

(** cran/sync.go 18-39: one step of one goroutine. *)
Inductive share {V} : shared V -> shared V -> Prop :=
(** 20, 27, 35 *)
| share_lock i o l ts w r m d c :
    ts !! i = Some (Between (o :: l)) -> may_lock o (Shared ts w r m d c) = true ->
    share (Shared ts w r m d c)
          (Shared (<[i := Locked o l]> ts) (if is_write o then true else w) (if is_write o then r else S r) m d c)
(** 21, 28, 36: the use of the map begins *)
| share_begin i o l ts w r m d c :
    ts !! i = Some (Locked o l) ->
    share (Shared ts w r m d c) (Shared (<[i := Using o l]> ts) w r m d (c || in_conflict o ts))
(** and ends *)
| share_end i o l ts w r m d c :
    ts !! i = Some (Using o l) ->
    share (Shared ts w r m d c) (Shared (<[i := Used o l]> ts) w r (apply o m).1 (d ++ [(i, o, (apply o m).2)])%list c)
(** 22, 29, 37 *)
| share_unlock i o l ts w r m d c :
    ts !! i = Some (Used o l) ->
    share (Shared ts w r m d c)
          (Shared (<[i := Between l]> ts) (if is_write o then false else w) (if is_write o then r else pred r) m d c).
