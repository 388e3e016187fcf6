(** What unpacking an archive should do. *)
From stdpp Require Import strings list.
From Coq Require Import Ascii.
From Verif.model Require Import GoStr Fs Extract.
From Verif.spec Require Import LibSpec.

Local Open Scope string_scope.

(** [p] is the path a name stands for below a directory: one name per level,
    "." and empty parts skipped, ".." goes up but never above the directory. *)
Inductive names_path : list string -> list string -> list string -> Prop :=
| np_nil p : names_path p [] p
| np_skip p c l q : c = "" \/ c = "." -> names_path p l q -> names_path p (c :: l) q
| np_up p x l q : names_path p l q -> names_path (p ++ [x])%list (".." :: l) q
| np_down p c l q : c <> "" -> c <> "." -> c <> ".." -> names_path (p ++ [c])%list l q -> names_path p (c :: l) q.

(** The pieces of a name between slashes. *)
Definition pieces (s : string) (l : list string) : Prop :=
  s = join "/" l /\ l <> [] /\ forall x, x ∈ l -> forall a b, x <> a +:+ "/" +:+ b.

(** The tree below [dir] is exactly the archive's. *)
Definition complete (a : archive) (dir : list string) (f : fsys) : Prop :=
  f dir = Some Dir /\
  (forall e, e ∈ a_entries a -> exists l p, pieces (en_name e) l /\ names_path [] l p /\
     match en_kind e with
     | KReg c => f (dir ++ p)%list = Some (File c)
     | KDir => f (dir ++ p)%list = Some Dir
     | _ => False
     end) /\
  (forall p c, f (dir ++ p)%list = Some (File c) -> exists e l, e ∈ a_entries a /\ en_kind e = KReg c /\
     pieces (en_name e) l /\ names_path [] l p).
