(** Vocabulary for downloads. *)
From stdpp Require Import strings list gmap.
From Coq Require Import Ascii ZArith.
From Verif.model Require Import GoStr Nexus RepoDb Fs Install Download.

Local Open Scope string_scope.

(** How the downloads of package [p] ended, in order; [None] is an error. *)
Fixpoint outcomes (p : string) (ls : list dlabel) : list (option download) :=
  match ls with
  | [] => []
  | DEnd q o :: r => if String.eqb p q then o :: outcomes p r else outcomes p r
  | _ :: r => outcomes p r
  end.

(** Number of downloads begun and ended. *)
Definition begun (ls : list dlabel) : nat :=
  length (List.filter (fun l => match l with DAcquire _ => true | _ => false end) ls).
Definition ended (ls : list dlabel) : nat :=
  length (List.filter (fun l => match l with DEnd _ _ => true | _ => false end) ls).

(** The file at [dest], if there is one, is what the server has. *)
Definition absent_or_complete (whole : string) (dest : list string) (f : fsys) : Prop :=
  f dest = None \/ f dest = Some (File whole).

(** What a server that has [whole] can answer. *)
Definition honest (whole : string) (r : reply) : Prop :=
  match r with
  | Body c true => c = whole
  | Body c false => exists rest, whole = c +:+ rest
  | _ => True
  end.
