(** What the documentation and the cache directory should be. *)
From stdpp Require Import strings list.
From Coq Require Import Ascii.
From Verif.model Require Import GoStr Fs Docs.
From Verif.spec Require Import StrSpec LibSpec.

Local Open Scope string_scope.

(** The user sees the command called as [words], with the text [text]: each command on the
    way is available. *)
Inductive visible : command -> list string -> string -> Prop :=
| vis_self name av text below : visible (Command name av text below) [name] text
| vis_below name av text below d words text' :
    d ∈ below -> (exists n t l, d = Command n true t l) -> visible d words text' ->
    visible (Command name av text below) (name :: words) text'.

(** How a command is called. *)
Fixpoint call (words : list string) : string :=
  match words with [] => "" | [w] => w | w :: l => w +:+ " " +:+ call l end.

(** All commands have names, made of other characters than underscores and slashes. *)
Inductive named : command -> Prop :=
| named_command name av text below :
    name <> "" -> (forall a b, name <> a +:+ "_" +:+ b) -> (forall a b, name <> a +:+ "/" +:+ b) ->
    (forall d, d ∈ below -> named d) -> named (Command name av text below).
