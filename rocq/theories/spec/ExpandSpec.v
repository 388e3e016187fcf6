(** Environment variables in any text. *)
From stdpp Require Import strings list.
From Coq Require Import Ascii.
From Verif.spec Require Import StrSpec LibSpec StartSpec.

Local Open Scope string_scope.

(** Characters that are names on their own after a dollar. *)
Definition alone_name (c : ascii) : Prop :=
  c = "*"%char \/ c = "#"%char \/ c = "$"%char \/ c = "@"%char \/ c = "!"%char \/ c = "?"%char \/ c = "-"%char \/
  exists n, n < 10 /\ c = ascii_of_nat (48 + n).

(** What a text stands for when the variables are given by [env]. *)
Inductive expands (env : string -> string) : string -> string -> Prop :=
| ex_end : expands env "" ""
| ex_char c s t : c <> "$"%char -> expands env s t -> expands env (String c s) (String c t)
| ex_last : expands env "$" "$"
| ex_word n s t : is_word n -> (forall c r, s = String c r -> ~ word_char c) -> expands env s t ->
    expands env ("$" +:+ n +:+ s) (env n +:+ t)
| ex_alone c s t : alone_name c -> expands env s t -> expands env (String "$" (String c s)) (env (String c "") +:+ t)
| ex_braced n s t : n <> "" -> all_chars (fun c => c <> "}"%char) n -> expands env s t ->
    expands env ("${" +:+ n +:+ "}" +:+ s) (env n +:+ t)
(** mistakes: empty braces, a brace that is not closed *)
| ex_empty s t : expands env s t -> expands env ("${}" +:+ s) t
| ex_open s t : all_chars (fun c => c <> "}"%char) s -> expands env s t -> expands env ("${" +:+ s) t
(** any other dollar stays *)
| ex_dollar c s t : ~ word_char c -> ~ alone_name c -> c <> "{"%char -> expands env (String c s) t ->
    expands env (String "$" (String c s)) (String "$" t).
