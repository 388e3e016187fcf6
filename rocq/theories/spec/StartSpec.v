(** Paths, environment variables and commands, stated on texts. *)
From stdpp Require Import strings list.
From Coq Require Import Ascii.
From Verif.model Require Import GoStr.
From Verif.spec Require Import StrSpec LibSpec ExtractSpec.

Local Open Scope string_scope.

(** The place a path stands for, seen from the directory [dir]. *)
Definition stands_for (dir : list string) (s : string) (p : list string) : Prop :=
  exists x l, pieces s (x :: l) /\
    ((x = "" /\ l <> [] /\ names_path [] l p) \/ (x <> "" /\ names_path dir (x :: l) p)).

Definition no_tilde (s : string) : Prop := forall a b, s <> a +:+ "~" +:+ b.

(** ** Words and the text of a configuration *)

Definition word_start (c : ascii) : Prop :=
  c = "_"%char \/ (exists n, n < 26 /\ (c = ascii_of_nat (65 + n) \/ c = ascii_of_nat (97 + n))).

Definition word_char (c : ascii) : Prop := word_start c \/ exists n, n < 10 /\ c = ascii_of_nat (48 + n).

Definition is_word (s : string) : Prop :=
  exists c r, s = String c r /\ word_start c /\ all_chars word_char r.

Inductive piece := Text (s : string) | Word (n : string) | Braced (n : string).

Definition written (x : piece) : string :=
  match x with Text s => s | Word n => "$" +:+ n | Braced n => "${" +:+ n +:+ "}" end.

Fixpoint all_written (l : list piece) : string :=
  match l with [] => "" | x :: k => written x +:+ all_written k end.

Definition meant (env : string -> string) (x : piece) : string :=
  match x with Text s => s | Word n => env n | Braced n => env n end.

Fixpoint all_meant (env : string -> string) (l : list piece) : string :=
  match l with [] => "" | x :: k => meant env x +:+ all_meant env k end.

(** Where a word without braces ends, no word character follows. *)
Fixpoint readable (l : list piece) : Prop :=
  match l with
  | [] => True
  | x :: k =>
      readable k /\
      match x with
      | Text s => all_chars (fun c => c <> "$"%char) s
      | Word n => is_word n /\ (forall c r, all_written k = String c r -> ~ word_char c)
      | Braced n => is_word n
      end
  end.

(** ** Customizations *)

(** [p] is customized once, with the variables [e]. *)
Definition once {A} (p : string) (l : list (string * A)) (e : A) : Prop :=
  exists a b, l = (a ++ (p, e) :: b)%list /\ (forall e', (p, e') ∉ a) /\ (forall e', (p, e') ∉ b).
