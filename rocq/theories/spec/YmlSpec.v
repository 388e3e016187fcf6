(** Text files as lists of lines, and the Packages section of a configuration. *)
From stdpp Require Import strings list.
From Coq Require Import Ascii NArith.
From Verif.spec Require Import StrSpec.

Local Open Scope string_scope.

Definition lf : ascii := ascii_of_nat 10.
Definition cr : ascii := ascii_of_nat 13.

(** A line: no line feed inside. *)
Definition is_line (s : string) : Prop := all_bytes (fun c => negb (Ascii.eqb c lf)) s = true.

(** The file consisting of these lines, each ended by a line feed. *)
Fixpoint text (lines : list string) : string :=
  match lines with [] => "" | l :: r => l +:+ String lf (text r) end.

(** A line as editors on Unix write them: short and without carriage returns at its end. *)
Definition unix_line (s : string) : Prop :=
  is_line s /\ (N.of_nat (String.length s) < 65536)%N /\ forall r, s <> r +:+ String cr "".

(** Blanks, a dash, blanks and the name, then only white space. *)
Definition item (name line : string) : Prop :=
  exists a s b, line = a +:+ "- " +:+ s +:+ name +:+ b /\ all_bytes (Ascii.eqb " ") a = true /\
    all_bytes (Ascii.eqb " ") s = true /\ all_bytes white b = true.

(** A list item, whatever it contains. *)
Definition list_item (line : string) : Prop := exists a b, line = a +:+ "-" +:+ b /\ all_bytes white a = true.

(** Blanks, a dash, a blank and a text starting with the name. *)
Definition item_like (name line : string) : Prop :=
  exists a b, line = a +:+ "- " +:+ name +:+ b /\ all_bytes (Ascii.eqb " ") a = true.

(** A line that starts the section, and a line that belongs to the section
    above it: indented, a list item, a comment or empty. *)
Definition packages_key (line : string) : bool := String.prefix "Packages:" line.
Definition inside (line : string) : bool :=
  match line with "" => true | String c _ => Ascii.eqb c " " || Ascii.eqb c "-" || Ascii.eqb c "#" end.

(** Line number [i] lies in a Packages section. *)
Definition in_packages (lines : list string) (i : nat) : Prop :=
  exists j l, j < i /\ lines !! j = Some l /\ packages_key l = true /\
    forall k m, j < k <= i -> lines !! k = Some m -> inside m = true.

(** The lines that are kept when the items naming [name] are deleted. *)
Inductive deletes (P : nat -> string -> Prop) : nat -> list string -> list string -> Prop :=
| del_nil i : deletes P i [] []
| del_drop i l r r' : P i l -> deletes P (S i) r r' -> deletes P i (l :: r) r'
| del_keep i l r r' : ~ P i l -> deletes P (S i) r r' -> deletes P i (l :: r) (l :: r').
