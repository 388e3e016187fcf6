(** The lines of /etc/os-release, see os-release(5): blank lines, comments, and
    assignments of plain or quoted values. *)
From stdpp Require Import strings list gmap.
From Coq Require Import Ascii ZArith.
From Verif.spec Require Import StrSpec.

Local Open Scope string_scope.

Inductive os_line := LBlank | LComment (t : string) | LPlain (k v : string) | LQuoted (k v : string).

Definition double_quote : string := String (ascii_of_nat 34) "".

Definition os_line_text (l : os_line) : string :=
  match l with
  | LBlank => ""
  | LComment t => "#" +:+ t
  | LPlain k v => k +:+ "=" +:+ v
  | LQuoted k v => k +:+ "=" +:+ double_quote +:+ v +:+ double_quote
  end.

(** The text of a file: every line ends with a line feed. *)
Fixpoint os_text (ls : list os_line) : string :=
  match ls with
  | [] => ""
  | l :: r => os_line_text l +:+ String (ascii_of_nat 10) (os_text r)
  end.

(** Variable names. *)
Definition name_byte (c : ascii) : bool :=
  let n := nat_of_ascii c in (((65 <=? n) && (n <=? 90)) || ((48 <=? n) && (n <=? 57)) || (n =? 95))%nat.

(** Bytes of a comment: no control characters. *)
Definition comment_byte (c : ascii) : bool :=
  let n := nat_of_ascii c in ((32 <=? n) && negb (n =? 127))%nat.

(** Bytes of a plain value: printable ASCII without quotes and backslash. *)
Definition plain_byte (c : ascii) : bool :=
  let n := nat_of_ascii c in ((33 <=? n) && (n <=? 126) && negb (n =? 34) && negb (n =? 39) && negb (n =? 92))%nat.

(** Bytes of a quoted value: no control characters, quote and backslash. *)
Definition quoted_byte (c : ascii) : bool :=
  let n := nat_of_ascii c in ((32 <=? n) && negb (n =? 127) && negb (n =? 34) && negb (n =? 92))%nat.

Definition os_line_ok (l : os_line) : Prop :=
  match l with
  | LBlank => True
  | LComment t => all_bytes comment_byte t = true
  | LPlain k v => k <> "" /\ all_bytes name_byte k = true /\ all_bytes plain_byte v = true
  | LQuoted k v => k <> "" /\ all_bytes name_byte k = true /\ all_bytes quoted_byte v = true
  end.

(** What the program does not read: an empty plain value, a quoted value with an
    equals sign, and a comment that ends with one. *)
Definition os_line_simple (l : os_line) : Prop :=
  match l with
  | LBlank => True
  | LComment t => forall a, t <> a +:+ "="
  | LPlain k v => v <> ""
  | LQuoted k v => all_bytes (fun c => negb (Ascii.eqb c "="%char)) v = true
  end.

Fixpoint assignments (ls : list os_line) : list (string * string) :=
  match ls with
  | [] => []
  | LPlain k v :: r | LQuoted k v :: r => (k, v) :: assignments r
  | _ :: r => assignments r
  end.

(** [v] is the value of [k]; without an assignment it is empty. *)
Definition os_value (ls : list os_line) (k v : string) : Prop :=
  (k, v) ∈ assignments ls \/ v = "" /\ forall w, ~ (k, w) ∈ assignments ls.
