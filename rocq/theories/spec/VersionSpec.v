(** Independent vocabulary for versions: version texts as separators and
    decimal numerals, and the numeric lexicographic order with missing
    components read as zero. *)
From stdpp Require Import strings list.
From Coq Require Import Ascii ZArith.

Local Open Scope string_scope.

(** A numeral is a list of decimal digits, most significant first. *)
Notation numeral := (list nat) (only parsing).

Definition numeral_ok (ds : numeral) : Prop := ds <> [] /\ Forall (fun d => d < 10) ds.

Definition numeral_value (ds : numeral) : Z :=
  fold_left (fun acc d => acc * 10 + Z.of_nat d)%Z ds 0%Z.

Fixpoint numeral_text (ds : numeral) : string :=
  match ds with
  | [] => ""
  | d :: r => String (ascii_of_nat (48 + d)) (numeral_text r)
  end.

(** A decimal integer of 64 bits, possibly signed. *)
Definition int_text (s : string) (z : Z) : Prop :=
  exists ds, numeral_ok ds /\
    (((s = numeral_text ds \/ s = String "+" (numeral_text ds)) /\ z = numeral_value ds /\ z < 2 ^ 63) \/
     (s = String "-" (numeral_text ds) /\ z = - numeral_value ds /\ - 2 ^ 63 <= z))%Z.

(** A version text: a first numeral and then separator/numeral pairs. *)
Inductive separator := SepDot | SepDash.

Definition separator_char (s : separator) : ascii :=
  match s with SepDot => "."%char | SepDash => "-"%char end.

Record vtext := VText { vt_head : numeral; vt_tail : list (separator * numeral) }.

Fixpoint tail_text (l : list (separator * numeral)) : string :=
  match l with
  | [] => ""
  | (s, ds) :: r => String (separator_char s) (numeral_text ds +:+ tail_text r)
  end.

Definition vtext_text (v : vtext) : string := numeral_text (vt_head v) +:+ tail_text (vt_tail v).

Definition vtext_numerals (v : vtext) : list numeral := vt_head v :: (vt_tail v).*2.

Definition vtext_values (v : vtext) : list Z := numeral_value <$> vtext_numerals v.

(** Every component is a numeral that fits a 64-bit signed integer. *)
Definition vtext_ok (v : vtext) : Prop :=
  Forall (fun ds => numeral_ok ds /\ (numeral_value ds < 2 ^ 63)%Z) (vtext_numerals v).

(** Numeric lexicographic comparison, missing components are zero. *)
Fixpoint lex_compare_zero (l : list Z) : comparison :=
  match l with
  | [] => Eq
  | x :: r => match Z.compare x 0 with Eq => lex_compare_zero r | c => c end
  end.

Fixpoint lex_compare (l k : list Z) : comparison :=
  match l, k with
  | [], _ => CompOpp (lex_compare_zero k)
  | _, [] => lex_compare_zero l
  | x :: l', y :: k' => match Z.compare x y with Eq => lex_compare l' k' | c => c end
  end.

Definition sign_of (c : comparison) : Z :=
  match c with Lt => -1 | Eq => 0 | Gt => 1 end.

(** Relational operators of dependency entries. *)
Inductive relop := OpEq | OpGe | OpGt | OpLe | OpLt.

Definition relop_text (o : relop) : string :=
  match o with OpEq => "==" | OpGe => ">=" | OpGt => ">" | OpLe => "<=" | OpLt => "<" end.

(** The meaning of an operator, given the comparison of the actual version with
    the version of the constraint. *)
Definition relop_holds (o : relop) (c : comparison) : Prop :=
  match o, c with
  | OpEq, Eq | OpGe, Eq | OpGe, Gt | OpGt, Gt | OpLe, Eq | OpLe, Lt | OpLt, Lt => True
  | _, _ => False
  end.
