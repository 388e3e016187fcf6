(** What the command load should do. *)
From stdpp Require Import strings list gmap.
From Coq Require Import Ascii ZArith NArith.
From Verif.model Require Import GoStr Fs.
From Verif.spec Require Import StrSpec YmlSpec ConfigSpec.

Local Open Scope string_scope.

Definition quote : string := String (ascii_of_nat 34) "".

(** Digits, at least one and at most twenty. *)
Definition digits (s : string) : Prop :=
  s <> "" /\ String.length s <= 20 /\ all_bytes (fun c => (48 <=? nat_of_ascii c)%nat && (nat_of_ascii c <=? 57)%nat) s = true.

(** A text that R prints as it is between quotes: no quotes, no line ends. *)
Definition plain_text (s : string) : Prop :=
  all_bytes (fun c => negb (nat_of_ascii c =? 34)%nat && negb (nat_of_ascii c =? 10)%nat) s = true /\
  (N.of_nat (String.length s) < 30000)%N.

(** A row of a character vector as R prints it, with one text. *)
Definition row (index s : string) : string := "[" +:+ index +:+ "] " +:+ quote +:+ s +:+ quote.

(** A line that is not changed by removing row numbers and blanks around it. *)
Definition bare_line (s : string) : Prop :=
  unix_line s /\ (exists c r, s = String c r /\ white c = false /\ (nat_of_ascii c < 128)%nat /\ c <> "["%char) /\
  (exists r c, s = r +:+ String c "" /\ white c = false /\ (nat_of_ascii c < 128)%nat).

(** [f] is the last component of the path [s]. *)
Definition ends_in (s f : string) : Prop :=
  plain_name f /\ (s = f \/ exists a, s = a +:+ "/" +:+ f).
