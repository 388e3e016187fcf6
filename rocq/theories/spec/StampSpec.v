(** What stamping a DESCRIPTION file should do. *)
From stdpp Require Import strings list.
From Coq Require Import Ascii.
From Verif.spec Require Import StrSpec.

Local Open Scope string_scope.

Definition mentions (sub s : string) : Prop := exists a b, s = a +:+ sub +:+ b.

(** The fields written by pkgr. *)
Definition own_field (line : string) : bool :=
  String.prefix "PkgrVersion:" line || String.prefix "PkgrInstallType:" line ||
  String.prefix "PkgrRepositoryURL:" line.

(** A line in which the names of these fields occur anywhere. *)
Definition mentions_own (line : string) : Prop :=
  mentions "PkgrVersion:" line \/ mentions "PkgrInstallType:" line \/ mentions "PkgrRepositoryURL" line.

Definition repository_field (line : string) : bool := String.prefix "Repository:" line.
Definition original_field (line : string) : bool := String.prefix "OriginalRepository:" line.

(** A line that stamping has no business with. *)
Definition foreign (line : string) : bool :=
  negb (own_field line) && negb (repository_field line) && negb (original_field line).

(** Two lines that differ at most in white space at their ends. *)
Definition same_line (x y : string) : Prop :=
  exists s b d, x = s +:+ b /\ y = s +:+ d /\ all_bytes white b = true /\ all_bytes white d = true.

(** Neither starts nor ends with a blank. *)
Definition tidy (n : string) : Prop := forall r, n <> " " +:+ r /\ n <> r +:+ " ".
