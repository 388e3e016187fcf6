(** The lines R prints for --version, and traceability matrices without issues. *)
From stdpp Require Import strings list.
From Coq Require Import Ascii ZArith.
From Verif.model Require Import GoStr Fs Config Valtools.
From Verif.spec Require Import StrSpec EnvSpec ConfigSpec ExactSpec ValSpec.

Local Open Scope string_scope.

(** A line without white space around it and without the index R puts before printed values. *)
Definition tidy (l : string) : Prop :=
  (forall c r, l = String c r -> white c = false /\ c <> "["%char) /\
  (forall r c, l = r +:+ String c "" -> white c = false).

Definition about_version (l : string) : Prop := exists r, l = "R version" +:+ r.
Definition about_platform (l : string) : Prop := exists r, l = "Platform:" +:+ r.

(** The third word, between single blanks, consists of three parts with dots between them. *)
Definition gives_version (l a b c : string) : Prop :=
  exists x y rest, l = x +:+ " " +:+ y +:+ " " +:+ a +:+ "." +:+ b +:+ "." +:+ c +:+ rest /\
    without " " x /\ without " " y /\ after_word rest /\
    (without "." a /\ without "." b /\ without "." c) /\ (without " " a /\ without " " b /\ without " " c).

(** The second word. *)
Definition gives_platform (l p : string) : Prop :=
  exists x rest, l = x +:+ " " +:+ p +:+ rest /\ without " " x /\ without " " p /\ after_word rest.

(** A line that can be read. *)
Definition readable_line (l : string) : Prop :=
  (about_version l -> exists a b c, gives_version l a b c) /\ (about_platform l -> exists p, gives_platform l p).

(** [l] is the last of the lines with [P]. *)
Definition last_with (P : string -> Prop) (lines : list string) (l : string) : Prop :=
  exists pre post, lines = (pre ++ l :: post)%list /\ P l /\ forall x, x ∈ post -> ~ P x.

(** What is read from the lines: the version of the last line about it, 0.0.0 without one, and
    likewise the platform.  The first line that cannot be read ends the program. *)
Definition version_read_as (lines : list string) (v : version_data) : Prop :=
  match v with
  | VData ma mi pa p =>
      (forall l, l ∈ lines -> readable_line l) /\
      ((exists l a b c, last_with about_version lines l /\ gives_version l a b c /\
          ma = number_in a /\ mi = number_in b /\ pa = number_in c) \/
       (forall l, l ∈ lines -> ~ about_version l) /\ ma = 0%Z /\ mi = 0%Z /\ pa = 0%Z) /\
      ((exists l, last_with about_platform lines l /\ gives_platform l p) \/
       (forall l, l ∈ lines -> ~ about_platform l) /\ p = "")
  | VFatal => exists pre l post, lines = (pre ++ l :: post)%list /\ (forall x, x ∈ pre -> readable_line x) /\
      about_version l /\ forall a b c, ~ gives_version l a b c
  | VPanic => exists pre l post, lines = (pre ++ l :: post)%list /\ (forall x, x ∈ pre -> readable_line x) /\
      about_platform l /\ forall p, ~ gives_platform l p
  end.

(** * checkmat *)

(** There is something at [p], and nothing above it is a file. *)
Definition present (f : fsys) (p : path) : Prop := f p <> None /\ ~ blocked f p.

(** No issue is found with an entry; the name "." is accepted for the directory of the
    project, and an entry may have neither documentation nor a name. *)
Definition entry_passes (top : path) (f : fsys) (e : entry) : Prop :=
  (forall x, file_of e x -> x = "." /\ present f top \/ exists k, names x k /\ present f (top ++ k)%list) /\
  (en_skip e = false ->
     ((en_doc e = "" \/ en_doc e = ".") /\ en_point e = "") \/
     exists k x, names (en_doc e) (k ++ [x])%list /\ documents x (en_point e)).
