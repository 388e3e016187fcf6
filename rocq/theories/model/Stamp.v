(** Stamping the DESCRIPTION file of an installed package. *)
From stdpp Require Import strings list.
From Coq Require Import Ascii.
From Verif.model Require Import GoStr.

Local Open Scope string_scope.

(** rcmd/install.go 604-608: a line that mentions one of the three fields. *)
Definition stamp_line (line : string) : bool :=
  contains "PkgrVersion:" line || contains "PkgrInstallType:" line || contains "PkgrRepositoryURL" line.

(** rcmd/install.go 610: a Repository line naming some other repository. *)
Definition wrong_repository (repo line : string) : bool :=
  has_prefix "Repository:" line && negb (String.eqb (trim_space line) (trim_space ("Repository: " +:+ repo))).

(** rcmd/install.go 611: strings.Trim(strings.Split(line, ":")[1], " "). *)
Definition original_repository (line : string) : string :=
  match split_char ":"%char line with
  | _ :: x :: _ => trim_blank x
  | _ => ""   (* not reached: the line starts with "Repository:" *)
  end.

(** rcmd/install.go 599-616: the loop over the lines. *)
Fixpoint stamp_loop (repo : string) (lines : list string) : list string :=
  match lines with
  | [] => []
  | line :: rest =>
      if stamp_line line then stamp_loop repo rest
      else if wrong_repository repo line then
        ("OriginalRepository: " +:+ original_repository line) :: ("Repository: " +:+ repo) :: stamp_loop repo rest
      else line :: stamp_loop repo rest
  end.

(** rcmd/install.go 594-623: updateDescriptionInfoByLines. *)
Definition stamp (lines : list string) (version install_type url repo : string) : list string :=
  (stamp_loop repo lines ++
   ["PkgrVersion: " +:+ version; "PkgrInstallType: " +:+ install_type; "PkgrRepositoryURL: " +:+ url])%list.
