(** What settings should be. *)
From stdpp Require Import strings list.
From Coq Require Import Ascii ZArith NArith.
From Verif.model Require Import GoStr.
From Verif.spec Require Import StrSpec VersionSpec YmlSpec.

Local Open Scope string_scope.

(** [p] occurs in [l]. *)
Definition occurs (p l : string) : Prop := exists a b, l = a +:+ p +:+ b.

(** The rest of a line after a word. *)
Definition after_word (s : string) : Prop := s = "" \/ exists r, s = String " " r.

(** The first lines of R --version. *)
Definition version_line_of (a b c : list nat) (rest : string) : string :=
  "R version " +:+ numeral_text a +:+ "." +:+ numeral_text b +:+ "." +:+ numeral_text c +:+ rest.

Definition platform_line_of (p rest : string) : string := "Platform: " +:+ p +:+ rest.

Definition small_numeral (ds : list nat) : Prop := numeral_ok ds /\ (numeral_value ds < 2 ^ 63)%Z.

(** A word: not empty, no white space. *)
Definition a_word (s : string) : Prop := s <> "" /\ all_bytes (fun c => negb (white c)) s = true.

(** A line without information about the version. *)
Definition other_line (l : string) : Prop := ~ occurs "R version" l /\ ~ occurs "Platform:" l.

(** The library a configuration asks for: --library, then PKGR_LIBRARY unless
    empty, then Library in the file. *)
Definition asks_for (flag env file : option string) (l : string) : Prop :=
  flag = Some l
  \/ (flag = None /\ env = Some l /\ l <> "")
  \/ (flag = None /\ (env = None \/ env = Some "") /\ file = Some l).

(** Nothing, or an empty text, is asked for. *)
Definition asks_nothing (flag env file : option string) : Prop := forall l, asks_for flag env file l -> l = "".

(** One component of a path. *)
Definition plain_name (s : string) : Prop :=
  s <> "" /\ s <> "." /\ s <> ".." /\ all_bytes (fun d => negb (Ascii.eqb "/" d)) s = true.

(** What a path given by the user stands for, given the home directory: a tilde in
    front means the home directory; [None]: it is an error (homes of others). *)
Inductive home_path (home : string) : string -> option string -> Prop :=
| hp_other s : (forall r, s <> "~" +:+ r) -> home_path home s (Some s)
| hp_home l : l <> [] -> (forall x, x ∈ l -> plain_name x) -> home = "/" +:+ join "/" l -> home_path home "~" (Some home)
| hp_below l k : l <> [] -> (forall x, x ∈ (l ++ k)%list -> plain_name x) -> home = "/" +:+ join "/" l -> k <> [] ->
    home_path home ("~/" +:+ join "/" k) (Some ("/" +:+ join "/" (l ++ k)%list))
| hp_user c r : c <> "/"%char -> c <> "\"%char -> home_path home ("~" +:+ String c r) None.
