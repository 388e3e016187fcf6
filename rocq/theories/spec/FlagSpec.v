(** The settings that command line, environment and file ask for, and the places that
    paths of the user stand for. *)
From stdpp Require Import strings list.
From Coq Require Import Ascii.
From Verif.spec Require Import StrSpec LibSpec ExtractSpec StartSpec.

Local Open Scope string_scope.

(** The command line comes first, then the environment, then the file, then the default. *)
Definition first_given {A} (flag env file : option A) (default x : A) : Prop :=
  flag = Some x \/ (flag = None /\ env = Some x) \/ (flag = None /\ env = None /\ file = Some x) \/
  (flag = None /\ env = None /\ file = None /\ x = default).

(** A variable that is set to the empty text counts as not set. *)
Definition variable (v v' : option string) : Prop :=
  (v = Some "" /\ v' = None) \/ (v <> Some "" /\ v' = v).

(** The place of a path: a tilde in front stands for the home directory, everything else is
    seen from the directory [dir]. *)
Inductive user_place (home dir : list string) : string -> list string -> Prop :=
| up_home : user_place home dir "~" home
| up_below r l q : pieces r l -> names_path home l q -> user_place home dir ("~/" +:+ r) q
| up_other s q : (forall r, s <> "~" +:+ r) -> stands_for dir s q -> user_place home dir s q.

(** The home of somebody else. *)
Definition other_home (s : string) : Prop := exists c r, s = "~" +:+ String c r /\ c <> "/"%char /\ c <> "\"%char.
