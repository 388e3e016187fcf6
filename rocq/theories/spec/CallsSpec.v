(** The processes of R, stated on environments, arguments and configurations. *)
From stdpp Require Import strings list.
From Coq Require Import Ascii.
From Verif.model Require Import GoStr Start Calls.
From Verif.spec Require Import StrSpec EnvSpec.

Local Open Scope string_scope.

(** The package for which R is run. *)
Definition for_package (u : use) (p : string) : Prop :=
  match u with
  | URun q => q = p
  | UBuild q _ _ _ => q = p
  | UBuilt q _ _ => q = p
  | UCached q _ => q = p
  | UTarball q _ _ => q = p
  | _ => False
  end.

Definition is_load (u : use) : Prop := exists x d, u = ULoad x d.

(** The variables that the configuration gives to a package. *)
Definition customized (c : r_config) (p name : string) : Prop :=
  exists m e v, m ∈ cf_customs c /\ (p, Some e) ∈ m /\ (name, v) ∈ e.

(** The names of variables in the configuration are names, and not those of the library
    paths. *)
Definition plain_customs (c : r_config) : Prop :=
  forall p name, customized c p name -> var_name name /\ name <> "R_LIBS_USER" /\ name <> "R_LIBS_SITE".

(** The library that R is told of in R_LIBS_SITE. *)
Definition site_library (c : r_config) (library : string) (u : use) : option string :=
  match u with
  | URun _ | UExperiment _ => Some (cf_library c)
  | UBuild _ _ _ _ | UBuilt _ _ _ => Some library
  | _ => None
  end.

(** Where R looks for its start-up files and saved data: not at all with this as first
    argument. *)
Definition vanilla (args : list string) : Prop := exists r, args = "--vanilla" :: r.
