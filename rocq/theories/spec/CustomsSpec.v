(** Customizations of packages as they are written: C154. *)
From stdpp Require Import strings list gmap.
From Coq Require Import Ascii ZArith.
From Verif.model Require Import Graph Plan Nexus Customs.

Local Open Scope string_scope.

(** The value written for a package in some element of the list. *)
Definition writes (l : list element) (p : string) (v : package_value) : Prop :=
  exists m, EMap m ∈ l /\ (p, v) ∈ m.

(** A package is at most once in an element. *)
Definition go_maps (l : list element) : Prop := forall m, EMap m ∈ l -> NoDup m.*1.

(** Every element is a map. *)
Definition all_elements_maps (l : list element) : Prop := forall e, e ∈ l -> exists m, e = EMap m.

(** Every element is a map, with each package once, and every package has a map of
    settings. *)
Definition all_maps (l : list element) : Prop :=
  forall e, e ∈ l -> exists m, e = EMap m /\ NoDup m.*1 /\ forall p v, (p, v) ∈ m -> exists k, v = VMap k.

(** The settings of the packages as they are written: each setting with its value, under its
    name. *)
Definition value_of (v : package_value) (key : string) (w : written) : Prop :=
  exists k, v = VMap k /\ (key, w) ∈ k.

(** The keys of all packages are written as in the documentation, each once. *)
Definition documented_keys (l : list element) : Prop :=
  forall p k, writes l p (VMap k) -> NoDup k.*1 /\ forall key, key ∈ k.*1 -> key ∈ ["Suggests"; "Env"; "Repo"; "Type"].

(** No package is written twice. *)
Definition once (l : list element) : Prop :=
  NoDup (concat (map (fun e => match e with EMap m => m.*1 | _ => [] end) l)).

(** What a value means for a setting that is true or false. *)
Inductive reads_bool : written -> bool -> Prop :=
| reads_null : reads_bool WNull false
| reads_bool_itself b : reads_bool (WBool b) b
| reads_zero : reads_bool (WInt 0) false
| reads_number z : z <> 0%Z -> reads_bool (WInt z) true
| reads_empty : reads_bool (WText "") false
| reads_true s : s ∈ ["1"; "t"; "T"; "true"; "TRUE"; "True"] -> reads_bool (WText s) true
| reads_false s : s ∈ ["0"; "f"; "F"; "false"; "FALSE"; "False"] -> reads_bool (WText s) false.

(** A value that cannot be used. *)
Definition unusable (v : package_value) : Prop :=
  (exists w, value_of v "Suggests" w /\ forall b, ~ reads_bool w b) \/ value_of v "Repo" WMany \/ value_of v "Type" WMany.
