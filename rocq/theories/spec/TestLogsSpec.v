(** What the end-to-end tests should find in the log. *)
From stdpp Require Import strings list gmap sorting.
From Coq Require Import Ascii ZArith NArith.
From Verif.model Require Import GoStr Nexus Origins Json Records TestLogs.
From Verif.spec Require Import JsonSpec RecordsSpec.

Local Open Scope string_scope.

(** A reader of JSON that understands all that is JSON. *)
Definition reads_json (parse : string -> option json) : Prop := forall t v, Reads t v -> parse t = Some v.

(** The texts of an origin are UTF-8. *)
Definition utf8_origin (o : origin) : Prop := Utf8 (og_package o) /\ Utf8 (og_repo o) /\ Utf8 (og_version o).

(** The output [t] of pkgr has the messages about [os], in this order, among other records; the
    message occurs in none of these. *)
Inductive logged (timed : bool) : list origin -> string -> Prop :=
| logged_none : logged timed [] ""
| logged_origin time o os t : utf8_origin o -> Utf8 time -> logged timed os t ->
    logged timed (o :: os) (format_entry timed (origin_entry time o) +:+ t)
| logged_other e os t : (forall a b, format_entry timed e <> a +:+ "package repository set" +:+ b) -> logged timed os t ->
    logged timed os (format_entry timed e +:+ t).

(** What should be read for an origin. *)
Definition read_as (o : origin) (m : set_msg) : Prop :=
  sm_msg m = "package repository set" /\ sm_pkg m = og_package o /\ sm_repo m = og_repo o /\ sm_version m = og_version o /\
  (og_user o = true -> sm_relationship m = "user_defined") /\ (og_user o = false -> sm_relationship m = "dependency") /\
  (og_type o = STDefault -> sm_type m = 0%Z) /\ (og_type o = STSource -> sm_type m = 1%Z) /\ (og_type o = STBinary -> sm_type m = 2%Z).

(** The words for the types. *)
Definition type_says (t : source_type) (w : string) : Prop :=
  (t = STSource /\ w = "source") \/ (t = STBinary /\ w = "binary") \/ (t = STDefault /\ w = "unknown").

(** The words for the relationships. *)
Definition relationship_says (user : bool) (w : string) : Prop :=
  (user = true /\ w = "user_defined") \/ (user = false /\ w = "dependency").
