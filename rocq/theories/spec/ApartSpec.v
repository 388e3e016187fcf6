(** Names in the cache. *)
From stdpp Require Import strings list.
From Coq Require Import Ascii.
From Verif.model Require Import Nexus Install Download.
From Verif.spec Require Import LibSpec.

Local Open Scope string_scope.

(** The function gives texts of the length and the digits of an MD5 sum. *)
Definition sum_texts (md5 : string -> string) : Prop :=
  forall s, String.length (md5 s) = 32 /\ all_chars (fun c => c <> "/"%char) (md5 s).

(** Two addresses whose sums begin with the same twelve digits; MD5 is expected
    not to give these for different addresses. *)
Definition same_sum (md5 : string -> string) (u v : string) : Prop :=
  exists h a b, String.length h = 12 /\ md5 u = h +:+ a /\ md5 v = h +:+ b.

(** A repository name that can be the name of a directory. *)
Definition directory_name (s : string) : Prop := all_chars (fun c => c <> "/"%char) s.

(** A version: no slash and no underscore. *)
Definition version_name (s : string) : Prop := all_chars (fun c => c <> "/"%char /\ c <> "_"%char) s.

Definition sensible (w : wanted) : Prop :=
  r_name (w_pkg w) /\ version_name (w_version w) /\ directory_name (ru_name (w_repo w)).

Definition sensible_request (r : request) : Prop :=
  r_name (q_meta_pkg r) /\ version_name (q_meta_version r) /\ directory_name (ru_name (q_repo r)) /\
  directory_name (q_platform r).
