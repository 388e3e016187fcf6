(** What is said about requests to web servers. *)
From stdpp Require Import strings list gmap.
From Coq Require Import Ascii ZArith NArith.
From Verif.model Require Import GoStr Web.

Local Open Scope string_scope.

(** Each address of [l] sends the client to the next one; the last one answers [s]. *)
Fixpoint follows (n : network) (via : string -> bool) (l : list string) (s : served) : Prop :=
  match l with
  | [] => False
  | u :: l' => match l' with
               | [] => n_served n (via u) u s
               | v :: _ => n_served n (via u) u (SRedirect v) /\ follows n via l' s
               end
  end.

Definition https (u : string) : Prop := exists rest, u = "https://" +:+ rest.
Definition http (u : string) : Prop := exists rest, u = "http://" +:+ rest.

(** The certificate is asked for and is good. *)
Definition vouched (n : network) (via : string -> bool) (u : string) : Prop := https u /\ n_trusted n (via u) u = true.

(** The answer [s] for [url] came along [l], at most ten addresses of the web, the https
    servers among them having shown good certificates. *)
Definition checked_route (n : network) (via : string -> bool) (url : string) (l : list string) (s : served) : Prop :=
  head l = Some url /\ length l <= 10 /\ follows n via l s /\
  forall u, u ∈ l -> vouched n via u \/ http u.

(** No https server sends its clients to another kind of address. *)
Definition stays_https (n : network) : Prop :=
  forall p u v, https u -> n_served n p u (SRedirect v) -> https v.

(** The environment names no proxy. *)
Definition no_proxy (n : network) : Prop := forall u, n_proxy n u = false.
