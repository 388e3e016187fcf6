(** What a map shared by goroutines should be. *)
From stdpp Require Import strings list gmap relations.
From Verif.model Require Import GoStr Shared.

(** The operations, one after the other, on a map of its own, give these results and lead
    to the map [m']. *)
Inductive in_turn {V} : gmap string V -> list (nat * op V * option V) -> gmap string V -> Prop :=
| turn_none m : in_turn m [] m
| turn_put m i k v l m' : in_turn (<[k := v]> m) l m' -> in_turn m ((i, Put k v, None) :: l) m'
| turn_delete m i k l m' : in_turn (delete k m) l m' -> in_turn m ((i, Delete k, None) :: l) m'
| turn_get m i k l m' : in_turn m l m' -> in_turn m ((i, Get k, m !! k) :: l) m'.

(** The operations of goroutine [i]. *)
Definition of_one {V} (i : nat) (l : list (nat * op V * option V)) : list (op V) :=
  map (fun x => x.1.2) (List.filter (fun x => bool_decide (x.1.1 = i)) l).

(** All goroutines are through. *)
Definition all_through {V} (s : shared V) : Prop := forall t, t ∈ sh_all s -> t = Between [].
