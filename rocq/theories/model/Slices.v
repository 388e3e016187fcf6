(** The lists of packages of an installation plan as they lie in memory:
    gpsr/dependencies.go 144-153. *)
From stdpp Require Import strings list.
From Coq Require Import Ascii.

Local Open Scope string_scope.

(** The arrays that have been allocated; the length of an array is the capacity of the
    slices that start at it. All slices of gpsr/dependencies.go 144-153 start at the
    beginning of their array. *)
Notation memory := (list (list string)).

(** A slice of Go (language): its array and its length; the type of StartingPackages in
    gpsr/structs.go 10. *)
Record slice := Slice { sl_array : nat; sl_len : nat }.

(** The array of a slice. Used for gpsr/dependencies.go 144-153. *)
Definition array_of (m : memory) (s : slice) : list string := default [] (m !! sl_array s).

(** What is read through a slice, as in cmd/plan.go 310 and rollback/types.go 46. *)
Definition read (m : memory) (s : slice) : list string := take (sl_len s) (array_of m s).

(** The built-in append (language) for one more element, as in gpsr/dependencies.go 147
    and 150: it writes into the array when there is room, and takes a new array
    otherwise. [grow] is the capacity that the runtime chooses for the new array, a
    function of the old length. *)
Definition append1 (grow : nat -> nat) (m : memory) (s : slice) (x : string) : memory * slice :=
  let a := array_of m s in
  if (sl_len s <? length a)%nat then (<[sl_array s := <[sl_len s := x]> a]> m, Slice (sl_array s) (S (sl_len s)))
  else ((m ++ [take (sl_len s) a ++ [x] ++ replicate (grow (sl_len s) - S (sl_len s)) ""])%list,
        Slice (length m) (S (sl_len s))).

(** gpsr/dependencies.go 146-151: the two loops, one after the other. *)
Fixpoint append_all (grow : nat -> nat) (m : memory) (s : slice) (xs : list string) : memory * slice :=
  match xs with
  | [] => (m, s)
  | x :: xs' => let '(m', s') := append1 grow m s x in append_all grow m' s' xs'
  end.

(** gpsr/dependencies.go 144-153: GetAllPackages of a plan whose StartingPackages are
    the slice [start]; [keys] and [additional] as in Graph.get_all_packages. *)
Definition all_packages_in (grow : nat -> nat) (m : memory) (start : slice) (keys additional : list string) : memory * slice :=
  append_all grow m start (keys ++ additional)%list.

(** The memory, and the lists that calls of GetAllPackages have returned so far, the
    latest first: those of rollback/types.go 24, cmd/plan.go 263, 281, cmd/load.go 94 and
    rcmd/install.go 418. *)
Record lists := Lists { ls_memory : memory; ls_returned : list slice }.

(** One call of GetAllPackages, or anything else that takes new memory. The plan is the
    same in all calls: the keys of its two maps are [keys] and [additional], each call
    iterates over them in some order. gpsr/dependencies.go 144-153 and 156. *)
Inductive lists_step (grow : nat -> nat) (start : slice) (keys additional : list string) : lists -> lists -> Prop :=
| step_call m rs k a m' r : k ≡ₚ keys -> a ≡ₚ additional -> all_packages_in grow m start k a = (m', r) ->
    lists_step grow start keys additional (Lists m rs) (Lists m' (r :: rs))
| step_other m rs a : lists_step grow start keys additional (Lists m rs) (Lists (m ++ [a])%list rs).
