(** pkgr inspect: cmd/inspect.go. *)
From stdpp Require Import strings list gmap.
From Coq Require Import Ascii.
From Verif.model Require Import GoStr Graph.

Local Open Scope string_scope.

(** cmd/inspect.go 118-123: A branch of the tree that treeprint prints: a name and the
    branches below it (how the lines are drawn is left out). *)
Inductive dep_tree := DepTree (name : string) (below : list dep_tree).

(** cmd/inspect.go 93-127: What is printed: a JSON record (an empty list stands for
    null), or a tree. *)
Inductive shown :=
| ShownRecord (m : gmap string (list string))
| ShownTree (roots : list dep_tree)
| ShownNothing      (* without --deps *)
| ShownEndless.     (* the recursion does not end; the depth is [fuel] here *)

(** cmd/inspect.go 65-74: [recurseDeps].  Sorting changes the slices of DepDb in
    place, which changes nothing but their order. *)
Fixpoint recurse_deps (fuel : nat) (depdb : gmap string (list string)) (p : string) : option (list dep_tree) :=
  match fuel with
  | 0 => None
  | S f => mapM (fun d => DepTree d <$> recurse_deps f depdb d) (sort_strings (default [] (depdb !! p)))
  end.

(** cmd/inspect.go 116-127: [printDeps]; [keys] is the iteration order over [deps]. *)
Definition print_deps (fuel : nat) (deps : gmap string (list string)) (keys : list string) (tree : bool)
    (depdb : gmap string (list string)) : shown :=
  if tree then
    match mapM (fun p => DepTree p <$> recurse_deps fuel depdb p) keys with
    | Some l => ShownTree l
    | None => ShownEndless
    end
  else ShownRecord deps.

(** cmd/inspect.go 104-108: only the packages named on the command line. *)
Definition keep_deps (all : gmap string (list string)) (args : list string) : gmap string (list string) :=
  fold_left (fun m a => <[a := default [] (all !! a)]> m) args ∅.

(** cmd/inspect.go 90-114: [inspect] from the plan on (--installed-from, lines
    87-90, is [get_installers]).  The oracle gives the
    iteration orders of the maps. *)
Definition inspect (fuel : nat) (o : oracle) (show_deps reverse tree : bool) (args : list string)
    (depdb : gmap string (list string)) : shown :=
  if show_deps then
    let all := sort_strings <$>
      (if reverse then invert_dependencies depdb (ask (sub o 0) (elements (dom (D := gset string) depdb))) else depdb) in
    let deps := match args with [] => all | _ => keep_deps all args end in
    print_deps fuel deps (ask (sub o 1) (elements (dom (D := gset string) deps))) tree depdb
  else ShownNothing.
