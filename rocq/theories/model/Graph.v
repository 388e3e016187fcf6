(** Planning: gpsr/helpers.go, gpsr/dependencies.go, gpsr/solution.go,
    gpsr/pkgs.go, gpsr/install.go. *)
From stdpp Require Import strings list gmap sorting.
From Coq Require Import Ascii ZArith.
From Verif.model Require Import GoStr Version Desc Nexus Pacman.

Local Open Scope string_scope.

(** ** Map iteration order

    Go iterates maps in an unspecified order, chosen anew at every [range].  An
    oracle gives the order for every iteration of an execution; iterations are
    addressed by their position in the call tree, so that different iterations
    are independent. *)
(** The orders of the maps iterated in gpsr/helpers.go 17-82, gpsr/dependencies.go 58,
    77, 90, 98, 114, 136, gpsr/solution.go 30 and cmd/plan.go 181-214. *)
Definition oracle := list nat -> list string -> list string.

(** Part of an execution: the iterations of one call (as in gpsr/helpers.go 60-80). *)
Definition sub (o : oracle) (i : nat) : oracle := fun p => o (i :: p).

(** The order of one iteration, such as gpsr/dependencies.go 136. *)
Definition ask (o : oracle) (l : list string) : list string := o [] l.

(** The only thing Go guarantees: every key is visited exactly once. This is about every
    iteration of a map, such as gpsr/dependencies.go 136. *)
Definition oracle_ok (o : oracle) : Prop := forall p l, o p l ≡ₚ l.

(** ** gpsr/pkgs.go 4-34: [DefaultPackages] *)

(** gpsr/pkgs.go 4-34: the values of the map. *)
Inductive default_kind := KBase | KRecommended.

(** gpsr/pkgs.go 5-18. *)
Definition base_packages : list string :=
  ["base"; "compiler"; "datasets"; "graphics"; "grDevices"; "grid"; "methods"; "parallel";
   "splines"; "stats"; "stats4"; "tcltk"; "tools"; "utils"].

(** gpsr/pkgs.go 19-33. *)
Definition recommended_packages : list string :=
  ["Matrix"; "boot"; "class"; "cluster"; "codetools"; "foreign"; "KernSmooth"; "lattice";
   "MASS"; "mgcv"; "nlme"; "nnet"; "rpart"; "spatial"; "survival"].

(** gpsr/pkgs.go 4-34: a lookup in the map. *)
Definition default_packages (p : string) : option default_kind :=
  if existsb (String.eqb p) base_packages then Some KBase
  else if existsb (String.eqb p) recommended_packages then Some KRecommended
  else None.

(** gpsr/helpers.go 9-15: [isExcludedPackage]. *)
Definition is_excluded (p : string) (no_recommended : bool) : bool :=
  match default_packages p with
  | Some KRecommended => if negb no_recommended then false else true
  | Some KBase => true
  | None => false
  end.

(** gpsr/structs.go 26-40: [PkgDeps], [InstallDeps]. *)
Record pkg_deps := PkgDeps {
  pd_depends : bool; pd_imports : bool; pd_suggests : bool; pd_linkingto : bool;
  pd_no_recommended : bool
}.

(** gpsr/structs.go 36-40: [InstallDeps]. *)
Record install_deps := InstallDeps { id_deps : gmap string pkg_deps; id_default : pkg_deps }.

(** gpsr/dependencies.go 13-37: [Graph], [Node]. *)
Notation graph := (gmap string (list string)) (only parsing).

(** gpsr/helpers.go 18-22: the configuration of a package, or the default. *)
Definition config_for (cfg : install_deps) (p : string) : pkg_deps :=
  default (id_default cfg) (id_deps cfg !! p).

(** gpsr/helpers.go 24-53: one dependency field. *)
Definition usable (nx : nexus) (no_recommended : bool) (r : string) : bool :=
  match get_package nx r with
  | Some _ => negb (is_excluded r no_recommended)
  | None => false
  end.

(** gpsr/helpers.go 24-53: the requirements of one field, in the order in which the map
    is iterated. *)
Definition field_reqs (o : oracle) (nx : nexus) (pd : pkg_deps) (enabled : bool)
    (deps : gmap string dep) : list string :=
  if enabled
  then List.filter (usable nx (pd_no_recommended pd)) (ask o (elements (dom (D := gset string) deps)))
  else [].

(** gpsr/helpers.go 24-53: the three fields one after the other. *)
Definition node_reqs (o : oracle) (nx : nexus) (pd : pkg_deps) (d : desc) : list string :=
  (field_reqs (sub o 0) nx pd (pd_depends pd) (d_depends d) ++
   field_reqs (sub o 1) nx pd (pd_imports pd) (d_imports d) ++
   field_reqs (sub o 2) nx pd (pd_linkingto pd) (d_linkingto d))%list.

(** gpsr/helpers.go 60-69 and 72-80: visit the packages that are not yet in the
    graph; [rec] is the recursive call, [i] numbers the calls for the oracle. *)
Fixpoint visit (rec : oracle -> graph -> desc -> option graph) (o : oracle) (nx : nexus)
    (i : nat) (l : list string) (m : graph) : option graph :=
  match l with
  | [] => Some m
  | r :: l' =>
      if negb (String.eqb r "R") && negb (bool_decide (is_Some (m !! r))) then
        match get_package nx r with
        | Some (d, _) =>
            match rec (sub o i) m d with
            | Some m' => visit rec o nx (S i) l' m'
            | None => None
            end
        | None => visit rec o nx (S i) l' m
        end
      else visit rec o nx (S i) l' m
  end.

(** gpsr/helpers.go 17-82: [appendToGraph]; [None] is fuel exhaustion. *)
Fixpoint append_to_graph (fuel : nat) (cfg : install_deps) (nx : nexus)
    (o : oracle) (m : graph) (d : desc) : option graph :=
  match fuel with
  | 0 => None
  | S fuel' =>
      let pd := config_for cfg (d_package d) in
      let reqs := node_reqs o nx pd d in
      let m1 := <[d_package d := reqs]> m in
      let rec := append_to_graph fuel' cfg nx in
      let sugs := if pd_suggests pd
                  then ask (sub o 3) (elements (dom (D := gset string) (d_suggests d))) else [] in
      match visit rec (sub o 4) nx 0 sugs m1 with
      | Some m2 => visit rec (sub o 5) nx 0 reqs m2
      | None => None
      end
  end.

(** gpsr/solution.go 36-39: the graph of a request. *)
Fixpoint request_graph (fuel : nat) (cfg : install_deps) (nx : nexus) (o : oracle)
    (i : nat) (pkgs : list string) (m : graph) : option graph :=
  match pkgs with
  | [] => Some m
  | p :: l =>
      match append_to_graph fuel cfg nx (sub o i) m (get_package_go nx p).1.1 with
      | Some m' => request_graph fuel cfg nx o (S i) l m'
      | None => None
      end
  end.

(** Enough fuel: one call per available package plus the first one. A bound for the
    recursion of gpsr/helpers.go 17-82, not part of the code. *)
Definition available_names (nx : nexus) : gset string :=
  ⋃ (map (fun db => ⋃ (map (fun tm => dom (D := gset string) tm.2) (db_types db))) (nx_db nx)).

(** A bound for the recursion of gpsr/helpers.go 17-82, not part of the code. *)
Definition graph_fuel (nx : nexus) : nat := S (S (size (available_names nx))).

(** ** gpsr/dependencies.go 53-105: [ResolveLayers] *)

(** gpsr/dependencies.go 53, 85, 104: the results; out of fuel is proved not to
    happen. *)
Inductive layers_result :=
| LayersOk (layers : list (list string))
| LayersCircular
| LayersOutOfFuel.

(** Lines 57-67: the dependency sets. This is gpsr/dependencies.go 57-67. *)
Definition initial_deps (no_recommended : bool) (g : graph) : gmap string (gset string) :=
  (fun deps => list_to_set (List.filter (fun d => negb (is_excluded d no_recommended)) deps)) <$> g.

(** gpsr/dependencies.go 75-81: the nodes without dependencies. *)
Definition ready_set (nd : gmap string (gset string)) : gset string :=
  dom (D := gset string) (filter (fun kv : string * gset string => kv.2 = ∅) nd).

(** Lines 74-102: [acc] is the list of layers found so far, in reverse. This is
    gpsr/dependencies.go 74-102. *)
Fixpoint resolve_loop (fuel : nat) (o : oracle) (i : nat)
    (nd : gmap string (gset string)) (acc : list (list string)) : layers_result :=
  if bool_decide (nd = ∅) then LayersOk (rev acc)
  else match fuel with
       | 0 => LayersOutOfFuel
       | S fuel' =>
           let ready := ready_set nd in
           if bool_decide (ready = ∅) then LayersCircular
           else
             let nd' := (fun deps => deps ∖ ready) <$> filter (fun kv => kv.1 ∉ ready) nd in
             resolve_loop fuel' o (S i) nd' (ask (sub o i) (elements ready) :: acc)
       end.

(** gpsr/dependencies.go 53-105: [ResolveLayers]. *)
Definition resolve_layers (o : oracle) (g : graph) (no_recommended : bool) : layers_result :=
  resolve_loop (size g) o 0 (initial_deps no_recommended g) [].

(** ** gpsr/solution.go 12-95: [ResolveInstallationReqs] *)

(** gpsr/structs.go 9-18: [InstallPlan] without AdditionalPackageSources, which
    is filled in later (cmd/plan.go). *)
Record install_plan := InstallPlan {
  ip_starting : list string;
  ip_depdb : gmap string (list string);
  ip_downloads : list pkg_dl;
  ip_outdated : list outdated_package;
  ip_installed : gmap string desc;
  ip_create_library : bool;
  ip_update : bool
}.

(** gpsr/solution.go 12-95: how [ResolveInstallationReqs] ends; out of fuel is proved
    not to happen. *)
Inductive plan_result :=
| PlanOk (p : install_plan)
| PlanError         (* circular dependency *)
| PlanPanic         (* index out of range *)
| PlanOutOfFuel.

(** Lines 63-78: all packages of the layers, without [p] in the last one. [None] is the
    panic of [resolved[0]]. This is gpsr/solution.go 63-78. *)
Fixpoint later_deps (p : string) (layers : list (list string)) : list string :=
  match layers with
  | [] => []
  | [last] => List.filter (fun q => negb (String.eqb q p)) last
  | l :: ls => (l ++ later_deps p ls)%list
  end.

(** gpsr/solution.go 63-78; [None] is the panic of line 63. *)
Definition all_deps (p : string) (layers : list (list string)) : option (list string) :=
  match layers with
  | [] => None
  | first :: rest => Some (first ++ later_deps p rest)%list
  end.

(** gpsr/solution.go 24-29 with gpsr/install.go 5-15: the default configuration. *)
Definition default_config (no_recommended : bool) : install_deps :=
  InstallDeps ∅ (PkgDeps true true false true no_recommended).

(** gpsr/solution.go 45-81: how the loop ends. *)
Inductive deps_result :=
| DepsOk (db : gmap string (list string))
| DepsError | DepsPanic | DepsOutOfFuel.

(** Lines 45-81: the recorded dependencies of the packages [l]. This is gpsr/solution.go
    45-81. *)
Fixpoint record_deps (fuel : nat) (nx : nexus) (o : oracle) (no_recommended : bool)
    (i : nat) (l : list string) (db : gmap string (list string)) : deps_result :=
  match l with
  | [] => DepsOk db
  | p :: l' =>
      match append_to_graph fuel (default_config no_recommended) nx (sub (sub o i) 0) ∅
              (get_package_go nx p).1.1 with
      | None => DepsOutOfFuel
      | Some g =>
          match resolve_layers (sub (sub o i) 1) g no_recommended with
          | LayersCircular => DepsError
          | LayersOutOfFuel => DepsOutOfFuel
          | LayersOk layers =>
              match all_deps p layers with
              | None => DepsPanic
              | Some deps => record_deps fuel nx o no_recommended (S i) l' (<[p := deps]> db)
              end
          end
      end
  end.

(** Lines 30-33: NoRecommended is forced on the per-package configurations. This is
    gpsr/solution.go 30-33. *)
Definition force_no_recommended (nr : bool) (cfg : install_deps) : install_deps :=
  InstallDeps ((fun pd => PkgDeps (pd_depends pd) (pd_imports pd) (pd_suggests pd)
                            (pd_linkingto pd) nr) <$> id_deps cfg) (id_default cfg).

(** gpsr/dependencies.go 128-142: [Pack]; [keys] is the iteration order of DepDb. *)
Definition pack (nx : nexus) (starting keys : list string) : list pkg_dl :=
  map (fun p => let '(d, c, _) := get_package_go nx p in PkgDl c d) (starting ++ keys)%list.

(** gpsr/solution.go 12-95: [ResolveInstallationReqs]. *)
Definition resolve_installation_reqs (o : oracle) (pkgs : list string)
    (preinstalled : gmap string desc) (cfg : install_deps) (nx : nexus)
    (update library_exists no_recommended : bool) : plan_result :=
  let cfg := force_no_recommended no_recommended cfg in
  match request_graph (graph_fuel nx) cfg nx (sub o 0) 0 pkgs ∅ with
  | None => PlanOutOfFuel
  | Some g =>
      match resolve_layers (sub o 1) g no_recommended with
      | LayersCircular => PlanError
      | LayersOutOfFuel => PlanOutOfFuel
      | LayersOk layers =>
          match record_deps (graph_fuel nx) nx (sub o 2) no_recommended 0
                  (concat (tail layers)) ∅ with
          | DepsError => PlanError
          | DepsPanic => PlanPanic
          | DepsOutOfFuel => PlanOutOfFuel
          | DepsOk db =>
              let names := ask (sub o 3) (elements (dom (D := gset string) preinstalled)) in
              match get_outdated preinstalled (ap_packages (get_packages nx names)) with
              | None => PlanPanic
              | Some outdated =>
                  match layers with
                  | [] => PlanPanic
                  | starting :: _ =>
                      PlanOk (InstallPlan starting db
                        (pack nx starting (ask (sub o 4) (elements (dom (D := gset string) db))))
                        outdated preinstalled (negb library_exists) update)
                  end
              end
          end
      end
  end.

(** ** Derived data of a plan *)

(** Insertion sort standing for [sort.Strings] (byte order). Used in
    gpsr/dependencies.go 123 and cmd/inspect.go 67, 102. *)
Definition str_leb (a b : string) : bool :=
  match String.compare a b with Gt => false | _ => true end.

(** A step of the sorting in gpsr/dependencies.go 123. *)
Fixpoint insert_sorted (x : string) (l : list string) : list string :=
  match l with
  | [] => [x]
  | y :: l' => if str_leb x y then x :: l else y :: insert_sorted x l'
  end.

(** [sort.Strings], as in gpsr/dependencies.go 123 and cmd/inspect.go 67, 102. *)
Fixpoint sort_strings (l : list string) : list string :=
  match l with [] => [] | x :: l' => insert_sorted x (sort_strings l') end.

(** gpsr/dependencies.go 111-126: [InvertDependencies]; [keys] is the iteration
    order over DepDb. *)
Fixpoint invert_one (pkg : string) (deps : list string) (idb : gmap string (list string))
    : gmap string (list string) :=
  match deps with
  | [] => idb
  | p :: l => invert_one pkg l (<[p := (default [] (idb !! p) ++ [pkg])%list]> idb)
  end.

(** gpsr/dependencies.go 114-120. *)
Fixpoint invert_loop (depdb : gmap string (list string)) (keys : list string)
    (idb : gmap string (list string)) : gmap string (list string) :=
  match keys with
  | [] => idb
  | k :: l => invert_loop depdb l (invert_one k (default [] (depdb !! k)) idb)
  end.

(** gpsr/dependencies.go 111-126: [InvertDependencies]. *)
Definition invert_dependencies (depdb : gmap string (list string)) (keys : list string)
    : gmap string (list string) :=
  sort_strings <$> invert_loop depdb keys ∅.

(** gpsr/dependencies.go 144-153: [GetAllPackages]; [additional] are the keys of
    AdditionalPackageSources, [keys] those of DepDb, in iteration order. *)
Definition get_all_packages (p : install_plan) (keys additional : list string) : list string :=
  (ip_starting p ++ keys ++ additional)%list.

(** gpsr/dependencies.go 155-177: [GetNumPackagesToInstall]. *)
Definition num_to_install (p : install_plan) (keys additional : list string) : Z :=
  let required := get_all_packages p keys additional in
  let installed_required :=
    List.filter (fun q => existsb (String.eqb q) required && negb (existsb (String.eqb q) additional))
      (elements (dom (D := gset string) (ip_installed p))) in
  let to_update := if ip_update p then length (ip_outdated p) else 0 in
  (Z.of_nat (length required) - Z.of_nat (length installed_required) + Z.of_nat to_update)%Z.
