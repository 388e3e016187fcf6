(** The plan command: cmd/plan.go 83-342, configlib/config.go 223-236, 294-345. *)
From stdpp Require Import strings list gmap.
From Coq Require Import Ascii ZArith.
From Verif.model Require Import GoStr Version Desc Nexus Pacman Graph.

Local Open Scope string_scope.

(** configlib/structs.go 4-9: the customization of one package.  [cu_keys] are
    the keys written in the configuration file, as seen by
    [IsCustomizationSet]; the other fields are the decoded values (zero values
    for keys that are absent).  Env is in model/Env.v. *)
Record custom := Custom {
  cu_keys : list string; cu_suggests : bool; cu_repo : string; cu_type : string
}.

(** configlib/structs.go 30-34, 11-12, Customizations.Packages: a list of maps; each map
    is given as the list of its entries in iteration order. *)
Definition customs := list (list (string * custom)).

(** configlib/config.go 223-236: [IsCustomizationSet]. *)
Definition is_customization_set (key : string) (cs : customs) (p : string) : bool :=
  existsb (fun m => existsb (fun kv => String.eqb kv.1 p && existsb (String.eqb key) (cu_keys kv.2)) m) cs.

(** configlib/config.go 305-314: [setCfgCustomizations]. *)
Definition with_suggests (pd : pkg_deps) (b : bool) : pkg_deps :=
  PkgDeps (pd_depends pd) (pd_imports pd) b (pd_linkingto pd) (pd_no_recommended pd).

(** configlib/config.go 308-311: a copy of the default with Suggests replaced. *)
Definition set_suggests (p : string) (b : bool) (cfg : install_deps) : install_deps :=
  InstallDeps (<[p := with_suggests (id_default cfg) b]> (id_deps cfg)) (id_default cfg).

(** configlib/config.go 305-314: [setCfgCustomizations]. *)
Definition set_cfg_customizations (suggests : bool) (pkgs : list string) (cfg : install_deps) : install_deps :=
  if suggests then fold_left (fun c p => set_suggests p true c) pkgs cfg else cfg.

(** configlib/config.go 316-345: [setViperCustomizations], one entry; [None] is log.Fatal. *)
Definition apply_custom (cs : customs) (kv : string * custom) (st : install_deps * nexus)
    : option (install_deps * nexus) :=
  let '(p, v) := kv in
  let '(cfg, nx) := st in
  let cfg := if is_customization_set "Suggests" cs p then set_suggests p (cu_suggests v) cfg else cfg in
  match (if is_customization_set "Repo" cs p then set_package_repo nx p (cu_repo v) else Some nx) with
  | None => None
  | Some nx =>
      match (if is_customization_set "Type" cs p then set_package_type nx p (cu_type v) else Some nx) with
      | None => None
      | Some nx => Some (cfg, nx)
      end
  end.

(** configlib/config.go 316-345: [setViperCustomizations]. *)
Fixpoint apply_customs (cs : customs) (l : list (string * custom)) (st : install_deps * nexus)
    : option (install_deps * nexus) :=
  match l with
  | [] => Some st
  | kv :: l' =>
      match apply_custom cs kv st with
      | None => None
      | Some st' => apply_customs cs l' st'
      end
  end.

(** configlib/config.go 294-303: [SetPlanCustomizations].  The settings read by
    viper are those of the decoded configuration. *)
Definition set_plan_customizations (suggests : bool) (pkgs : list string) (cs : customs)
    (cfg : install_deps) (nx : nexus) : option (install_deps * nexus) :=
  apply_customs cs (concat cs) (set_cfg_customizations suggests pkgs cfg, nx).

(** The part of the configuration used for planning (configlib/structs.go 42-63). *)
Record plan_config := PlanConfig {
  cf_packages : list string; cf_ignore : list string; cf_suggests : bool;
  cf_no_recommended : bool; cf_no_update : bool; cf_customs : customs
}.

(** cmd/plan.go 189-193, 205-209: append the names that are not yet there. *)
Definition add_new (pkgs names : list string) : list string :=
  fold_left (fun l n => if existsb (String.eqb n) l then l else (l ++ [n])%list) names pkgs.

(** cmd/plan.go 188-190, 204-206: the names in a map of dependencies. *)
Definition dep_names (deps : gmap string dep) : list string :=
  map (fun kv => dep_name kv.2) (map_to_list deps).

(** Lines 183-209: the packages named by tarballs or DESCRIPTION files. [i] numbers the
    iterations for the oracle; the names of the dependencies are used, not the keys.
    This is cmd/plan.go 183-209. *)
Fixpoint add_desc_deps (o : oracle) (suggests : bool) (i : nat) (descs : list desc) (pkgs : list string)
    : list string :=
  match descs with
  | [] => pkgs
  | d :: l =>
      add_desc_deps o suggests (S i) l
        (add_new pkgs (ask (sub o i) (dep_names (get_combined_dependencies d suggests))))
  end.

(** cmd/plan.go 329-342: [removeBasePackages]. *)
Definition remove_base_packages (pkgs : list string) : list string :=
  List.filter (fun p => match default_packages p with Some KBase => false | _ => true end) pkgs.

(** cmd/plan.go 181-214: the request. *)
Definition plan_request (o : oracle) (cfg : plan_config) (tarballs descriptions : list desc) : list string :=
  remove_base_packages
    (add_desc_deps (sub o 1) true 0 descriptions
       (add_desc_deps (sub o 0) false 0 tarballs (cf_packages cfg))).

(** cmd/plan.go 83-326: how planInstall ends. *)
Inductive planned_install :=
| PIPlan (nx : nexus) (p : install_plan)
| PIMissing (missing : list string)   (* exit status 1 or an empty plan *)
| PIFatal                             (* unknown repository or type in a customization *)
| PIPanic                             (* index out of range, or circular dependency *)
| PIOutOfFuel.

(** cmd/plan.go 164-260: [planInstall], from the package database on ([nx] is the
    result of [NewPkgDb]).  AdditionalPackageSources and the rollback plan are
    added by the callers in model/Rollback.v. *)
Definition plan_install (o : oracle) (cfg : plan_config) (nx : nexus)
    (tarballs descriptions : list desc) (installed : gmap string desc) (library_exists : bool)
    : planned_install :=
  let nx := ignore_packages nx (cf_ignore cfg) in
  let deps := default_config (cf_no_recommended cfg) in
  match set_plan_customizations (cf_suggests cfg) (cf_packages cfg) (cf_customs cfg) deps nx with
  | None => PIFatal
  | Some (deps, nx) =>
      let pkgs := plan_request (sub o 0) cfg tarballs descriptions in
      match ap_missing (get_packages nx pkgs) with
      | _ :: _ => PIMissing (ap_missing (get_packages nx pkgs))
      | [] =>
          match resolve_installation_reqs (sub o 1) pkgs installed deps nx
                  (negb (cf_no_update cfg)) library_exists (cf_no_recommended cfg) with
          | PlanOk p => PIPlan nx p
          | PlanError => PIPanic
          | PlanPanic => PIPanic
          | PlanOutOfFuel => PIOutOfFuel
          end
      end
  end.
