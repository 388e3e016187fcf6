(** What planInstall says about the plan: cmd/plan.go 263-325. *)
From stdpp Require Import strings list gmap.
From Coq Require Import Ascii ZArith.
From Verif.model Require Import GoStr Desc Nexus Pacman Graph.

Local Open Scope string_scope.

(** cmd/plan.go 280-287: the message "package installation status".  [keys] and [additional]
    as in Graph.get_all_packages, [installed] the names of the installed packages in
    the order of iteration. *)
Record status_message := {
  sm_required : nat; sm_installed : nat; sm_outdated : nat; sm_not_from_pkgr : nat
}.

(** cmd/plan.go 280-287. *)
Definition status_of (ip : install_plan) (keys additional installed : list string) : status_message := {|
  sm_required := length (get_all_packages ip keys additional);
  sm_installed := size (ip_installed ip);
  sm_outdated := length (ip_outdated ip);
  sm_not_from_pkgr := length (get_installers (ip_installed ip) installed).2
|}.

(** cmd/plan.go 289-300: the message "package installation sources". *)
Definition count_up (m : gmap string nat) (rn : string) : gmap string nat := <[rn := S (default 0 (m !! rn))]> m.

(** cmd/plan.go 289-300. *)
Definition sources_of (ip : install_plan) (additional : list string) : gmap string nat :=
  <["tarballs" := length additional]>
    (fold_left count_up (map (fun dl => ru_name (pc_repo (dl_config dl))) (ip_downloads ip)) ∅).

(** cmd/plan.go 265-278: the messages about single outdated packages; [true] for "package
    will be updated", [false] for "outdated package found".  The counter is the number
    of outdated packages once one of them will be updated. *)
Definition update_messages (no_update : bool) (ip : install_plan) : list (string * bool) :=
  map (fun x => (op_package x, negb no_update)) (ip_outdated ip).

(** cmd/plan.go 265-278: the counter. *)
Definition to_update (no_update : bool) (ip : install_plan) : nat :=
  fold_left (fun n _ => if no_update then n else length (ip_outdated ip)) (ip_outdated ip) 0.

(** cmd/plan.go 308-322: the packages "to install". *)
Record line := { ln_package : string; ln_version : string; ln_repo : string; ln_type : source_type }.

(** cmd/plan.go 313-319. *)
Definition line_for (nx : nexus) (p : string) : line :=
  let '(d, c, _) := get_package_go nx p in
  {| ln_package := d_package d; ln_version := d_version d; ln_repo := ru_name (pc_repo c); ln_type := pc_type c |}.

(** cmd/plan.go 308-322. *)
Definition install_lines (nx : nexus) (ip : install_plan) (keys additional installed : list string) : list line :=
  let pkgs := get_all_packages ip keys additional in
  let n := num_to_install ip keys additional in
  if (0 <? n)%Z && negb (n =? Z.of_nat (length pkgs))%Z
  then map (line_for nx) (List.filter (fun p => negb (existsb (String.eqb p) installed)) pkgs)
  else [].
