(** Installed packages: pacman/utils.go. *)
From stdpp Require Import strings list gmap.
From Coq Require Import Ascii ZArith.
From Verif.model Require Import GoStr Version Desc Nexus.

Local Open Scope string_scope.

(** pacman/utils.go 87-109: [scanInstalledPackage] of one directory.  The
    argument is what opening and parsing <dir>/DESCRIPTION yields ([None]: it
    cannot be opened); a parse error is ignored as long as a package name was read. *)
Definition scan_installed (o : option desc) : option desc :=
  match o with
  | None => None
  | Some d => if String.eqb (d_package d) "" then None else Some d
  end.

(** pacman/utils.go 16-48: [GetPriorInstalledPackages]; the list is the
    directory listing, in listing order, with what each DESCRIPTION yields. *)
Fixpoint prior_installed (dirs : list (string * option desc)) (m : gmap string desc) : gmap string desc :=
  match dirs with
  | [] => m
  | (_, o) :: l =>
      prior_installed l (match scan_installed o with
                         | Some d => <[d_package d := d]> m
                         | None => m
                         end)
  end.

(** pacman/utils.go 51-66, 70-85: [GetInstallers]; [keys] is the iteration order. *)
Definition get_installers (ip : gmap string desc) (keys : list string) : list string * list string :=
  let from_pkgr k := match ip !! k with
                     | Some d => negb (String.eqb (d_pkgr_version d) "")
                     | None => false
                     end in
  (List.filter from_pkgr keys, List.filter (fun k => negb (from_pkgr k)) keys).

(** cran/structs.go 86-90: [OutdatedPackage]. *)
Record outdated_package := Outdated { op_package : string; op_old : string; op_new : string }.

(** pacman/utils.go 112-133: [GetOutdatedPackages]; [None] is a panic in
    [CompareVersionStrings]. *)
Fixpoint get_outdated (installed : gmap string desc) (available : list pkg_dl)
    : option (list outdated_package) :=
  match available with
  | [] => Some []
  | dl :: l =>
      let name := d_package (dl_package dl) in
      match installed !! name with
      | None => get_outdated installed l
      | Some ip =>
          match compare_version_strings (d_version (dl_package dl)) (d_version ip) with
          | None => None
          | Some c =>
              match get_outdated installed l with
              | None => None
              | Some r =>
                  Some (if (c >? 0)%Z
                        then Outdated name (d_version ip) (d_version (dl_package dl)) :: r
                        else r)
              end
          end
      end
  end.
