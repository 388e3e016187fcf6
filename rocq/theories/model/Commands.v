(** Commands that are loops over, or combinations of, other operations: cmd/remove.go,
    cmd/clean.go, cmd/descriptionOps.go. *)
From stdpp Require Import strings list gmap.
From Coq Require Import Ascii.
From Verif.model Require Import GoStr Version Desc Nexus RepoDb Graph Plan Control Yml Fs Extract Install Tarballs Clean.

Local Open Scope string_scope.

(** cmd/remove.go 40-60: one package after the other.  Reading and writing the file
    succeed. *)
Definition remove_packages (content : string) (names : list string) : string :=
  fold_left remove_package names content.

(** cmd/descriptionOps.go 10-37: unpackDescriptions.  [read] gives the contents of the
    file at a path; [None]: the program ends. *)
Fixpoint unpack_descriptions (read : string -> option string) (paths : list string) : option (list desc) :=
  match paths with
  | [] => Some []
  | p :: ps =>
      match read p with
      | None => None
      | Some text =>
          match parse_desc text, unpack_descriptions read ps with
          | Some d, Some ds => Some (d :: ds)
          | _, _ => None
          end
      end
  end.

(** cmd/plan.go 83-249 with the files of Descriptions: the part of planInstall that
    reads them. *)
Definition plan_from_files (o : oracle) (cfg : plan_config) (nx : nexus) (tarballs : list desc)
    (read : string -> option string) (paths : list string) (installed : gmap string desc) (library_exists : bool) :
    option planned_install :=
  match unpack_descriptions read paths with
  | None => None
  | Some ds => Some (plan_install o cfg nx tarballs ds installed library_exists)
  end.

(** cmd/clean.go 53-76: How the command clean ends: with the files it leaves, with an
    error, by a panic, or by a fatal message of the plan. *)
Inductive clean_end := Done (f : fsys) | Failed (f : fsys) | Panicked | Stopped (f : fsys).

(** cmd/clean.go 53-76.  With --all the cache is cleaned first and then the databases,
    for which planInstall is called again (cmd/cleanPkgdb.go 83-90): it fetches the
    indexes ([fetch], any change in the directory of the databases) and unpacks the
    tarballs of the configuration into the cache (cmd/plan.go 182-187, cmd/tarballOps.go
    17).
    Simplified: other fatal messages of the plan are not modelled. *)
Definition clean_command (all : bool) (c : clean_config) (u : unpacking) (ts : list tarball) (fetch : fsys -> fsys)
    (md5 : string -> string) (default_binary : bool) (dir : path) (configured : list string) (dbs : list repo_db)
    (rv : r_version) (f : fsys) (e : clean_end) : Prop :=
  if all then
    exists r, clean_cache c f r /\
      match r with
      | Panics => e = Panicked
      | Cleaned f1 true => e = Failed f1
      | Cleaned f1 false =>
          match unpack_tarballs u (user_cache (cc_cwd c) (cc_default c) (cc_cache c)) ts (fetch f1) with
          | None => exists f2, e = Stopped f2
          | Some (f2, _, _) => e = Done (clean_pkgdbs md5 default_binary dir "ALL" configured dbs rv f2)
          end
      end
  else e = Done f.
