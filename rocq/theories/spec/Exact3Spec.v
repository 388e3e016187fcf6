(** Vocabulary of props/P_Exact3.v. *)
From stdpp Require Import strings list gmap.
From Coq Require Import Ascii ZArith.
From Verif.model Require Import GoStr Nexus RepoDb Fs Env Install Download Urls.

Local Open Scope string_scope.

(** The directory of binaries of a machine; [None] for a crash. *)
Inductive linux_place : option os_release -> option string -> Prop :=
| lp_unknown : linux_place None (Some "")
| lp_unnamed r : or_id r = "" -> linux_place (Some r) (Some "")
| lp_ubuntu r : or_id r = "ubuntu" -> linux_place (Some r) (Some ("ubuntu/" +:+ or_codename r))
| lp_centos r c rest : or_id r = "centos" \/ or_id r = "rhel" -> or_version_id r = String c rest ->
    linux_place (Some r) (Some ("centos/" +:+ String c ""))
| lp_crash r : or_id r = "centos" \/ or_id r = "rhel" -> or_version_id r = "" -> linux_place (Some r) None
| lp_other r : or_id r ∉ [""; "ubuntu"; "centos"; "rhel"] ->
    linux_place (Some r) (Some (or_id r +:+ "/" +:+ or_version_id r)).

(** What becomes of a request for a file: the path that is reported, whether there is an
    error, and the files afterwards. *)
Inductive fetches (dest : list string) (f : fsys) : reply -> option (list string) -> bool -> fsys -> Prop :=
| fe_there r n : f dest = Some n -> fetches dest f r (Some dest) false f
| fe_offline : f dest = None -> fetches dest f NoConnection None true f
| fe_refused c : f dest = None -> fetches dest f (BadStatus c) None false f
| fe_no_place c ok : f dest = None -> f (removelast dest) <> Some Dir -> fetches dest f (Body c ok) None true f
| fe_whole c f' : f dest = None -> f (removelast dest) = Some Dir ->
    f' dest = Some (File c) -> (forall q, q <> dest -> f' q = f q) -> fetches dest f (Body c true) (Some dest) false f'
| fe_cut c f' : f dest = None -> f (removelast dest) = Some Dir ->
    f' dest = Some (File c) -> (forall q, q <> dest -> f' q = f q) -> fetches dest f (Body c false) None true f'.

(** The type in which a package is looked for once it is pinned to a repository: what was
    set for the package, else the default of the configuration, whatever the default of
    the repository is. *)
Definition type_when_pinned (nx : nexus) (pkg : string) (st : source_type) : Prop :=
  (exists c, nx_packages nx !! pkg = Some c /\ pc_type c <> STDefault /\ st = pc_type c) \/
  ((forall c, nx_packages nx !! pkg = Some c -> pc_type c = STDefault) /\ st = nx_default nx).

(** The directories for downloads from some repositories. *)
Definition download_dir (md5 : string -> string) (cache : list string) (rv : r_version) (repos : list repo_url)
    (q : list string) : Prop :=
  exists r rest, r ∈ repos /\
    (join_path (join_path cache (repo_dir md5 r)) "src" = (q ++ rest)%list \/
     join_path (join_path (join_path cache (repo_dir md5 r)) "binary") (rv_short rv) = (q ++ rest)%list).
