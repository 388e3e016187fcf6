(** What is said about the DESCRIPTION files of packages that were installed. *)
From stdpp Require Import strings list gmap.
From Coq Require Import Ascii ZArith.
From Verif.model Require Import GoStr Nexus RepoDb Fs Sched Install Download Together.
From Verif.spec Require Import StrSpec SchedSpec LibSpec StampSpec.

Local Open Scope string_scope.

(** A text of lines, each of which ends with a line feed. *)
Inductive text_of : list string -> string -> Prop :=
| tx_nil : text_of [] ""
| tx_cons l ls s : text_of ls s -> text_of (l :: ls) (l +:+ String (ascii_of_nat 10) s).

(** The DESCRIPTION of the package [p] in the library [lib] says that version [v] of pkgr
    has installed it in the form [ty], from the repository [repo] at [url]; it says this
    once, and names no other repository. *)
Definition says (f : fsys) (lib : list string) (p v ty url repo : string) : Prop :=
  exists t body, f (lib ++ [p; "DESCRIPTION"])%list = Some (File t) /\
    text_of (body ++ ["PkgrVersion: " +:+ v; "PkgrInstallType: " +:+ ty; "PkgrRepositoryURL: " +:+ url])%list t /\
    (forall x, x ∈ body -> own_field x = false) /\
    (forall x, x ∈ body -> repository_field x = true -> same_line x ("Repository: " +:+ repo)).

(** R ends with status 0 only if there is a DESCRIPTION that can be read. *)
Definition rs_describes (Rs : rsystem) (name : list string -> string) (read : string -> option (list string)) : Prop :=
  forall c x f, rs_exit Rs c x f 0 -> exists t lines,
    f (rc_library c ++ [name (rc_source c); "DESCRIPTION"])%list = Some (File t) /\ read t = Some lines.

(** The word for a type. *)
Inductive type_word : goos -> source_type -> string -> Prop :=
| tw_source os : type_word os STSource "source"
| tw_binary os : type_word os STBinary "binary"
| tw_default_binary os : os = Darwin \/ os = Windows -> type_word os STDefault "binary"
| tw_default_source os : os <> Darwin -> os <> Windows -> type_word os STDefault "source".

(** Nothing is put at [bp] on behalf of other packages than [p]. *)
Definition own_place (e : setting) (j : job) (p : string) (bp : list string) : Prop :=
  forall p', in_plan j p' -> ~ in_dir bp (e_tmp e p') /\ bp <> binary_dir e p' /\
    forall b, p' <> p -> ball_for e p' = Some b -> store_for e p' b <> bp.

(** The same for R as a function. *)
Definition r_describes (R : rprog) (name : list string -> string) (read : string -> option (list string)) : Prop :=
  forall c f f', R c f = (0%Z, f') -> exists t lines,
    f' (rc_library c ++ [name (rc_source c); "DESCRIPTION"])%list = Some (File t) /\ read t = Some lines.

(** The DESCRIPTION of [p] says what was installed, where [f] is the file system before:
    a binary if the cache had one for this package, version and repository; or else what
    the plan says.  In the last case nobody else may have put it there meanwhile. *)
Definition tells (e : setting) (j : job) (f g : fsys) (p : string) : Prop :=
  let want := d_wanted (download_of e p) in
  exists ty, says g (e_library e) p (e_pkgr e) ty (ru_url (w_repo want)) (ru_name (w_repo want)) /\
    (ty = "binary" \/ type_word (s_os (e_where e)) (w_type want) ty) /\
    forall bp, cache_path (surroundings_for e p) (request_for e p) = Some bp ->
      (f bp <> None -> ty = "binary") /\
      (f bp = None -> own_place e j p bp -> type_word (s_os (e_where e)) (w_type want) ty).
