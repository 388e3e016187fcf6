(** What is said about a command line for add, remove or clean: C163. *)
From stdpp Require Import strings list.
From Coq Require Import Ascii ZArith.
From Verif.model Require Import GoStr Customs Fs Cli Install Clean Lines.
From Verif.spec Require Import StrSpec ConfigSpec LibSpec EnvSpec InstallSpec StartSpec CleanSpec CliSpec LoadLineSpec.

Local Open Scope string_scope.

(** The line asks for the folder [x] of a repository, or for its databases. *)
Definition asks_repo (ts : list token) (x : string) : Prop :=
  untouched "repos" ts \/ last_given "repos" (given_in ts) = Some "ALL" \/
  exists s, last_given "repos" (given_in ts) = Some s /\ s <> "ALL" /\ listed x s.

(** The line asks for sources, or for binaries. *)
Definition asks_sub (ts : list token) (sub : string) : Prop :=
  (sub = "src" /\ ~ turned_on "binaries-only" ts) \/ (sub = "binary" /\ ~ turned_on "src-only" ts).

(** What the line asks to be removed from the cache [d]. *)
Definition asked_for (ts : list token) (d q : path) : Prop :=
  exists x sub, asks_repo ts x /\ asks_sub ts sub /\ in_dir (d ++ [x; sub])%list q.

(** The directory of the cache, seen from the directory [dir] of the configuration file. *)
Definition cache_dir (w : clean_world) (dir d : path) : Prop :=
  (cl_cache w = "" /\ d = cl_user w) \/ (cl_cache w <> "" /\ d = resolve dir (cl_cache w)).

(** The line names the configuration file [f] in the directory [dir]. *)
Definition names_file (cwd : path) (ts : list token) (dir : path) (f : string) : Prop :=
  (untouched "config" ts /\ dir = cwd /\ f = "pkgr.yml") \/
  exists flag, last_given "config" (given_in ts) = Some flag /\ flag <> "" /\ no_tilde flag /\ stands_for cwd flag (dir ++ [f])%list.

(** If it does so with --config, it is by an absolute name or by one without a directory. *)
Definition names_plainly (ts : list token) : Prop :=
  forall flag, last_given "config" (given_in ts) = Some flag -> (exists r, flag = "/" +:+ r) \/ plain_name flag.
