(** From the command line, the environment and the file to the settings of a run:
    cmd/root.go, configlib/config.go. *)
From stdpp Require Import strings list gmap.
From Coq Require Import Ascii ZArith.
From Verif.model Require Import GoStr Fs Config Start Rollback.

Local Open Scope string_scope.

(** cmd/root.go 62-109: the flags of all commands that end in the configuration; [None]:
    not given.  --update is a variable of its own. *)
Record flags := {
  fl_no_update : option bool; fl_update : bool; fl_no_rollback : option bool; fl_no_secure : option bool;
  fl_strict : option bool; fl_library : option string; fl_threads : option Z
}.

(** configlib/config.go 178-186: the variables PKGR_RPATH and PKGR_LIBRARY.  No others are
    bound. *)
Record variables := { va_rpath : option string; va_library : option string }.

(** configlib/structs.go 43-64: the fields that are not paths only; [None]: the key is not
    in the file. *)
Record file_keys := {
  fi_no_update : option bool; fi_no_rollback : option bool; fi_no_secure : option bool; fi_strict : option bool;
  fi_library : option string; fi_rpath : option string; fi_threads : option Z
}.

(** configlib/structs.go 42-63: the values that end in PkgrConfig. *)
Record settings := {
  se_no_update : bool; se_no_rollback : bool; se_no_secure : bool; se_strict : bool;
  se_library : string; se_rpath : string; se_threads : Z
}.

(** configlib/config.go 42 (viper.Unmarshal) with the defaults of 213-220; the default of a
    flag counts last. *)
Definition unmarshal (cpus : Z) (a : flags) (v : variables) (f : file_keys) : settings := {|
  se_no_update := setting (fl_no_update a) None (fi_no_update f) false;
  se_no_rollback := setting (fl_no_rollback a) None (fi_no_rollback f) false;
  se_no_secure := setting (fl_no_secure a) None (fi_no_secure f) false;
  se_strict := setting (fl_strict a) None (fi_strict f) false;
  se_library := setting (fl_library a) (env_value (va_library v)) (fi_library f) "";
  se_rpath := setting None (env_value (va_rpath v)) (fi_rpath f) "R";
  se_threads := threads_setting (fl_threads a) (fi_threads f) cpus
|}.

(** cmd/root.go 132-134. *)
Definition init_settings (cpus : Z) (a : flags) (v : variables) (f : file_keys) : settings :=
  let s := unmarshal cpus a v f in
  if fl_update a then
    {| se_no_update := false; se_no_rollback := se_no_rollback s; se_no_secure := se_no_secure s; se_strict := se_strict s;
       se_library := se_library s; se_rpath := se_rpath s; se_threads := se_threads s |}
  else s.

(** cmd/install.go 71, 86, 139: what the run takes from the settings, the library being
    [lib]. *)
Definition run_conf (lib : path) (s : settings) : run_config :=
  RunConfig lib (se_strict s) (se_no_update s) (se_no_rollback s).

(** ** Paths *)

(** configlib/structs.go 43-64: the fields that hold paths.  LibPaths is one of them. *)
Record path_keys := {
  pk_library : string; pk_rpath : string; pk_tarballs : list string; pk_descriptions : list string;
  pk_repos : list (list (string * string)); pk_log_all : string; pk_log_install : string; pk_cache : string;
  pk_lib_paths : list string
}.

(** configlib/config.go 81-88. *)
Definition expand_tildes (home : string) (l : list string) : option (list string) := mapM (expand_tilde home) l.

(** configlib/config.go 94-106; each map as the list of its pairs. *)
Definition expand_tildes_repos (home : string) (l : list (list (string * string))) : option (list (list (string * string))) :=
  mapM (mapM (fun kv => match expand_tilde home kv.2 with Some u => Some (kv.1, u) | None => None end)) l.

(** configlib/config.go 53-61; [None]: log.Fatal in expandTilde. *)
Definition expand_paths (home : string) (p : path_keys) : option path_keys :=
  match expand_tilde home (pk_library p), expand_tilde home (pk_rpath p), expand_tildes home (pk_tarballs p),
        expand_tildes home (pk_descriptions p), expand_tildes_repos home (pk_repos p), expand_tilde home (pk_log_all p),
        expand_tilde home (pk_log_install p), expand_tilde home (pk_cache p) with
  | Some l, Some r, Some t, Some d, Some u, Some a, Some i, Some c =>
      Some {| pk_library := l; pk_rpath := r; pk_tarballs := t; pk_descriptions := d; pk_repos := u;
              pk_log_all := a; pk_log_install := i; pk_cache := c; pk_lib_paths := pk_lib_paths p |}
  | _, _, _, _, _, _, _, _ => None
  end.
