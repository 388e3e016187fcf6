(** pkgr add --install: the configuration is read twice by one process (cmd/add.go 48-71,
    cmd/root.go 118-143, configlib/config.go 37-64 and 171-210). *)
From stdpp Require Import strings list gmap.
From Coq Require Import Ascii ZArith.
From Verif.model Require Import GoStr Fs Env Yml Config Start.

Local Open Scope string_scope.

(** configlib/config.go 42: what viper.AllSettings gives, without keys whose value is null.  Names
    of single values (also those of Logging and Lockfile, as in logging.all), of lists of texts and
    of lists of maps (Repos and the two of Customizations); an element may be null.  Simplified:
    single values and the values of maps are texts. *)
Record settings := Settings {
  st_single : gmap string string;
  st_lists : gmap string (list (option string));
  st_maps : gmap string (list (option (gmap string string)))
}.

(** configlib/structs.go 43-64: PkgrConfig.  A name that is not there has the zero value. *)
Record configuration := Configuration {
  co_single : gmap string string;
  co_lists : gmap string (list string);
  co_maps : gmap string (list (gmap string string))
}.

(** cmd/root.go 34: the variable cfg when the program starts. *)
Definition no_configuration : configuration := Configuration ∅ ∅ ∅.

(** configlib/config.go 42: mapstructure decodes a list into one that is there: each element over
    the element at its place, and what is behind stays. *)
Fixpoint over {A B : Type} (zero : A) (f : A -> B -> A) (old : list A) (v : list B) : list A :=
  match v with
  | [] => old
  | b :: v' => f (hd zero old) b :: over zero f (tl old) v'
  end.

(** configlib/config.go 42: a text over a text; null changes nothing. *)
Definition over_text (old : string) (v : option string) : string := default old v.

(** configlib/config.go 42: a map over a map: keys are added, their values are new. *)
Definition over_map (old : gmap string string) (v : option (gmap string string)) : gmap string string :=
  match v with Some m => m ∪ old | None => old end.

(** configlib/config.go 42: lists over lists, by name. *)
Definition over_all {A B : Type} (zero : A) (f : A -> B -> A) (old : gmap string (list A)) (v : gmap string (list B))
    : gmap string (list A) :=
  map_imap (fun k l => Some (over zero f (default [] (old !! k)) l)) v ∪ old.

(** configlib/config.go 42: viper.Unmarshal into a configuration that may have been read before. *)
Definition unmarshal (old : configuration) (v : settings) : configuration :=
  Configuration (st_single v ∪ co_single old) (over_all "" over_text (co_lists old) (st_lists v))
    (over_all ∅ over_map (co_maps old) (st_maps v)).

(** configlib/config.go 68-77: expandTilde.  Simplified: the fatal error of homedir is left out. *)
Definition tilde (home s : string) : string := default s (expand_tilde home s).

(** configlib/config.go 55-62: the values in which a tilde is expanded. *)
Definition expand_all (home : string) (c : configuration) : configuration :=
  Configuration
    (foldr (fun k m => alter (tilde home) k m) (co_single c) ["library"; "rpath"; "logging.all"; "logging.install"; "cache"])
    (foldr (fun k m => alter (map (tilde home)) k m) (co_lists c) ["tarballs"; "descriptions"])
    (alter (map (fmap (tilde home))) "repos" (co_maps c)).

(** configlib/config.go 48-52 and 153-171: the library if none is given; [library_of] tells it for
    the directory in which R is asked ([None]: log.Fatal). *)
Definition find_library (library_of : path -> configuration -> option string) (cwd : path) (c : configuration) : option configuration :=
  if String.eqb (default "" (co_single c !! "library")) "" then
    match library_of cwd c with
    | Some l => Some (Configuration (<["library" := l]> (co_single c)) (co_lists c) (co_maps c))
    | None => None
    end
  else Some c.

(** cmd/root.go 131-133: the flag --update. *)
Definition use_update (update : bool) (c : configuration) : configuration :=
  if update then Configuration (<["noupdate" := "false"]> (co_single c)) (co_lists c) (co_maps c) else c.

(** What the process is given: the home directory, how the text of the file is read by viper (with
    the flags and variables of this call; configlib/config.go 196-208), the library if none is
    given, and --update. *)
Record process := Process {
  pr_home : string;
  pr_read : string -> option settings;
  pr_library : path -> configuration -> option string;
  pr_update : bool
}.

(** cmd/root.go 118-143: initConfig in the directory [cwd], with the variable cfg as it is; the
    configuration and the directory afterwards.  [None]: log.Fatal. *)
Definition init_config (p : process) (files : path -> option string) (cwd : path) (name : string) (old : configuration)
    : option (configuration * path) :=
  match files (loaded_file cwd name) with
  | None => None
  | Some t =>
      match pr_read p t with
      | None => None
      | Some v =>
          match find_library (pr_library p) cwd (unmarshal old v) with
          | None => None
          | Some c => Some (use_update (pr_update p) (expand_all (pr_home p) c), command_dir cwd name)
          end
      end
  end.

(** configlib/add_package.go 17-47: AddPackages in the directory [dir]; [None]: an error or a panic.
    [listed] is what yaml.v3 reads as Packages. *)
Definition add_to_file (listed : string -> option (list string)) (files : path -> option string) (file : path)
    (pkgs : list string) : option (path -> option string) :=
  match files file with
  | None => None
  | Some t =>
      match listed t with
      | None => None
      | Some l =>
          match add_packages t l pkgs with
          | None => None
          | Some t' => Some (fun q => if bool_decide (q = file) then Some t' else files q)
          end
      end
  end.

(** cmd/add.go 48-71 without --install: the files afterwards. *)
Definition add_alone (p : process) (listed : string -> option (list string)) (files : path -> option string) (cwd : path)
    (name : string) (pkgs : list string) : option (path -> option string) :=
  match init_config p files cwd name no_configuration with
  | None => None
  | Some (_, dir) => add_to_file listed files (resolve dir name) pkgs
  end.

(** What rInstall works with: the configuration, the directory and the files (cmd/install.go 55). *)
Notation install_start := (configuration * list string * (list string -> option string))%type (only parsing).

(** cmd/install.go 55 after cmd/root.go 118-143, in a process of its own. *)
Definition install_alone (p : process) (files : path -> option string) (cwd : path) (name : string) : option install_start :=
  match init_config p files cwd name no_configuration with
  | None => None
  | Some (c, dir) => Some (c, dir, files)
  end.

(** cmd/add.go 48-71 with --install, up to rInstall (64). *)
Definition add_install (p : process) (listed : string -> option (list string)) (files : path -> option string) (cwd : path)
    (name : string) (pkgs : list string) : option install_start :=
  match init_config p files cwd name no_configuration with
  | None => None
  | Some (c, dir) =>
      match add_to_file listed files (resolve dir name) pkgs with
      | None => None
      | Some files' =>
          match init_config p files' dir name c with
          | None => None
          | Some (c', dir') => Some (c', dir', files')
          end
      end
  end.
