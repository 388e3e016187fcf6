(** Settings: configlib/config.go, rcmd/Rsettings.go, rcmd/rp/lines.go,
    cmd/utils.go. *)
From stdpp Require Import strings list.
From Coq Require Import Ascii ZArith NArith.
From Verif.model Require Import GoStr RepoDb Env Yml.

Local Open Scope string_scope.

(** ** Output of R *)

(** rcmd/rp/lines.go 23: "^\[\d+\]". *)
Fixpoint after_digits (seen : bool) (s : string) : option string :=
  match s with
  | "" => None
  | String c r =>
      match digit_value c with
      | Some _ => after_digits true r
      | None => if char_eqb c "]" && seen then Some r else None
      end
  end.

(** rcmd/rp/lines.go 22-24: the pattern is replaced by nothing at the start of a
    line. *)
Definition strip_index (s : string) : string :=
  match s with
  | String c r => if char_eqb c "[" then match after_digits false r with Some t => t | None => s end else s
  | "" => s
  end.

(** rcmd/rp/lines.go 10-38: ScanROutput and ScanLines. *)
Definition clean_line (s : string) : string := trim_space (strip_index s).

(** rcmd/rp/lines.go 26-31: which lines are kept. *)
Definition keep_line (output_only : bool) (s : string) : bool :=
  negb (String.eqb s "") && negb (output_only && has_prefix ">" s).

(** rcmd/rp/lines.go 10-38: ScanLines is ScanROutput with false. *)
Definition scan_r_output (output_only : bool) (content : string) : list string :=
  List.filter (keep_line output_only) (map clean_line (scan_lines content)).

(** ** The version of R: rcmd/Rsettings.go 67-99, parseVersionData *)

(** rcmd/Rsettings.go 67-99: what parseVersionData gives: the numbers and the platform,
    the end of the program, or a panic (line 92). *)
Inductive version_data := VData (major minor patch : Z) (platform : string) | VFatal | VPanic.

(** rcmd/Rsettings.go 70-96: one line of the output. *)
Definition version_line (l : string) (v : version_data) : version_data :=
  match v with
  | VData ma mi pa platform =>
      if has_prefix "R version" l then
        match split_char " " l with
        | _ :: _ :: v :: _ =>
            match split_char "." v with
            | [a; b; c] => VData (fst (atoi a)) (fst (atoi b)) (fst (atoi c)) platform
            | _ => VFatal
            end
        | _ => VFatal
        end
      else if has_prefix "Platform:" l then
        match split_char " " l with
        | _ :: p :: _ => VData ma mi pa (trim_blank p)
        | _ => VPanic
        end
      else v
  | _ => v
  end.

(** rcmd/Rsettings.go 67-99: parseVersionData. *)
Definition parse_version_data (content : string) : version_data :=
  fold_left (fun v l => version_line l v) (scan_r_output false content) (VData 0 0 0 "").

(** ** The library *)

(** viper: a flag given on the command line, then an environment variable that is
    not empty (configlib/config.go 177-186), then the configuration file, then
    the default. *)
Definition setting {A} (flag env file : option A) (default : A) : A :=
  match flag, env, file with
  | Some x, _, _ => x
  | None, Some x, _ => x
  | None, None, Some x => x
  | None, None, None => default
  end.

(** configlib/config.go 177-185: the value of a bound environment variable; viper takes
    an empty one as unset. *)
Definition env_value (env : option string) : option string :=
  match env with Some "" => None | _ => env end.

(** configlib/config.go 27-34. *)
Definition packrat_platform (p : string) : string :=
  if String.eqb p "x86_64-w64-mingw32/x64" then "x86_64-w64-mingw32" else p.

(** path/filepath.Join on Unix. Used in configlib/config.go 155. *)
Definition join_elems (l : list string) : string :=
  match List.filter (fun s => negb (String.eqb s "")) l with
  | [] => ""
  | k => clean (join "/" k)
  end.

(** configlib/config.go 133. *)
Definition marker : string := "_pkgr_".

(** configlib/config.go 112-150: getRenvLibrary; [out] is the output of R or
    [None] if it could not be run or failed. *)
Definition get_renv_library (out : option string) : option string :=
  match out with
  | None => None
  | Some content =>
      match List.find (fun l => has_prefix marker l && has_suffix marker l) (scan_r_output false content) with
      | Some l => let lib := trim_suffix marker (trim_prefix marker l) in
                  if String.eqb lib "" then None else Some lib
      | None => None
      end
  end.

(** configlib/config.go 152-170: getLibraryPath, called with an empty library;
    [None]: log.Fatal. *)
Definition get_library_path (lock : string) (renv : option string) (rv : r_version) (platform : string) : option string :=
  let library :=
    if String.eqb lock "packrat" then Some (join_elems ["packrat"; "lib"; packrat_platform platform; rv_full rv])
    else if String.eqb lock "renv" then get_renv_library renv
    else Some "" in
  match library with Some "" => None | _ => library end.

(** configlib/config.go 66-77: expandTilde, with go-homedir's Expand (homedir.go):
    [None]: log.Fatal. *)
Definition expand_tilde (home s : string) : option string :=
  match s with
  | String "~" "" => Some (join_elems [home; ""])
  | String "~" (String c r) =>
      if char_eqb c "/" || char_eqb c "\" then Some (join_elems [home; String c r]) else None
  | _ => Some s
  end.

(** configlib/config.go 47-54: what the library of a configuration depends on: the flag
    --library, PKGR_LIBRARY, the keys Library and Lockfile, what R writes, the version
    and platform of R, and the home directory. *)
Record library_config := {
  lc_flag : option string; lc_env : option string; lc_file : option string;
  lc_lock : string; lc_renv : option string; lc_version : r_version; lc_platform : string; lc_home : string
}.

(** configlib/config.go 47-54: the library of a configuration. *)
Definition library_of (c : library_config) : option string :=
  let l := setting (lc_flag c) (env_value (lc_env c)) (lc_file c) "" in
  match (if String.eqb l "" then get_library_path (lc_lock c) (lc_renv c) (lc_version c) (lc_platform c) else Some l) with
  | Some l => expand_tilde (lc_home c) l
  | None => None
  end.

(** ** Workers *)

(** cmd/utils.go 35-52: getWorkerCount. *)
Definition worker_count (threads cpus : Z) : Z :=
  if (threads <? 1)%Z then (if (cpus <=? 8)%Z then cpus else 8%Z) else threads.

(** cmd/root.go 85-86 and configlib/config.go 213-220: the value of Threads; the
    default of the key wins over the default 0 of the flag. *)
Definition threads_setting (flag file : option Z) (cpus : Z) : Z := setting flag None file cpus.

(** cmd/install.go 108-113. *)
Definition workers (flag file : option Z) (cpus : Z) : Z := worker_count (threads_setting flag file cpus) cpus.
