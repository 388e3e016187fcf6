(** The tools as programs, with their arguments: internal/valtools (checkmat, fmttests,
    filecov) and internal/tools/docgen. *)
From stdpp Require Import strings list.
From Coq Require Import Ascii ZArith QArith.
From Verif.model Require Import GoStr Customs Fs Urls Env Install Valtools Docs Cli.

Local Open Scope string_scope.
Local Open Scope Z_scope.

(** What flag.Parse (library) makes of the arguments: the usage is written and the program
    ends with this status, or the flags that are given and the words. For
    internal/valtools/checkmat/main.go 242, fmttests/main.go 146 and filecov/main.go 189. *)
Inductive parsed := PUsage (status : Z) | PRead (given : list (string * string)) (words : list string).

(** A flag is set. flag.FlagSet.parseOne (library), for internal/valtools/filecov/main.go
    189. *)
Definition add_given (n v : string) (p : parsed) : parsed :=
  match p with PUsage st => PUsage st | PRead given words => PRead ((n, v) :: given) words end.

(** The name of a flag is read further. flag.FlagSet.parseOne (library), for
    internal/valtools/filecov/main.go 189: the text behind the dashes; [None]: the argument
    is not a flag. *)
Definition flag_text (s : string) : option string :=
  match s with
  | String a (String b r) => if char_eqb a "-" then (if char_eqb b "-" then Some r else Some (String b r)) else None
  | _ => None
  end.

(** flag.FlagSet.Parse and parseOne (library) with ExitOnError, for
    internal/valtools/checkmat/main.go 242, fmttests/main.go 146 and filecov/main.go 189.
    [fl]: the flags, and whether they are of type Bool. *)
Fixpoint go_parse (fl : list (string * bool)) (args : list string) : parsed :=
  match args with
  | [] => PRead [] []
  | s :: rest =>
      if String.eqb s "--" then PRead [] rest
      else
        match flag_text s with
        | None => PRead [] args
        | Some "" => PUsage 2
        | Some (String c r) =>
            if char_eqb c "-" || char_eqb c "=" then PUsage 2
            else
              let '(n, v) := split_equals (String c r) in
              match assoc n fl with
              | None => PUsage (if String.eqb n "help" || String.eqb n "h" then 0 else 2)
              | Some true =>
                  let v := default "true" v in
                  match parse_bool v with
                  | Some _ => add_given n v (go_parse fl rest)
                  | None => PUsage 2
                  end
              | Some false =>
                  match v with
                  | Some v => add_given n v (go_parse fl rest)
                  | None =>
                      match rest with
                      | v :: rest' => add_given n v (go_parse fl rest')
                      | [] => PUsage 2
                      end
                  end
              end
        end
  end.

(** What a tool does when it is called: it writes its usage, on the standard output or on
    the standard error, or it works. internal/valtools/checkmat/main.go 237-247,
    fmttests/main.go 141-151, filecov/main.go 184-195. *)
Inductive called (A : Type) := Usage (status : Z) (stdout : bool) | Called (a : A).
Arguments Usage {A} status stdout.
Arguments Called {A} a.

(** internal/valtools/checkmat/main.go 238-240, fmttests/main.go 142-144, filecov/main.go
    185-187. *)
Definition asks_help (args : list string) : bool :=
  match args with a :: _ => String.eqb a "-h" || String.eqb a "--help" | [] => false end.

(** internal/valtools/checkmat/main.go 237-265: main.  [matrix] is readEntries of lines 62-73:
    the entries of a file, [None] an error; [docs] are the names in a directory; the working
    directory is [wd].  Left out: os.Getwd fails. *)
Definition checkmat (matrix : string -> option (list entry)) (docs : string -> option (list string)) (wd : path) (f : fsys)
    (args : list string) : called (list issue * bool) :=
  match go_parse [] args with
  | PUsage st => Usage st (asks_help args)
  | PRead _ [yaml; dir] => Called (check_matrix (matrix yaml) (docs dir) wd f)
  | PRead _ _ => Usage 2 (asks_help args)
  end.

(** internal/valtools/fmttests/main.go 30-33. *)
Definition fmttests_flags : list (string * bool) := [("subtests", true); ("allow-skips", true)].

(** internal/valtools/fmttests/main.go 141-164: main; the status and what is written. *)
Definition fmttests (es : list (option event)) (scan_ok : bool) (args : list string) : called (Z * (test_run * bool)) :=
  match go_parse fmttests_flags args with
  | PUsage st => Usage st (asks_help args)
  | PRead given [] =>
      let r := run_events (default false (bool_given "subtests" given)) es scan_ok in
      Called (fmttests_exit (default false (bool_given "allow-skips" given)) r, r)
  | PRead _ _ => Usage 2 (asks_help args)
  end.

(** internal/valtools/filecov/main.go 35-37. *)
Definition filecov_flags : list (string * bool) := [("mod", false)].

(** What filecov finds on the disk: internal/valtools/filecov/main.go 156, 163, 168, 173 and
    112, 128: cover.ParseProfiles, filepath.Abs, os.ReadFile, modfile.ModulePath and
    filepath.EvalSymlinks (libraries); [None]: an error. *)
Record cov_world := CovWorld {
  cw_profiles : string -> option (list profile); cw_abs : string -> option string; cw_read : string -> option string;
  cw_module : string -> string; cw_links : string -> option string
}.

(** internal/valtools/filecov/main.go 138-144: write, the names. *)
Definition cov_written (w : cov_world) (ps : list profile) (modpath localpath : string) : option coverage :=
  let c := percent_covered ps in
  match shorten_names (cw_links w) modpath localpath (map fst (cv_files c)) with
  | None => None
  | Some names => Some {| cv_overall := cv_overall c; cv_files := zip names (map snd (cv_files c)) |}
  end.

(** internal/valtools/filecov/main.go 155-182: run; [None]: an error.  Left out: errors of
    MarshalIndent and of writing (lines 146-152). *)
Definition cov_run (w : cov_world) (input gomod : string) : option coverage :=
  match cw_profiles w input with
  | None => None
  | Some ps =>
      if String.eqb gomod "" then cov_written w ps "" ""
      else
        match cw_abs w gomod with
        | None => None
        | Some g =>
            match cw_read w g with
            | None => None
            | Some text =>
                if String.eqb (cw_module w text) "" then None else cov_written w ps (cw_module w text) (dir_name g)
            end
        end
  end.

(** internal/valtools/filecov/main.go 184-201: main; the status and what is written, as a
    value before it is made a text (lines 146-150). *)
Definition filecov (w : cov_world) (args : list string) : called (Z * option coverage) :=
  match go_parse filecov_flags args with
  | PUsage st => Usage st (asks_help args)
  | PRead given [input] =>
      let r := cov_run w input (default "" (last_given "mod" given)) in
      Called (match r with Some _ => 0 | None => 2 end, r)
  | PRead _ _ => Usage 2 (asks_help args)
  end.

(** internal/tools/docgen/main.go 25-46: main; the status and the files afterwards.  The
    change of the texts in lines 33-39 is part of [root]. *)
Definition docgen (root : command) (cwd : path) (f : fsys) (args : list string) : called (Z * fsys) :=
  match args with
  | [dir] =>
      match gen root (resolve cwd dir) f with
      | Some f' => Called (0, f')
      | None => Called (1, remove_all (resolve cwd dir) f)
      end
  | _ => Usage 2 false
  end.
