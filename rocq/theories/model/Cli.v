(** The command line: the commands and flags of cmd/*.go, and how cobra 1.9.1 and pflag
    1.0.6 (libraries) find the command and read the flags. *)
From stdpp Require Import strings list.
From Coq Require Import Ascii ZArith.
From Verif.model Require Import GoStr Customs Flags.

Local Open Scope string_scope.

(** The types of the flags of cmd/root.go 63-108 and the commands: Bool, String and Int. *)
Inductive flag_kind := KBool | KString | KInt.

(** One flag of cmd/root.go 63-108 and the commands, with its letter if it has one. Only
    flags of type Bool have letters. *)
Record cli_flag := CliFlag { cf_name : string; cf_short : option ascii; cf_kind : flag_kind }.

(** A command: its name, whether it has a Run, its own flags, the flags that it hands down
    (PersistentFlags), and the commands below it. cobra.Command (library), for
    cmd/root.go 39-43. *)
Inductive cli_command := CliCommand (name : string) (runs : bool) (own hands_down : list cli_flag) (below : list cli_command).

(** cobra.Command.Name, for cmd/root.go 40: the first word of Use. *)
Definition cc_name (c : cli_command) : string := let '(CliCommand n _ _ _ _) := c in n.
(** cobra.Command.Runnable, for cmd/root.go 39-43. *)
Definition cc_runs (c : cli_command) : bool := let '(CliCommand _ r _ _ _) := c in r.
(** cobra.Command.Flags without those handed down, for cmd/root.go 66. *)
Definition cc_own (c : cli_command) : list cli_flag := let '(CliCommand _ _ o _ _) := c in o.
(** cobra.Command.PersistentFlags, for cmd/root.go 69-108. *)
Definition cc_down (c : cli_command) : list cli_flag := let '(CliCommand _ _ _ p _) := c in p.
(** cobra.Command.Commands, for cmd/root.go 39-43. *)
Definition cc_below (c : cli_command) : list cli_command := let '(CliCommand _ _ _ _ b) := c in b.

(** A flag of type Bool without a letter, as in cmd/root.go 73. *)
Definition switch (n : string) : cli_flag := CliFlag n None KBool.
(** A flag of type String, as in cmd/root.go 76. *)
Definition text_flag (n : string) : cli_flag := CliFlag n None KString.

(** cmd/root.go 62-109, the AddCommand and Flags of the init functions: cmd/add.go 43-46,
    cmd/clean.go 47-51, cmd/cleanCache.go 53-61, cmd/cleanPkgdb.go 42-46, cmd/debug.go
    57-59, cmd/experiment.go 68-70, cmd/inspect.go 133-147, cmd/install.go 51-53,
    cmd/load.go 64-71, cmd/plan.go 61-65, cmd/remove.go 36-38, cmd/run.go 69-72; help and
    completion are added by cobra (library).  Left out: __complete of cobra. *)
Definition pkgr : cli_command :=
  CliCommand "pkgr" false [CliFlag "version" (Some "v"%char) KBool]
    [switch "update"; switch "no-update"; text_flag "config"; text_flag "loglevel"; switch "logjson";
     CliFlag "threads" None KInt; switch "preview"; switch "debug"; text_flag "library"; switch "no-rollback";
     switch "no-secure"; switch "strict"]
    [CliCommand "add" true [switch "install"] [] [];
     CliCommand "clean" true [switch "all"] []
       [CliCommand "cache" true [switch "src-only"; switch "binaries-only"; text_flag "repos"] [] [];
        CliCommand "pkgdbs" true [text_flag "repos"] [] []];
     CliCommand "completion" false [] []
       [CliCommand "bash" true [switch "no-descriptions"] [] []; CliCommand "fish" true [switch "no-descriptions"] [] [];
        CliCommand "powershell" true [switch "no-descriptions"] [] []; CliCommand "zsh" true [switch "no-descriptions"] [] []];
     CliCommand "debug" true [] [] []; CliCommand "experiment" true [] [] []; CliCommand "help" true [] [] [];
     CliCommand "inspect" true [switch "deps"; switch "reverse"; switch "tree"; switch "json"; switch "installed-from"] [] [];
     CliCommand "install" true [] [] []; CliCommand "load" true [switch "all"; switch "json"] [] [];
     CliCommand "plan" true [] [switch "show-deps"] []; CliCommand "remove" true [] [] [];
     CliCommand "run" true [text_flag "pkg"] [] []].

(** The flags of a command to which [inh] are handed down. cobra.Command.mergePersistentFlags
    (library), for cmd/root.go 69-108. *)
Definition flags_at (inh : list cli_flag) (c : cli_command) : list cli_flag := (cc_own c ++ cc_down c ++ inh)%list.

(** pflag.FlagSet.Lookup (library), for cmd/root.go 69-108. *)
Definition flag_named (fl : list cli_flag) (n : string) : option cli_flag :=
  List.find (fun f => String.eqb (cf_name f) n) fl.

(** pflag.FlagSet.ShorthandLookup (library), for cmd/root.go 66. *)
Definition flag_lettered (fl : list cli_flag) (c : ascii) : option cli_flag :=
  List.find (fun f => match cf_short f with Some d => char_eqb d c | None => false end) fl.

(** Whether the flag has a NoOptDefVal (library): exactly those of type Bool have one. For
    cmd/root.go 63-108. *)
Definition is_switch (f : cli_flag) : bool := match cf_kind f with KBool => true | _ => false end.

(** strings.SplitN(s, "=", 2) (library), as pflag uses it for the flags of cmd/root.go
    63-108. *)
Fixpoint split_equals (s : string) : string * option string :=
  match s with
  | "" => ("", None)
  | String c r => if char_eqb c "=" then ("", Some r) else let '(a, b) := split_equals r in (String c a, b)
  end.

(** The forms of an argument that pflag.parseArgs (library) tells apart, for cmd/root.go
    50: a word, two dashes, a long flag, letters. *)
Inductive shape := SWord | SDashes | SLong (rest : string) | SLetters (rest : string).

(** pflag.FlagSet.parseArgs (library), for cmd/root.go 50. *)
Definition shape_of (s : string) : shape :=
  match s with
  | "" => SWord
  | String c r =>
      if char_eqb c "-" then
        match r with
        | "" => SWord
        | String d r' => if char_eqb d "-" then (if String.eqb r' "" then SDashes else SLong r') else SLetters r
        end
      else SWord
  end.

(** The word of a command: not empty and without a dash. cobra.stripFlags (library), for
    cmd/root.go 50. *)
Definition word (s : string) : bool := match s with "" => false | String c _ => negb (char_eqb c "-") end.

(** Whether cobra.stripFlags and argsMinusFirstX (library) take the next argument for the
    value of this one, for cmd/root.go 50. *)
Definition takes_next (fl : list cli_flag) (s : string) : bool :=
  match shape_of s with
  | SLong r =>
      match split_equals r with
      | (_, Some _) => false
      | (n, None) => match flag_named fl n with Some f => negb (is_switch f) | None => true end
      end
  | SLetters (String c "") =>
      if char_eqb c "=" then false
      else match flag_lettered fl c with Some f => negb (is_switch f) | None => true end
  | _ => false
  end.

(** cobra.stripFlags (library), for cmd/root.go 50. *)
Fixpoint strip_flags (fl : list cli_flag) (args : list string) : list string :=
  match args with
  | [] => []
  | s :: rest =>
      match shape_of s with
      | SDashes => []
      | _ =>
          if takes_next fl s then match rest with _ :: rest' => strip_flags fl rest' | [] => [] end
          else if word s then s :: strip_flags fl rest
          else strip_flags fl rest
      end
  end.

(** cobra.Command.argsMinusFirstX (library), for cmd/root.go 50. *)
Fixpoint minus_first (fl : list cli_flag) (args : list string) (x : string) : list string :=
  match args with
  | [] => []
  | s :: rest =>
      match shape_of s with
      | SDashes => args
      | _ =>
          if takes_next fl s then match rest with v :: rest' => s :: v :: minus_first fl rest' x | [] => [s] end
          else if word s && String.eqb s x then rest
          else s :: minus_first fl rest x
      end
  end.

(** cobra.Command.findNext (library), for cmd/root.go 50; there are no aliases. *)
Definition find_next (n : string) (cs : list cli_command) : option cli_command :=
  List.find (fun c => String.eqb (cc_name c) n) cs.

(** cobra.Command.Find, innerfind (library), for cmd/root.go 50: the words that name the
    command, what is handed down to it, the command, and the arguments without these
    words.  Each step takes one argument away, so that their number bounds the steps. *)
Fixpoint find_command (fuel : nat) (inh : list cli_flag) (c : cli_command) (args : list string) :
    list string * list cli_flag * cli_command * list string :=
  match fuel with
  | 0 => ([], inh, c, args)
  | S fuel' =>
      match strip_flags (flags_at inh c) args with
      | [] => ([], inh, c, args)
      | w :: _ =>
          match find_next w (cc_below c) with
          | None => ([], inh, c, args)
          | Some c' =>
              let '(p, i, c'', a) := find_command fuel' (cc_down c ++ inh)%list c' (minus_first (flags_at inh c) args w) in
              (w :: p, i, c'', a)
          end
      end
  end.

(** Setting a flag to a value: pflag's Set of the types (library), for cmd/root.go 63-108.
    [int] reads whole numbers, for strconv.ParseInt(s, 0, 64) (library). *)
Definition value_ok (int : string -> option Z) (k : flag_kind) (v : string) : bool :=
  match k with
  | KBool => match parse_bool v with Some _ => true | None => false end
  | KInt => match int v with Some _ => true | None => false end
  | KString => true
  end.

(** pflag.FlagSet.parseShortArg (library), for cmd/root.go 66: all flags with a letter are
    of type Bool.  Left out: letters that begin with test. are skipped. *)
Fixpoint parse_letters (int : string -> option Z) (fl : list cli_flag) (s : string) : option (list (string * string)) :=
  match s with
  | "" => Some []
  | String c r =>
      match flag_lettered fl c with
      | None => None
      | Some f =>
          match r with
          | String d (String e v) =>
              if char_eqb d "=" then
                if value_ok int (cf_kind f) (String e v) then Some [(cf_name f, String e v)] else None
              else match parse_letters int fl r with Some l => Some ((cf_name f, "true") :: l) | None => None end
          | _ => match parse_letters int fl r with Some l => Some ((cf_name f, "true") :: l) | None => None end
          end
      end
  end.

(** A flag is set and the rest is read. pflag.FlagSet.Set (library), for cmd/root.go 63-108. *)
Definition put (int : string -> option Z) (f : cli_flag) (v : string)
    (r : option (list (string * string) * list string)) : option (list (string * string) * list string) :=
  if value_ok int (cf_kind f) v then
    match r with Some (given, words) => Some ((cf_name f, v) :: given, words) | None => None end
  else None.

(** pflag.FlagSet.parseArgs and parseLongArg (library), for cmd/root.go 50: the flags that
    are given, in their order, and the words; [None]: an error. *)
Fixpoint parse_args (int : string -> option Z) (fl : list cli_flag) (args : list string) :
    option (list (string * string) * list string) :=
  match args with
  | [] => Some ([], [])
  | s :: rest =>
      match shape_of s with
      | SWord => match parse_args int fl rest with Some (given, words) => Some (given, s :: words) | None => None end
      | SDashes => Some ([], rest)
      | SLetters r =>
          match parse_letters int fl r, parse_args int fl rest with
          | Some l, Some (given, words) => Some ((l ++ given)%list, words)
          | _, _ => None
          end
      | SLong r =>
          match r with
          | "" => None
          | String c _ =>
              if char_eqb c "-" || char_eqb c "=" then None
              else
                let '(n, v) := split_equals r in
                match flag_named fl n with
                | None => None
                | Some f =>
                    match v with
                    | Some v => put int f v (parse_args int fl rest)
                    | None =>
                        if is_switch f then put int f "true" (parse_args int fl rest)
                        else match rest with
                             | v :: rest' => put int f v (parse_args int fl rest')
                             | [] => None
                             end
                    end
                end
          end
      end
  end.

(** The value of a flag after parsing: the last one that was given. pflag (library), for
    cmd/root.go 63-108. *)
Fixpoint last_given (n : string) (given : list (string * string)) : option string :=
  match given with
  | [] => None
  | (m, v) :: l => match last_given n l with Some x => Some x | None => if String.eqb m n then Some v else None end
  end.

(** A flag of type Bool. cmd/root.go 63-108. *)
Definition bool_given (n : string) (given : list (string * string)) : option bool :=
  match last_given n given with Some v => parse_bool v | None => None end.

(** What becomes of a command line, cmd/root.go 47-54: an error and status 255, the help
    of a command, the version, or the command is run with these flags and words.  Only in
    the last case the configuration is read before (initConfig, cmd/root.go 57). *)
Inductive cli_result :=
| Refused
| ShowsHelp (command : list string)
| ShowsVersion
| RunsCommand (command : list string) (given : list (string * string)) (words : list string).

(** The flag --help that cobra (library) adds to each command before it parses. For
    cmd/root.go 50. *)
Definition help_flag : cli_flag := CliFlag "help" (Some "h"%char) KBool.

(** cmd/root.go 47-54: Execute, with cobra's ExecuteC, legacyArgs and execute (library).
    Left out: that completion and the commands below it refuse words, after the
    configuration has been read. *)
Definition execute_in (int : string -> option Z) (root : cli_command) (args : list string) : cli_result :=
  let '(p, inh, c, rest) := find_command (S (length args)) [] root args in
  if bool_decide (p = []) && negb (bool_decide (cc_below c = [])) && negb (bool_decide (strip_flags (flags_at inh c) rest = []))
  then Refused
  else
    match parse_args int (help_flag :: flags_at inh c) rest with
    | None => Refused
    | Some (given, words) =>
        if bool_decide (bool_given "help" given = Some true) then ShowsHelp p
        else if bool_decide (p = []) && bool_decide (bool_given "version" given = Some true) then ShowsVersion
        else if cc_runs c then RunsCommand p given words else ShowsHelp p
    end.

(** cmd/root.go 47-54. *)
Definition execute (int : string -> option Z) (args : list string) : cli_result := execute_in int pkgr args.

(** cmd/root.go 62-109: the flags that end in the configuration, for Flags.init_settings. *)
Definition flags_of (int : string -> option Z) (given : list (string * string)) : flags := {|
  fl_no_update := bool_given "no-update" given; fl_update := default false (bool_given "update" given);
  fl_no_rollback := bool_given "no-rollback" given; fl_no_secure := bool_given "no-secure" given;
  fl_strict := bool_given "strict" given; fl_library := last_given "library" given;
  fl_threads := match last_given "threads" given with Some v => int v | None => None end
|}.

(** cmd/add.go 54-59, cmd/remove.go 46-51, cmd/inspect.go 104-105: the commands that read
    their words; help of cobra (library) does too. *)
Definition reads_words (p : list string) : bool :=
  bool_decide (p ∈ [["add"]; ["remove"]; ["inspect"]; ["help"]]).
