(** What is said about the command line: C158. *)
From stdpp Require Import strings list.
From Coq Require Import Ascii ZArith.
From Verif.model Require Import GoStr Customs Flags Cli.

Local Open Scope string_scope.

(** What someone writes: a word, a flag with its value after an equals sign, a flag alone,
    a flag and its value as the next argument. *)
Inductive token := TWord (w : string) | TSet (n v : string) | TSwitch (n : string) | TNext (n v : string).

(** The arguments that it is written as. *)
Definition written_as (t : token) : list string :=
  match t with
  | TWord w => [w]
  | TSet n v => ["--" +:+ n +:+ "=" +:+ v]
  | TSwitch n => ["--" +:+ n]
  | TNext n v => ["--" +:+ n; v]
  end.

Definition line_of (ts : list token) : list string := concat (map written_as ts).

(** The words and the flags that are meant. *)
Definition words_of (ts : list token) : list string :=
  concat (map (fun t => match t with TWord w => [w] | _ => [] end) ts).
Definition given_in (ts : list token) : list (string * string) :=
  concat (map (fun t => match t with TWord _ => [] | TSet n v => [(n, v)] | TSwitch n => [(n, "true")] | TNext n v => [(n, v)] end) ts).

(** A command of pkgr: it is found by its names from the root. *)
Fixpoint command_at (inh : list cli_flag) (c : cli_command) (p : list string) : option (list cli_flag * cli_command) :=
  match p with
  | [] => Some (inh, c)
  | n :: p' => match find_next n (cc_below c) with Some c' => command_at (cc_down c ++ inh)%list c' p' | None => None end
  end.

(** A readable value of a flag. *)
Definition readable (int : string -> option Z) (f : cli_flag) (v : string) : Prop :=
  match cf_kind f with KBool => is_Some (parse_bool v) | KString => True | KInt => is_Some (int v) end.

(** What may be written for a command with these flags. *)
Definition proper (int : string -> option Z) (fl : list cli_flag) (t : token) : Prop :=
  match t with
  | TWord w => exists c r, w = String c r /\ c <> "-"%char
  | TSet n v => exists f, flag_named fl n = Some f /\ readable int f v
  | TSwitch n => exists f, flag_named fl n = Some f /\ cf_kind f = KBool
  | TNext n v => exists f, flag_named fl n = Some f /\ cf_kind f <> KBool /\ readable int f v
  end.

(** A flag alone, or with its value as the next argument, is known by [fl] as what it is. *)
Definition known (fl : list cli_flag) (t : token) : Prop :=
  match t with
  | TSwitch n => exists f, flag_named fl n = Some f /\ cf_kind f = KBool
  | TNext n _ => exists f, flag_named fl n = Some f /\ cf_kind f <> KBool
  | _ => True
  end.

(** A line for the command [p] with the words [ws]: all flags are flags of the command, and
    those in front of the last word of [p] that are not written with an equals sign are
    flags of all commands.  A command with commands below it must not find one of these in
    the first word. *)
Definition line_for_command (int : string -> option Z) (p : list string) (ts : list token) (ws : list string) : Prop :=
  exists inh c pre w post,
    command_at [] pkgr p = Some (inh, c) /\
    ts = (pre ++ TWord w :: post)%list /\ p = (words_of pre ++ [w])%list /\ words_of post = ws /\
    Forall (known (cc_down pkgr)) pre /\ Forall (proper int (help_flag :: flags_at inh c)) ts /\
    (cc_below c = [] \/
     Forall (known (flags_at inh c)) post /\ forall x, head ws = Some x -> find_next x (cc_below c) = None).
