(** What the documentation says about logging. *)
From stdpp Require Import strings list gmap.
From Coq Require Import Ascii.
From Verif.model Require Import GoStr Logging.
From Verif.spec Require Import StrSpec.

Local Open Scope string_scope.

(** docs/config.md 299-302: the file of a command's records. *)
Definition log_file (c : log_config) (cmd : command) (f : string) : Prop :=
  match cmd with
  | InstallCmd => lc_install c <> "" /\ f = lc_install c \/ lc_install c = "" /\ f = lc_all c
  | _ => f = lc_all c
  end.

(** The commands that open a log file once. *)
Definition logs_once (cmd : command) : Prop :=
  cmd = Add false \/ cmd = Remove \/ cmd = Clean \/ (exists json, cmd = Inspect json) \/ cmd = InstallCmd.

(** At least as severe. *)
Inductive at_least : level -> level -> Prop :=
  | al_same l : at_least l l
  | al_panic l : at_least LPanic l
  | al_fatal l : l <> LPanic -> at_least LFatal l
  | al_error l : l = LWarn \/ l = LInfo \/ l = LDebug \/ l = LTrace -> at_least LError l
  | al_warn l : l = LInfo \/ l = LDebug \/ l = LTrace -> at_least LWarn l
  | al_info l : l = LDebug \/ l = LTrace -> at_least LInfo l
  | al_debug : at_least LDebug LTrace.

(** [kept l rs ws]: [ws] are the records of [rs] that are at least as severe as [l]. *)
Inductive kept (l : level) : list record -> list record -> Prop :=
  | kept_nil : kept l [] []
  | kept_write r rs ws : at_least r.1 l -> kept l rs ws -> kept l (r :: rs) (r :: ws)
  | kept_skip r rs ws : ~ at_least r.1 l -> kept l rs ws -> kept l (r :: rs) ws.

(** The names of the levels. *)
Definition level_name (l : level) : string :=
  match l with
  | LPanic => "panic" | LFatal => "fatal" | LError => "error" | LWarn => "warn" | LInfo => "info"
  | LDebug => "debug" | LTrace => "trace"
  end.
