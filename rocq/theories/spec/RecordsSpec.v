(** What is said about the text of log files, and about secrets in them. *)
From stdpp Require Import strings list gmap.
From Coq Require Import Ascii NArith.
From Verif.model Require Import GoStr Logging Json Records.
From Verif.spec Require Import EnvSpec JsonSpec.

Local Open Scope string_scope.

(** A text in lines, each of which ends with a new line. *)
Fixpoint no_newline (s : string) : Prop :=
  match s with "" => True | String c r => N_of_ascii c <> 10%N /\ no_newline r end.

Inductive in_lines : string -> list string -> Prop :=
| in_lines_nil : in_lines "" []
| in_lines_cons l t ls : no_newline l -> in_lines t ls -> in_lines (l +:+ String (ascii_of_N 10) t) (l :: ls).

(** The names that the formatter uses itself. *)
Definition reserved (k : string) : Prop := k = "time" \/ k = "msg" \/ k = "level" \/ k = "logrus_error".

(** The words for the levels. *)
Definition level_word (l : level) (w : string) : Prop :=
  (l = LPanic /\ w = "panic") \/ (l = LFatal /\ w = "fatal") \/ (l = LError /\ w = "error") \/ (l = LWarn /\ w = "warning") \/
  (l = LInfo /\ w = "info") \/ (l = LDebug /\ w = "debug") \/ (l = LTrace /\ w = "trace").

(** What a reader should find: the level, the message and, if it is written, the time; each
    field under its name, or behind a prefix if the name is reserved.  If a field has such a
    prefix in its name already, the one with the reserved name counts. *)
Definition shows (timed : bool) (e : log_entry) (k : string) (x : json) : Prop :=
  (k = "level" /\ exists w, level_word (en_level e) w /\ x = JStr w) \/
  (k = "msg" /\ x = JStr (en_msg e)) \/
  (timed = true /\ k = "time" /\ x = JStr (en_time e)) \/
  (exists r, reserved r /\ k = "fields." +:+ r /\ en_fields e !! r = Some x) \/
  (~ reserved k /\ (forall r, reserved r -> k = "fields." +:+ r -> en_fields e !! r = None) /\ en_fields e !! k = Some x).

Definition tells (timed : bool) (e : log_entry) (v : json) : Prop :=
  exists l, v = JObj l /\ NoDup l.*1 /\ forall k x, (k, x) ∈ l <-> shows timed e k x.

(** All texts of a value are UTF-8. *)
Inductive Utf8_json : json -> Prop :=
| uj_null : Utf8_json JNull
| uj_bool b : Utf8_json (JBool b)
| uj_num n : Utf8_json (JNum n)
| uj_neg p : Utf8_json (JNeg p)
| uj_str s : Utf8 s -> Utf8_json (JStr s)
| uj_arr l : Forall Utf8_json l -> Utf8_json (JArr l)
| uj_obj l : Forall (fun kx => Utf8 kx.1 /\ Utf8_json kx.2) l -> Utf8_json (JObj l).

Definition utf8_entry (e : log_entry) : Prop :=
  Utf8 (en_msg e) /\ Utf8 (en_time e) /\ forall k v, en_fields e !! k = Some v -> Utf8 k /\ Utf8_json v.

(** The records of some events, and that the file is neither overwritten nor the disk full. *)
Definition records (evs : list log_event) : list log_entry :=
  omap (fun x => match x with Fired e => Some e | _ => None end) evs.

Definition appending (x : log_event) : Prop :=
  match x with Opened true | Short _ _ => False | _ => True end.

(** A line is the record [e], and nothing else. *)
Definition line_of (t : string) (e : log_entry) : Prop :=
  (exists v, Reads t v) /\ forall v, Reads t v -> tells true e v.

(** Two environments that differ in values of sensitive variables only. *)
Inductive same_but_secret : string -> string -> Prop :=
| same_variable ev : same_but_secret ev ev
| secret_variable name v w : sensitive name -> v <> "" -> w <> "" ->
    same_but_secret (name +:+ "=" +:+ v) (name +:+ "=" +:+ w).
