(** How a text is read as JSON (RFC 8259), and what the texts of pkgr should say. *)
From stdpp Require Import strings list gmap sorting.
From Coq Require Import Ascii NArith.
From Verif.model Require Import Json Desc Origins LoadCmd.
From Verif.spec Require Import GraphSpec PlanSpec.

Local Open Scope string_scope.

(** ** Characters *)

(** The characters of Unicode, by number, and their bytes in UTF-8. *)
Definition scalar (c : N) : Prop := (c < 55296 \/ (57344 <= c /\ c < 1114112))%N.

Definition byte (n : N) (s : string) : string := String (ascii_of_N n) s.

Definition utf8 (c : N) : string :=
  if (c <? 128)%N then byte c ""
  else if (c <? 2048)%N then byte (192 + c / 64) (byte (128 + c mod 64) "")
  else if (c <? 65536)%N then byte (224 + c / 4096) (byte (128 + c / 64 mod 64) (byte (128 + c mod 64) ""))
  else byte (240 + c / 262144) (byte (128 + c / 4096 mod 64) (byte (128 + c / 64 mod 64) (byte (128 + c mod 64) ""))).

(** A text in UTF-8. *)
Inductive Utf8 : string -> Prop :=
| Utf8_nil : Utf8 ""
| Utf8_cons c s : scalar c -> Utf8 s -> Utf8 (utf8 c +:+ s).

(** [Mended s s']: [s'] has the replacement character where [s] has a byte with which
    no character begins, and is [s] otherwise. *)
Inductive Mended : string -> string -> Prop :=
| Mended_nil : Mended "" ""
| Mended_char c s s' : scalar c -> Mended s s' -> Mended (utf8 c +:+ s) (utf8 c +:+ s')
| Mended_byte b s s' : (forall c r, scalar c -> String b s <> utf8 c +:+ r) -> Mended s s' ->
    Mended (String b s) (utf8 65533 +:+ s').

(** ** The reader *)

Definition is (c : ascii) (n : N) : bool := (N_of_ascii c =? n)%N.

Definition hex_value (c : ascii) : option N :=
  let n := N_of_ascii c in
  if ((48 <=? n) && (n <=? 57))%N then Some (n - 48)%N
  else if ((97 <=? n) && (n <=? 102))%N then Some (n - 87)%N
  else if ((65 <=? n) && (n <=? 70))%N then Some (n - 55)%N
  else None.

Definition hex4 (a b c d : ascii) : option N :=
  match hex_value a, hex_value b, hex_value c, hex_value d with
  | Some a, Some b, Some c, Some d => Some (4096 * a + 256 * b + 16 * c + d)%N
  | _, _, _, _ => None
  end.

(** The escapes of two characters. *)
Definition short (c : ascii) : option ascii :=
  if is c 34 || is c 92 || is c 47 then Some c
  else if is c 98 then Some (ascii_of_N 8)
  else if is c 102 then Some (ascii_of_N 12)
  else if is c 110 then Some (ascii_of_N 10)
  else if is c 114 then Some (ascii_of_N 13)
  else if is c 116 then Some (ascii_of_N 9)
  else None.

Definition before (x : string) (o : option (string * string)) : option (string * string) :=
  match o with Some (s, r) => Some (x +:+ s, r) | None => None end.

(** The text after a quote up to the next one, and what follows. *)
Fixpoint read_chars (s : string) : option (string * string) :=
  match s with
  | "" => None
  | String c r =>
      if is c 34 then Some ("", r)
      else if is c 92 then
        match r with
        | "" => None
        | String e r1 =>
            match short e with
            | Some x => before (String x "") (read_chars r1)
            | None =>
                if is e 117 then
                  match r1 with
                  | String h1 (String h2 (String h3 (String h4 r2))) =>
                      match hex4 h1 h2 h3 h4 with
                      | None => None
                      | Some n =>
                          if ((n <? 55296) || (57344 <=? n))%N then before (utf8 n) (read_chars r2)
                          else
                            match r2 with
                            | String q (String u (String l1 (String l2 (String l3 (String l4 r3))))) =>
                                match hex4 l1 l2 l3 l4 with
                                | Some m =>
                                    if is q 92 && is u 117 && ((n <? 56320) && (56320 <=? m) && (m <? 57344))%N
                                    then before (utf8 (65536 + 1024 * (n - 55296) + (m - 56320))) (read_chars r3)
                                    else None
                                | None => None
                                end
                            | _ => None
                            end
                      end
                  | _ => None
                  end
                else None
            end
        end
      else if (N_of_ascii c <? 32)%N then None
      else before (String c "") (read_chars r)
  end.

(** White space. *)
Fixpoint skip (s : string) : string :=
  match s with
  | "" => ""
  | String c r => if is c 32 || is c 9 || is c 10 || is c 13 then skip r else s
  end.

Definition decimal (c : ascii) : option N :=
  let n := N_of_ascii c in if ((48 <=? n) && (n <=? 57))%N then Some (n - 48)%N else None.

(** Numbers: integers only. *)
Fixpoint read_digits (acc : N) (s : string) : N * string :=
  match s with
  | "" => (acc, "")
  | String c r => match decimal c with Some d => read_digits (10 * acc + d) r | None => (acc, s) end
  end.

Definition read_number (d : N) (r : string) : N * string :=
  if (d =? 0)%N then (0%N, r) else read_digits d r.

Definition negative (n : N) : json := match n with N0 => JNum 0 | Npos p => JNeg p end.

Fixpoint behind (p s : string) : option string :=
  match p, s with
  | "", _ => Some s
  | String a p', String b s' => if Ascii.eqb a b then behind p' s' else None
  | _, _ => None
  end.

Definition read_word (s : string) : option (json * string) :=
  match behind "null" s with
  | Some r => Some (JNull, r)
  | None =>
      match behind "true" s with
      | Some r => Some (JBool true, r)
      | None => match behind "false" s with Some r => Some (JBool false, r) | None => None end
      end
  end.

(** Values; [fuel] is the depth of the recursion. *)
Fixpoint read_value (fuel : nat) (s : string) : option (json * string) :=
  match fuel with
  | 0 => None
  | S f =>
      match skip s with
      | "" => None
      | String c r =>
          if is c 34 then match read_chars r with Some (x, r') => Some (JStr x, r') | None => None end
          else if is c 91 then
            match skip r with
            | "" => None
            | String c' r' =>
                if is c' 93 then Some (JArr [], r')
                else match read_items f r with Some (l, r'') => Some (JArr l, r'') | None => None end
            end
          else if is c 123 then
            match skip r with
            | "" => None
            | String c' r' =>
                if is c' 125 then Some (JObj [], r')
                else match read_members f r with Some (l, r'') => Some (JObj l, r'') | None => None end
            end
          else
            match decimal c with
            | Some d => let '(n, r') := read_number d r in Some (JNum n, r')
            | None =>
                if is c 45 then
                  match r with
                  | "" => None
                  | String c' r1 =>
                      match decimal c' with
                      | Some d => let '(n, r') := read_number d r1 in Some (negative n, r')
                      | None => None
                      end
                  end
                else read_word (String c r)
            end
      end
  end
with read_items (fuel : nat) (s : string) : option (list json * string) :=
  match fuel with
  | 0 => None
  | S f =>
      match read_value f s with
      | None => None
      | Some (x, r) =>
          match skip r with
          | "" => None
          | String c r' =>
              if is c 44 then match read_items f r' with Some (l, r'') => Some (x :: l, r'') | None => None end
              else if is c 93 then Some ([x], r') else None
          end
      end
  end
with read_members (fuel : nat) (s : string) : option (list (string * json) * string) :=
  match fuel with
  | 0 => None
  | S f =>
      match skip s with
      | "" => None
      | String q r0 =>
          if is q 34 then
            match read_chars r0 with
            | None => None
            | Some (k, r1) =>
                match skip r1 with
                | "" => None
                | String c r2 =>
                    if is c 58 then
                      match read_value f r2 with
                      | None => None
                      | Some (x, r) =>
                          match skip r with
                          | "" => None
                          | String c r' =>
                              if is c 44 then
                                match read_members f r' with Some (l, r'') => Some ((k, x) :: l, r'') | None => None end
                              else if is c 125 then Some ([(k, x)], r') else None
                          end
                      end
                    else None
                end
            end
          else None
      end
  end.

(** The text [t] is the value [v]. *)
Definition Reads (t : string) (v : json) : Prop :=
  exists f r, read_value f t = Some (v, r) /\ skip r = "".

(** ** What the texts should say *)

(** All texts of a value are changed by [f]. *)
Fixpoint jmap (f : string -> string) (v : json) : json :=
  match v with
  | JStr s => JStr (f s)
  | JArr l => JArr (map (jmap f) l)
  | JObj l => JObj (map (fun kx => (f kx.1, jmap f kx.2)) l)
  | JNull | JBool _ | JNum _ | JNeg _ => v
  end.

(** A list of texts; nothing may stand for the empty list. *)
Definition says_list (l : list string) (v : json) : Prop := v = JArr (map JStr l) \/ (l = [] /\ v = JNull).

(** A map: its keys are the names, once each and in order, and each has its value. *)
Definition says_map {A} (says : A -> json -> Prop) (m : gmap string A) (v : json) : Prop :=
  exists l, v = JObj l /\ NoDup l.*1 /\ StronglySorted byte_le l.*1 /\
    (forall k x, (k, x) ∈ l -> exists a, m !! k = Some a /\ says a x) /\
    (forall k, is_Some (m !! k) -> k ∈ l.*1).

(** The member [k] of a value is [x], and no other. *)
Definition field (v : json) (k : string) (x : json) : Prop :=
  exists l, v = JObj l /\ forall y, (k, y) ∈ l <-> y = x.

Definition says_installed (x : installed_from) (v : json) : Prop :=
  exists a b c, field v "pkgr" a /\ field v "packrat" b /\ field v "unknown" c /\
    says_list (if_pkgr x) a /\ says_list (if_packrat x) b /\ says_list (if_unknown x) c.

Definition says_result (x : full_result) (v : json) : Prop :=
  field v "Package" (JStr (fr_pkg x)) /\ field v "Version" (JStr (fr_version x)) /\ field v "Path" (JStr (fr_path x)) /\
  field v "Exiterr" (JStr (fr_exiterr x)) /\ field v "Stdout" (JStr (fr_stdout x)) /\
  field v "Stderr" (JStr (fr_stderr x)) /\ field v "Success" (JBool (fr_success x)).

Definition says_report (rpath rversion : string) (rep : full_report) (v : json) : Prop :=
  exists meta libs results,
    field v "RMetadata" meta /\ field meta "LibPaths" libs /\ says_list (fl_libs rep) libs /\
    field meta "RPath" (JStr rpath) /\ field meta "RVersion" (JStr rversion) /\
    field v "LoadResults" results /\ says_map says_result (fl_results rep) results /\
    field v "Failures" (JNum (N.of_nat (fl_failures rep))).

(** The texts of a result. *)
Definition utf8_result (x : full_result) : Prop :=
  Utf8 (fr_pkg x) /\ Utf8 (fr_version x) /\ Utf8 (fr_path x) /\ Utf8 (fr_exiterr x) /\ Utf8 (fr_stdout x) /\
  Utf8 (fr_stderr x).

(** ** How texts look *)

(** A text whose characters are all such. *)
Fixpoint each_char (P : N -> Prop) (s : string) : Prop :=
  match s with "" => True | String c r => P (N_of_ascii c) /\ each_char P r end.

(** Printable characters that JSON has no escape for; the characters of HTML. *)
Definition simple_char (n : N) : Prop := (32 <= n < 128 /\ n <> 34 /\ n <> 92)%N.

Definition no_html_char (n : N) : Prop := (n <> 60 /\ n <> 62 /\ n <> 38)%N.
