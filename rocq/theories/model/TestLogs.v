(** What the end-to-end tests read from the log of pkgr: testhelper/e2e_tests.go, and the
    messages of cmd/plan.go 355-381 as records of the log. *)
From stdpp Require Import strings list gmap sorting.
From Coq Require Import Ascii ZArith NArith.
From Verif.model Require Import GoStr Nexus RepoDb Origins Logging Json Records.

Local Open Scope string_scope.

(** cmd/plan.go 363 and 378, testhelper/e2e_tests.go 269: the message. *)
Definition set_key : string := "package repository set".

(** cmd/plan.go 357-363, 372-378: a message about an origin as a record; the type is written
    as a number (cran/download-package.go 38-60). *)
Definition origin_entry (time : string) (o : origin) : log_entry :=
  LogEntry LDebug set_key time
    {["pkg" := JStr (og_package o); "repo" := JStr (og_repo o); "type" := JNum (source_type_number (og_type o));
      "version" := JStr (og_version o); "relationship" := JStr (if og_user o then "user_defined" else "dependency")]}.

(** testhelper/e2e_tests.go 123-130: PkgRepoSetMsg. *)
Record set_msg := SetMsg {
  sm_msg : string; sm_pkg : string; sm_relationship : string; sm_repo : string; sm_version : string; sm_type : Z
}.

(** testhelper/e2e_tests.go 274: before Unmarshal. *)
Definition empty_msg : set_msg := SetMsg "" "" "" "" "" 0.

(** encoding/json.Unmarshal (library) into a string: null changes nothing. Used in
    testhelper/e2e_tests.go 275. *)
Definition text_of (old : string) (v : json) : option string :=
  match v with JStr s => Some s | JNull => Some old | _ => None end.

(** encoding/json.Unmarshal (library) into an int. Used in testhelper/e2e_tests.go 275. *)
Definition int_of (old : Z) (v : json) : option Z :=
  match v with
  | JNum n => if (Z.of_N n <? 2 ^ 63)%Z then Some (Z.of_N n) else None
  | JNeg p => if (Z.pos p <=? 2 ^ 63)%Z then Some (Z.neg p) else None
  | JNull => Some old
  | _ => None
  end.

(** encoding/json.Unmarshal (library) into a PkgRepoSetMsg: one member of an object.
    Simplified: names are compared as if all letters were ASCII. Used in
    testhelper/e2e_tests.go 275. *)
Definition set_member (m : set_msg) (kv : string * json) : option set_msg :=
  let 'SetMsg g p r o v t := m in
  if equal_fold kv.1 "msg" then (fun s => SetMsg s p r o v t) <$> text_of g kv.2
  else if equal_fold kv.1 "pkg" then (fun s => SetMsg g s r o v t) <$> text_of p kv.2
  else if equal_fold kv.1 "relationship" then (fun s => SetMsg g p s o v t) <$> text_of r kv.2
  else if equal_fold kv.1 "repo" then (fun s => SetMsg g p r s v t) <$> text_of o kv.2
  else if equal_fold kv.1 "version" then (fun s => SetMsg g p r o s t) <$> text_of v kv.2
  else if equal_fold kv.1 "type" then (fun z => SetMsg g p r o v z) <$> int_of t kv.2
  else Some m.

(** The members of an object, one after the other. Used in testhelper/e2e_tests.go 275. *)
Fixpoint set_members (m : set_msg) (l : list (string * json)) : option set_msg :=
  match l with
  | [] => Some m
  | kv :: l' => match set_member m kv with Some m' => set_members m' l' | None => None end
  end.

(** testhelper/e2e_tests.go 274-275; [parse] is the syntax of encoding/json (library), [None]
    an error. *)
Definition read_set_msg (parse : string -> option json) (line : string) : option set_msg :=
  match parse line with
  | Some (JObj l) => set_members empty_msg l
  | Some JNull => Some empty_msg
  | _ => None
  end.

(** testhelper/e2e_tests.go 272-281 and 343-352: the loop over the lines; [None] is t.Fatalf. *)
Fixpoint collect_lines {A} (pick : string -> bool) (read : string -> option A) (lines : list string) : option (list A) :=
  match lines with
  | [] => Some []
  | line :: rest =>
      if pick line then
        match read line with
        | Some x => (fun l => x :: l) <$> collect_lines pick read rest
        | None => None
        end
      else collect_lines pick read rest
  end.

(** testhelper/e2e_tests.go 270 and 342: the lines. *)
Definition output_lines (capture : string) : list string := split_char (ascii_of_nat 10) capture.

(** testhelper/e2e_tests.go 145-154, 167-175, 182-198: the word for a type. *)
Definition type_word (t : Z) : string :=
  if (t =? 1)%Z then "source" else if (t =? 2)%Z then "binary" else "unknown".

(** testhelper/e2e_tests.go 178-212: ComparePkgRepoSetMsg; strings.Compare compares bytes. *)
Definition compare_msgs (a b : set_msg) : comparison :=
  if negb (String.eqb (sm_pkg a) (sm_pkg b)) then String.compare (sm_pkg a) (sm_pkg b)
  else if negb (String.eqb (sm_version a) (sm_version b)) then String.compare (sm_version a) (sm_version b)
  else if negb (String.eqb (sm_repo a) (sm_repo b)) then String.compare (sm_repo a) (sm_repo b)
  else if negb (String.eqb (sm_relationship a) (sm_relationship b)) then String.compare (sm_relationship a) (sm_relationship b)
  else if negb (sm_type a =? sm_type b)%Z then String.compare (type_word (sm_type a)) (type_word (sm_type b))
  else Eq.

(** testhelper/e2e_tests.go 265-288: CollectPkgRepoSetLogs.  sort.Slice (library) leaves the
    order of equal elements open. *)
Definition set_logs (parse : string -> option json) (capture : string) (l : list set_msg) : Prop :=
  exists l0, collect_lines (contains set_key) (read_set_msg parse) (output_lines capture) = Some l0 /\
    l ≡ₚ l0 /\ StronglySorted (fun a b => compare_msgs b a <> Lt) l.

(** testhelper/e2e_tests.go 132-141: ToString. *)
Definition msg_text (m : set_msg) : string :=
  "msg: '" +:+ sm_msg m +:+ "', pkg: '" +:+ sm_pkg m +:+ "', version: '" +:+ sm_version m +:+ "', repo: '" +:+ sm_repo m +:+
  "', relationship: " +:+ sm_relationship m +:+ "'".

(** testhelper/e2e_tests.go 145-165: ToStringWithType. *)
Definition msg_text_type (m : set_msg) : string := msg_text m +:+ ", type: " +:+ type_word (sm_type m).

(** testhelper/e2e_tests.go 240-250: ToString and ToBytes of a collection. *)
Definition golden (l : list set_msg) : string := join newline (map msg_text l).

(** testhelper/e2e_tests.go 252-262: with the types. *)
Definition golden_type (l : list set_msg) : string := join newline (map msg_text_type l).

(** testhelper/e2e_tests.go 220-228: Contains. *)
Fixpoint has_msg (l : list set_msg) (pkg version repo relationship : string) : bool :=
  match l with
  | [] => false
  | m :: l' =>
      if String.eqb (sm_pkg m) pkg && String.eqb (sm_version m) version && String.eqb (sm_repo m) repo &&
         String.eqb (sm_relationship m) relationship then true
      else has_msg l' pkg version repo relationship
  end.

(** testhelper/e2e_tests.go 230-238: ContainsWithType. *)
Fixpoint has_msg_type (l : list set_msg) (pkg version repo relationship type : string) : bool :=
  match l with
  | [] => false
  | m :: l' =>
      if String.eqb (sm_pkg m) pkg && String.eqb (sm_version m) version && String.eqb (sm_repo m) repo &&
         String.eqb (sm_relationship m) relationship && String.eqb (type_word (sm_type m)) type then true
      else has_msg_type l' pkg version repo relationship type
  end.

(** testhelper/e2e_tests.go 337-357: CollectGenericLogs, for any regular expression and any
    struct: [pick] is MatchString and [read] is Unmarshal. *)
Definition generic_logs {A} (pick : string -> bool) (read : string -> option A) (capture : string) : option (list A) :=
  collect_lines pick read (output_lines capture).

(** testhelper/e2e_tests.go 327-335: FilterByPackageTag; [pkg] is the field Pkg. *)
Fixpoint filter_by_tag {A} (pkg : A -> string) (name : string) (l : list A) : list A :=
  match l with
  | [] => []
  | x :: l' => if String.eqb (pkg x) name then x :: filter_by_tag pkg name l' else filter_by_tag pkg name l'
  end.

(** testhelper/e2e_tests.go 94-97: Collect of a PkgrJsonLogOutput with the lines [logs]: the
    lines after it.  The receiver is a value, so that the caller keeps those it had. *)
Definition collect_output (logs : list string) (results : string) : list string :=
  let lo_Logs := split_char (ascii_of_nat 10) results in logs.

(** testhelper/e2e_tests.go 99-120: Contains: the texts, whether something was found, and
    whether there was an error.  The field msg is not exported, so that Unmarshal (library)
    leaves it empty; it accepts objects and null. *)
Fixpoint output_contains (parse : string -> option json) (logs : list string) (search : string)
    (matched : list string) (found : bool) : list string * bool * bool :=
  match logs with
  | [] => (matched, found, false)
  | line :: rest =>
      match parse line with
      | Some (JObj _) | Some JNull =>
          if contains search "" then output_contains parse rest search (matched ++ [""])%list true
          else output_contains parse rest search matched found
      | _ => ([], found, true)
      end
  end.
