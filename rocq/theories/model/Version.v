(** Versions and dependency entries: desc/version.go, desc/desc.go (ParseDep),
    desc/dep.go, desc/structs.go (Constraint). *)
From stdpp Require Import strings list.
From Coq Require Import Ascii ZArith.
From Verif.model Require Import GoStr.

Local Open Scope string_scope.

(** desc/structs.go 39-48: [Version]. *)
Record version := Version {
  v_major : Z; v_minor : Z; v_patch : Z; v_dev : Z; v_other : Z;
  v_string : string
}.

(** The byte class [[\.-]] of desc/version.go 11. *)
Definition is_version_sep (c : ascii) : bool :=
  char_eqb c "."%char || char_eqb c "-"%char.

(** desc/version.go 12-24: the error is dropped, and a missing part is 0. *)
Definition atoi_or_0 (o : option string) : Z :=
  match o with Some s => fst (atoi s) | None => 0 end.

(** desc/version.go 9-26: [ParseVersion].  [None] is the index-out-of-range
    panic at line 13 when there is a single part. *)
Definition parse_version (v : string) : option version :=
  let parts := split_on_n is_version_sep 4 v in
  match parts with
  | major :: minor :: _ =>
      Some (Version (fst (atoi major)) (fst (atoi minor))
                    (atoi_or_0 (parts !! 2)) (atoi_or_0 (parts !! 3))
                    (atoi_or_0 (parts !! 4)) v)
  | _ => None
  end.

(** desc/version.go 36-69: [CompareVersions]. *)
Definition compare_versions (a b : version) : Z :=
  if (v_major a <? v_major b)%Z then -1
  else if (v_major a >? v_major b)%Z then 1
  else if (v_minor a <? v_minor b)%Z then -1
  else if (v_minor a >? v_minor b)%Z then 1
  else if (v_patch a <? v_patch b)%Z then -1
  else if (v_patch a >? v_patch b)%Z then 1
  else if (v_dev a <? v_dev b)%Z then -1
  else if (v_dev a >? v_dev b)%Z then 1
  else if (v_other a <? v_other b)%Z then -1
  else if (v_other a >? v_other b)%Z then 1
  else 0.

(** desc/version.go 29-31: [CompareVersionStrings]; [None] is a panic. *)
Definition compare_version_strings (a b : string) : option Z :=
  match parse_version a, parse_version b with
  | Some va, Some vb => Some (compare_versions va vb)
  | _, _ => None
  end.

(** desc/version.go 74-88 and 91: [isLowerVersion], [Versions.Less]. *)
Definition is_lower_version (a b : version) : bool :=
  if (v_major a <? v_major b)%Z then true
  else if (v_minor a <? v_minor b)%Z then true
  else if (v_dev a <? v_dev b)%Z then true
  else if (v_other a <? v_other b)%Z then true
  else false.

(** desc/structs.go 23-32: [Constraint]. *)
Inductive constraint := CNone | CGTE | CGT | CEquals | CLTE | CLT.

(** desc/structs.go 6-21: [Constraint.ToString]. *)
Definition constraint_to_string (c : constraint) : string :=
  match c with
  | CGT => ">" | CGTE => ">=" | CLT => "<" | CLTE => "<=" | CEquals => "=="
  | CNone => "Unknown constraint"
  end.

(** The zero value of [Version]. This is desc/structs.go 39-48. *)
Definition zero_version : version := Version 0 0 0 0 0 "".

(** desc/structs.go 50-55: [Dep]. *)
Record dep := Dep { dep_name : string; dep_version : version; dep_constraint : constraint }.

(** desc/desc.go 19-46: [ParseDep].  [None] is a panic (line 42, or
    [ParseVersion] on a version without separator). *)
Definition parse_dep (d : string) : option dep :=
  match split_char "("%char d with
  | [] => None
  | name :: rest =>
      let n := trim_space name in
      match rest with
      | [] => Some (Dep n zero_version CNone)
      | sp1 :: _ =>
          let pv := replace1 ")" "" sp1 in
          let mk c v := match parse_version (trim_space v) with
                        | Some ver => Some (Dep n ver c)
                        | None => None
                        end in
          if contains "==" pv then mk CEquals (replace1 "==" "" pv)
          else if contains ">=" pv then mk CGTE (replace1 ">=" " " pv)
          else if contains ">" pv then mk CGT (replace1 ">" " " pv)
          else if contains "<=" pv then mk CLTE (replace1 "<=" " " pv)
          else if contains "<" pv then mk CLT (replace1 "<" " " pv)
          else None
      end
  end.

(** desc/dep.go 8-10: [Dep.ToString]. *)
Definition dep_to_string (d : dep) : string :=
  dep_name d +:+ " (" +:+ constraint_to_string (dep_constraint d) +:+ " "
    +:+ v_string (dep_version d) +:+ ")".
