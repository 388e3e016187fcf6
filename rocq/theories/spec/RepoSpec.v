(** Independent vocabulary for repositories and package selection. *)
From stdpp Require Import strings list gmap.
From Coq Require Import Ascii ZArith.
From Verif.model Require Import Version Desc Nexus RepoDb.
From Verif.spec Require Import VersionSpec.

Local Open Scope string_scope.

(** [x] is the last element of [l] satisfying [P]. *)
Definition last_such {A} (P : A -> Prop) (l : list A) (x : A) : Prop :=
  exists l1 l2, l = (l1 ++ x :: l2)%list /\ P x /\ (forall y, y ∈ l2 -> ~ P y).

(** [x] is the first element of [l] satisfying [P]. *)
Definition first_such {A} (P : A -> Prop) (l : list A) (x : A) : Prop :=
  exists l1 l2, l = (l1 ++ x :: l2)%list /\ P x /\ (forall y, y ∈ l1 -> ~ P y).

(** The components of an R version. *)
Definition rv_values (rv : r_version) : list Z :=
  [Z.of_N (rv_major rv); Z.of_N (rv_minor rv); Z.of_N (rv_patch rv)].

Definition rv_ok (rv : r_version) : Prop := Forall (fun z => z < 2 ^ 63)%Z (rv_values rv).

(** The operator of a parsed constraint. *)
Definition op_of_constraint (c : constraint) : option relop :=
  match c with
  | CNone => None
  | CGTE => Some OpGe | CGT => Some OpGt | CEquals => Some OpEq
  | CLTE => Some OpLe | CLT => Some OpLt
  end.

(** The running R satisfies the entry for R of the package, if it has one.  An
    entry without operator counts as not satisfied: this is what the code does
    and not what one expects, see C72. *)
Definition r_satisfied (rv : r_version) (d : desc) : Prop :=
  match d_depends d !! "R" with
  | None => True
  | Some c =>
      match op_of_constraint (dep_constraint c) with
      | None => False
      | Some op =>
          let v := dep_version c in
          relop_holds op (lex_compare (rv_values rv)
            [v_major v; v_minor v; v_patch v; v_dev v; v_other v])
      end
  end.

(** A record of an index that can be used. *)
Definition usable_record (rv : r_version) (p : string) (d : desc) : Prop :=
  d_package d = p /\ r_satisfied rv d /\ d_path d = "".

(** The source type in which [pkg] is looked for in [db]: the package's own
    setting, else the default of the whole configuration; the repository's
    default only counts for packages without any customization. *)
Definition wanted_type (nx : nexus) (pkg : string) (db : repo_db) (st : source_type) : Prop :=
  match nx_packages nx !! pkg with
  | Some c => (pc_type c <> STDefault /\ st = pc_type c) \/
              (pc_type c = STDefault /\ st = nx_default nx)
  | None => (db_default db <> STDefault /\ st = db_default db) \/
            (db_default db = STDefault /\ st = nx_default nx)
  end.

(** The repositories a package may come from. *)
Definition allowed_repo (nx : nexus) (pkg : string) (db : repo_db) : Prop :=
  forall c, nx_packages nx !! pkg = Some c -> ru_name (pc_repo c) <> "" ->
    ru_name (pc_repo c) = ru_name (db_repo db).

(** The index for a source type; should there be several, the first one. *)
Definition index_for (l : list (source_type * gmap string desc)) (st : source_type) (m : gmap string desc) : Prop :=
  exists l1 l2, l = (l1 ++ (st, m) :: l2)%list /\ st ∉ l1.*1.

(** The index for a source type has the record [d] under [pkg]. *)
Definition has_record (l : list (source_type * gmap string desc)) (st : source_type) (pkg : string) (d : desc) : Prop :=
  exists m, index_for l st m /\ m !! pkg = Some d.

Definition offers (nx : nexus) (pkg : string) (db : repo_db) (d : desc) (st : source_type) : Prop :=
  wanted_type nx pkg db st /\ allowed_repo nx pkg db /\ has_record (db_types db) st pkg d.

(** Every record is filed under its own name. *)
Definition nexus_ok (nx : nexus) : Prop :=
  forall db st p d, db ∈ nx_db nx -> has_record (db_types db) st p d -> d_package d = p.
