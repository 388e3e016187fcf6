(** The customizations of packages as they are written in the configuration file:
    configlib/config.go 36-45, 222-236, 293-346, configlib/structs.go. *)
From stdpp Require Import strings list gmap.
From Coq Require Import Ascii ZArith NArith.
From Verif.model Require Import GoStr Version Desc Nexus Pacman Graph Plan Urls.

Local Open Scope string_scope.

(** What yaml.v2 makes of the value of one key of a package (configlib/structs.go 4-9).
    [WMany]: a sequence or a map that is not empty.  Simplified: no floating point numbers. *)
Inductive written := WNull | WBool (b : bool) | WInt (z : Z) | WText (s : string) | WMany.

(** The value of a package in an entry (configlib/config.go 225-228): nothing, a map, or
    something else. *)
Inductive package_value := VNull | VMap (l : list (string * written)) | VOther.

(** One element of the list Packages (configlib/config.go 224-225).  Simplified: no sequence
    inside the sequence; the keys of a map are texts, in the order in which the map is
    iterated. *)
Inductive element := ENull | EMap (l : list (string * package_value)) | EOther.

(** The value of Customizations.Packages (configlib/config.go 300). *)
Inductive packages_value := PNull | PSeq (l : list element) | PMap (l : list (string * package_value)) | PText (s : string).

(** ** viper.Unmarshal: configlib/config.go 42 *)

(** mapstructure, for configlib/config.go 42: the value of a field of that name, the exact
    name first, then without regard to case. *)
Definition field (name : string) (l : list (string * written)) : written :=
  match assoc name l with
  | Some v => v
  | None => match List.find (fun kv => equal_fold kv.1 name) l with Some kv => kv.2 | None => WNull end
  end.

(** strconv.ParseBool (library), for configlib/config.go 42. *)
Definition parse_bool (s : string) : option bool :=
  if bool_decide (s ∈ ["1"; "t"; "T"; "true"; "TRUE"; "True"]) then Some true
  else if bool_decide (s ∈ ["0"; "f"; "F"; "false"; "FALSE"; "False"]) then Some false
  else None.

(** mapstructure with WeaklyTypedInput, for configlib/config.go 42: a field of type bool;
    [None]: an error. *)
Definition weak_bool (w : written) : option bool :=
  match w with
  | WNull => Some false
  | WBool b => Some b
  | WInt z => Some (negb (Z.eqb z 0))
  | WText s => if String.eqb s "" then Some false else parse_bool s
  | WMany => None
  end.

(** strconv.FormatInt (library), for configlib/config.go 42. *)
Definition int_text (z : Z) : string :=
  if (z <? 0)%Z then "-" +:+ itoa (Z.to_N (- z)) else itoa (Z.to_N z).

(** mapstructure with WeaklyTypedInput, for configlib/config.go 42: a field of type string. *)
Definition weak_text (w : written) : option string :=
  match w with
  | WNull => Some ""
  | WBool b => Some (if b then "1" else "0")
  | WInt z => Some (int_text z)
  | WText s => Some s
  | WMany => None
  end.

(** configlib/config.go 42 with configlib/structs.go 4-9: a package; [None]: an error.
    Simplified: Env is in model/Start.v and is taken to be right here. *)
Definition decode_package (v : package_value) : option custom :=
  match v with
  | VNull => Some (Custom [] false "" "")
  | VMap l =>
      match weak_bool (field "Suggests" l), weak_text (field "Repo" l), weak_text (field "Type" l) with
      | Some s, Some r, Some t => Some (Custom (map fst l) s r t)
      | _, _, _ => None
      end
  | VOther => None
  end.

(** configlib/config.go 42 with configlib/structs.go 31-32: the packages of a map. *)
Definition decode_map (l : list (string * package_value)) : option (list (string * custom)) :=
  mapM (fun kv => (fun c => (kv.1, c)) <$> decode_package kv.2) l.

(** configlib/config.go 42 with configlib/structs.go 32: an element of the list. *)
Definition decode_element (e : element) : option (list (string * custom)) :=
  match e with
  | ENull => Some []
  | EMap l => decode_map l
  | EOther => None
  end.

(** viper.AllSettings, for configlib/config.go 42 and 300: of maps only the values that are
    not null are kept. *)
Definition has_leaf (v : package_value) : bool :=
  match v with
  | VNull => false
  | VMap l => existsb (fun kv => match kv.2 with WNull => false | _ => true end) l
  | VOther => true
  end.

(** configlib/config.go 42 with configlib/structs.go 32.  A map is taken as a list of one
    element; an empty text is taken as an empty list, another text as a list of texts.
    Simplified: in the form of a map the names of packages have no dots, and viper's change
    to lower case is left out, as the names are not used (line 300 panics). *)
Definition decode_packages (v : packages_value) : option customs :=
  match v with
  | PNull => Some []
  | PSeq l => mapM decode_element l
  | PMap l =>
      match List.filter (fun kv => has_leaf kv.2) l with
      | [] => Some []
      | k => (fun m => [m]) <$> decode_map k
      end
  | PText s => if String.eqb s "" then Some [] else None
  end.

(** ** IsCustomizationSet: configlib/config.go 222-236 *)

(** configlib/config.go 223-236; [None]: one of the type assertions of lines 225 and 227
    panics. *)
Fixpoint is_set (key : string) (elems : list element) (p : string) : option bool :=
  match elems with
  | [] => Some false
  | EMap m :: r =>
      match assoc p m with
      | None => is_set key r p
      | Some (VMap l) => if existsb (String.eqb key) (map fst l) then Some true else is_set key r p
      | Some _ => None
      end
  | _ :: _ => None
  end.

(** ** SetPlanCustomizations: configlib/config.go 293-346 *)

(** How it ends: with settings, with log.Fatal (configlib/config.go 44, 331, 340), or with a
    panic (225, 227, 300). *)
Inductive custom_end := CDone (st : install_deps * nexus) | CFatal | CPanic.

(** configlib/config.go 325-333: the repository of a package. *)
Definition written_repo (elems : list element) (p : string) (v : custom) (nx : nexus) : option (option nexus) :=
  match is_set "Repo" elems p with
  | None => None
  | Some b => Some (if b then set_package_repo nx p (cu_repo v) else Some nx)
  end.

(** configlib/config.go 334-342: the type of a package. *)
Definition written_type (elems : list element) (p : string) (v : custom) (nx : nexus) : option (option nexus) :=
  match is_set "Type" elems p with
  | None => None
  | Some b => Some (if b then set_package_type nx p (cu_type v) else Some nx)
  end.

(** configlib/config.go 319-343: one package of one element. *)
Definition apply_written (elems : list element) (kv : string * custom) (st : install_deps * nexus) : custom_end :=
  let '(p, v) := kv in
  let '(cfg, nx) := st in
  match is_set "Suggests" elems p with
  | None => CPanic
  | Some b =>
      let cfg := if b then set_suggests p (cu_suggests v) cfg else cfg in
      match written_repo elems p v nx with
      | None => CPanic
      | Some None => CFatal
      | Some (Some nx) =>
          match written_type elems p v nx with
          | None => CPanic
          | Some None => CFatal
          | Some (Some nx) => CDone (cfg, nx)
          end
      end
  end.

(** configlib/config.go 316-345: setViperCustomizations. *)
Fixpoint apply_all (elems : list element) (l : list (string * custom)) (st : install_deps * nexus) : custom_end :=
  match l with
  | [] => CDone st
  | kv :: l' =>
      match apply_written elems kv st with
      | CDone st' => apply_all elems l' st'
      | e => e
      end
  end.

(** configlib/config.go 42-45, then 294-303: NewConfig and SetPlanCustomizations.  The global
    settings come first.  The elements are looked at if one was decoded (299), and then the
    value has to be a sequence (300). *)
Definition plan_customizations (suggests : bool) (pkgs : list string) (v : packages_value) (cfg : install_deps) (nx : nexus)
    : custom_end :=
  match decode_packages v with
  | None => CFatal
  | Some [] => CDone (set_cfg_customizations suggests pkgs cfg, nx)
  | Some cs =>
      match v with
      | PSeq elems => apply_all elems (concat cs) (set_cfg_customizations suggests pkgs cfg, nx)
      | _ => CPanic
      end
  end.
