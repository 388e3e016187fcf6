(** What is said about add --install: C156. *)
From stdpp Require Import strings list gmap.
From Verif.model Require Import GoStr Fs Start Reread.

Local Open Scope string_scope.

(** What the text of cmd/add.go promises: the same as add and then install. *)
Definition add_then_install (p : process) (listed : string -> option (list string)) (files : list string -> option string)
    (cwd : list string) (name : string) (pkgs : list string) : option (configuration * list string * (list string -> option string)) :=
  match add_alone p listed files cwd name pkgs with
  | None => None
  | Some files' => install_alone p files' cwd name
  end.

(** The flags --library and --no-update have values, given or not. *)
Definition flags_there (v : settings) : Prop := is_Some (st_single v !! "library") /\ is_Some (st_single v !! "noupdate").

(** The second settings are the first ones with more packages, none of them null. *)
Definition more_packages (v v' : settings) : Prop :=
  st_single v' = st_single v /\ st_maps v' = st_maps v /\
  (forall k, k <> "packages" -> st_lists v' !! k = st_lists v !! k) /\
  exists l', st_lists v' !! "packages" = Some l' /\ None ∉ l' /\
    length (default [] (st_lists v !! "packages")) <= length l'.

(** Whoever asks for the library gets the same answer in both directories. *)
Definition same_library (p : process) (a b : list string) : Prop := forall c, pr_library p a c = pr_library p b c.
