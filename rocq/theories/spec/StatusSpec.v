(** What the status of a command should say. *)
From stdpp Require Import strings list gmap.
From Coq Require Import Ascii.
From Verif.model Require Import Plan Fs Clean Status.

(** The command plan has done its work: a plan was made, and in strict mode the library
    is there. *)
Definition plan_done (strict library_exists : bool) (p : planned_install) : Prop :=
  (exists nx ip, p = PIPlan nx ip) /\ (strict = true -> library_exists = true).

(** R could be run, and the session ended well. *)
Definition run_done (version_known : bool) (r : session) : Prop := version_known = true /\ r = Ended 0.

(** The cache was cleaned, without an error. *)
Definition clean_done (r : clean_result) : Prop := exists f, r = Cleaned f false.

(** A file that can be read and written without an error. *)
Definition sound (c : config_file) : Prop := cn_readable c = None /\ cn_room c = None.
