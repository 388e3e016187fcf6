(** Temporary directories: rcmd/utils.go, rcmd/configure.go, rcmd/install.go. *)
From stdpp Require Import strings list.
From Coq Require Import Ascii ZArith.
From Verif.model Require Import GoStr Fs.

Local Open Scope string_scope.

Section temp.

(** math/rand: the [i]-th number below 25 that a generator started with [seed] gives.
    Used in rcmd/utils.go 15-23. *)
Variable draw : Z -> nat -> nat.

(** rcmd/utils.go 15-23: randomString; [now] is the clock in nanoseconds. *)
Fixpoint letters (now : Z) (i len : nat) : string :=
  match len with
  | 0 => ""
  | S len => String (ascii_of_nat (65 + draw now i)) (letters now (S i) len)
  end.

(** rcmd/utils.go 15-23: randomString. *)
Definition random_string (now : Z) (len : nat) : string := letters now 0 len.

(** rcmd/configure.go 79-83, rcmd/install.go 297-300: the directory, [tmp] being
    os.TempDir(). *)
Definition temp_dir (tmp : path) (now : Z) : path := (tmp ++ [random_string now 12])%list.

(** A run, as far as temporary directories are concerned: the files, the directories in
    which packages are built, and those given to R as R_LIBS_USER. This is about
    rcmd/install.go 297-304 and rcmd/configure.go 79-90. *)
Record temp_state := { tp_fs : fsys; tp_builds : list path; tp_users : list path }.

(** rcmd/install.go 297-304 (a build), rcmd/configure.go 79-90 (an environment), and R,
    which changes directories of builds and files that are not below the temporary
    directory.  Nothing removes the directories.  Simplified: directories can be made
    (an error ends the program in a build and is a warning for R_LIBS_USER), and the
    files that R has of its own in the temporary directory are left out. *)
Inductive temp_step (tmp : path) : temp_state -> temp_state -> Prop :=
| tp_build now f f' bs us : mkdir_all (temp_dir tmp now) f = Some f' ->
    temp_step tmp {| tp_fs := f; tp_builds := bs; tp_users := us |}
      {| tp_fs := f'; tp_builds := temp_dir tmp now :: bs; tp_users := us |}
| tp_user now f f' bs us : mkdir_all (temp_dir tmp now) f = Some f' ->
    temp_step tmp {| tp_fs := f; tp_builds := bs; tp_users := us |}
      {| tp_fs := f'; tp_builds := bs; tp_users := temp_dir tmp now :: us |}
| tp_r f f' bs us :
    (forall q, f' q <> f q -> (exists d s, d ∈ bs /\ q = (d ++ s)%list) \/ strip tmp q = None) ->
    temp_step tmp {| tp_fs := f; tp_builds := bs; tp_users := us |}
      {| tp_fs := f'; tp_builds := bs; tp_users := us |}.

(** Before the first directory of rcmd/install.go 297-304 and rcmd/configure.go
    79-90. *)
Definition temp_start (f : fsys) : temp_state := {| tp_fs := f; tp_builds := []; tp_users := [] |}.

End temp.
