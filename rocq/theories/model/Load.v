(** Loading packages: cmd/load.go and cmd/structs.go. *)
From stdpp Require Import strings list gmap.
From Coq Require Import ZArith.

Local Open Scope string_scope.

(** cmd/load.go 207-242: how the R session of an attempt ends. *)
Inductive attempt := ExitZero | ExitNonZero | CannotRun.

Global Instance attempt_eq_dec : EqDecision attempt.
Proof. solve_decision. Defined.

(** cmd/structs.go 36-46: LoadResult; the texts do not influence anything. *)
Record load_result := { lr_pkg : string; lr_success : bool }.

(** cmd/load.go 207-255: attemptLoad; [None]: log.Fatal. *)
Definition attempt_load (pkg : string) (a : attempt) : option load_result :=
  match a with
  | ExitZero => Some {| lr_pkg := pkg; lr_success := true |}
  | ExitNonZero => Some {| lr_pkg := pkg; lr_success := false |}
  | CannotRun => None
  end.

(** cmd/structs.go 14-33: LoadReport and AddResult. *)
Notation report_map := (gmap string load_result) (only parsing).

(** cmd/structs.go 14-18: LoadReport, without the metadata. *)
Record load_report := { rep_results : report_map; rep_failures : nat }.

(** cmd/structs.go 28-33: AddResult. *)
Definition add_result (rep : load_report) (r : load_result) : load_report :=
  {| rep_results := <[lr_pkg r := r]> (rep_results rep);
     rep_failures := if lr_success r then rep_failures rep else S (rep_failures rep) |}.

(** cmd/structs.go 20-26: InitLoadReport. *)
Definition init_report : load_report := {| rep_results := ∅; rep_failures := 0 |}.

(** cmd/load.go 200-204: a goroutine waits for the semaphore, runs R, has sent its
    result, and has released the semaphore. *)
Inductive goroutine := GWait | GRun | GSent | GEnd.

Global Instance goroutine_eq_dec : EqDecision goroutine.
Proof. solve_decision. Defined.

(** cmd/load.go 101-135. The program: goroutine [i] loads package [i] of the list. *)
Record load_state := {
  ls_gs : list goroutine;
  ls_chan : list nat;     (** results channel, oldest first *)
  ls_got : list nat;      (** results added to the report, oldest first *)
  ls_main : bool          (** load has returned *)
}.

(** cmd/load.go 229: log.Fatal ends the program. *)
Inductive outcome := Going (s : load_state) | Fatal.

(** cmd/load.go 201-203: between sending to and receiving from the semaphore. *)
Definition holds (g : goroutine) : bool := match g with GRun | GSent => true | _ => false end.

(** cmd/load.go 102, 201-203. Items in the semaphore channel. *)
Definition holders (gs : list goroutine) : nat := length (List.filter holds gs).

(** cmd/load.go 101-135: the results channel has room for [n] items, the semaphore
    for [cap].  Closing the channels and the report come when everything has been
    received. *)
Inductive lstep (n cap : nat) (ends : nat -> attempt) : outcome -> outcome -> Prop :=
| l_acquire s i : ls_main s = false -> ls_gs s !! i = Some GWait -> holders (ls_gs s) < cap ->
    lstep n cap ends (Going s)
      (Going {| ls_gs := <[i := GRun]> (ls_gs s); ls_chan := ls_chan s; ls_got := ls_got s; ls_main := false |})
| l_send s i : ls_main s = false -> ls_gs s !! i = Some GRun -> ends i <> CannotRun -> length (ls_chan s) < n ->
    lstep n cap ends (Going s)
      (Going {| ls_gs := <[i := GSent]> (ls_gs s); ls_chan := ls_chan s ++ [i]; ls_got := ls_got s; ls_main := false |})
| l_fatal s i : ls_main s = false -> ls_gs s !! i = Some GRun -> ends i = CannotRun ->
    lstep n cap ends (Going s) Fatal
| l_release s i : ls_main s = false -> ls_gs s !! i = Some GSent ->
    lstep n cap ends (Going s)
      (Going {| ls_gs := <[i := GEnd]> (ls_gs s); ls_chan := ls_chan s; ls_got := ls_got s; ls_main := false |})
| l_receive s i r : ls_main s = false -> length (ls_got s) < n -> ls_chan s = i :: r ->
    lstep n cap ends (Going s)
      (Going {| ls_gs := ls_gs s; ls_chan := r; ls_got := ls_got s ++ [i]; ls_main := false |})
| l_return s : ls_main s = false -> length (ls_got s) = n ->
    lstep n cap ends (Going s)
      (Going {| ls_gs := ls_gs s; ls_chan := ls_chan s; ls_got := ls_got s; ls_main := true |}).

(** cmd/load.go 113-123: the goroutines are started. *)
Definition linitial (n : nat) : outcome :=
  Going {| ls_gs := replicate n GWait; ls_chan := []; ls_got := []; ls_main := false |}.

(** cmd/load.go 101-135: the states that can be reached. *)
Inductive lexec (n cap : nat) (ends : nat -> attempt) : outcome -> Prop :=
| le_init : lexec n cap ends (linitial n)
| le_step o o' : lexec n cap ends o -> lstep n cap ends o o' -> lexec n cap ends o'.

(** cmd/load.go 102: the capacity of the semaphore; [None]: make panics. *)
Definition sem_cap (threads : Z) : option nat :=
  if (threads * 2 <? 0)%Z then None else Some (Z.to_nat (threads * 2)).

(** cmd/load.go 125-133: the report after receiving the results of [got]. *)
Definition report_of (pkgs : list string) (ends : nat -> attempt) (got : list nat) : load_report :=
  fold_left (fun rep i =>
    match pkgs !! i with
    | Some p => match attempt_load p (ends i) with Some r => add_result rep r | None => rep end
    | None => rep
    end) got init_report.
