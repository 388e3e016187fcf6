(** Executing an install plan concurrently: rcmd/install.go 395-551
    (InstallPackagePlan) and rcmd/worker.go.  The goroutines (main, the one that
    receives requests, the workers, the one that handles updates) are interleaved
    arbitrarily.  Accesses to shared variables are atomic steps (the data race on
    anyFailed is not modelled further); what installing a package does is left
    open, it ends with one of [result]. *)
From stdpp Require Import strings list gmap.
From Coq Require Import ZArith.
From Verif.model Require Import GoStr Graph.

Local Open Scope string_scope.

(** rcmd/worker.go 61-67: NewInstallQueue, capacities of the two queues. *)
Definition workq_cap : nat := 2000.

(** rcmd/worker.go 67: the capacity of the channel of updates. *)
Definition updq_cap : nat := 500.

(** rcmd/install.go 395-404: The plan (with the iteration order of DepDb) and the number
    of workers. *)
Record job := Job {
  j_starting : list string; j_depdb : gmap string (list string); j_keys : list string; j_workers : nat
}.

(** rcmd/install.go 420: iDeps. *)
Definition dependents (j : job) (p : string) : list string :=
  default [] (invert_dependencies (j_depdb j) (j_keys j) !! p).

(** rcmd/install.go 453: plan.DepDb[maybeInstall]; nil for a missing key. *)
Definition needed (j : job) (p : string) : list string := default [] (j_depdb j !! p).

(** How installing ends: without error (Err is nil), and whether the binary, if any, can
    be copied to the cache afterwards (471-495); or with an error. This is
    rcmd/install.go 428, 471-495. *)
Inductive result := ROk (copied : bool) | RFail.

(** rcmd/install.go 532-536. *)
Inductive main_state :=
| MFeed (l : list string)               (** in the loop over StartingPackages *)
| MSend (p : string) (l : list string)  (** after wg.Add(1), sending p *)
| MWait                                 (** in wg.Wait() *)
| MWoken                                (** after wg.Wait() *)
| MReturned (e : option (list string)). (** error with the failed packages, or nil *)

(** rcmd/install.go 500-528. *)
Inductive requester_state :=
| RIdle
| RGot (p : string)    (** received p *)
| RPush (p : string).  (** p was marked as requested; pushing it *)

(** rcmd/worker.go 11-49, 90-104: a worker.  Simplified: Stop (54-58) is called nowhere, so
    that Quit is left out. *)
Inductive worker_state :=
| WIdle
| WBusy (p : string)
| WPost (p : string) (r : result).

(** rcmd/install.go 427-498 and rcmd/worker.go 80-87. *)
Inductive updater_state :=
| UIdle
| UCheck (rest : list string) (copied : bool)            (** dependents to look at *)
| USend (q : string) (rest : list string) (copied : bool) (** after wg.Add(1), sending q *)
| UDone.                                                  (** at wg.Done() *)

(** rcmd/install.go 407-536: the main goroutine, the counter of the wait
    group, the requester and its map, the queue of requests, the workers, the queue of
    updates, the updater, and the variables installedPkgs, anyFailed and failedPkgs. *)
Record state := State {
  s_main : main_state;
  s_wg : Z;
  s_req : requester_state;
  s_requested : list string;
  s_workq : list string;
  s_workers : list worker_state;
  s_updq : list (string * result);
  s_upd : updater_state;
  s_installed : list string;
  s_any_failed : bool;
  s_failed : list string
}.

(** rcmd/install.go 532: before the loop. *)
Definition initial (j : job) : state :=
  State (MFeed (j_starting j)) 0 RIdle [] [] (replicate (j_workers j) WIdle) [] UIdle [] false [].

(** rcmd/install.go 456, 510: lookup in a map used as a set. *)
Definition is_in (p : string) (l : list string) : bool := existsb (String.eqb p) l.

(** rcmd/install.go 454-460. *)
Definition all_installed (j : job) (q : string) (installed : list string) : bool :=
  forallb (fun d => is_in d installed) (needed j q).

(** rcmd/install.go 395-551. What can be observed of a step. *)
Inductive label :=
| Tau
| Start (p : string)               (** a worker starts installing p *)
| Finish (p : string) (r : result) (** it is done *)
| Drop (p : string)                (** the request for p is dropped *)
| Return (e : option (list string)).

(** rcmd/install.go 395-551: one step of one of the goroutines; lines are given for
    each. *)
Inductive step (j : job) : state -> label -> state -> Prop :=
(** 532-533 *)
| main_add p l wg rq rs wq ws uq u ins af fl :
    step j (State (MFeed (p :: l)) wg rq rs wq ws uq u ins af fl) Tau
           (State (MSend p l) (wg + 1) rq rs wq ws uq u ins af fl)
(** 534: the channel is unbuffered *)
| main_send p l wg rs wq ws uq u ins af fl :
    step j (State (MSend p l) wg RIdle rs wq ws uq u ins af fl) Tau
           (State (MFeed l) wg (RGot p) rs wq ws uq u ins af fl)
| main_wait wg rq rs wq ws uq u ins af fl :
    step j (State (MFeed []) wg rq rs wq ws uq u ins af fl) Tau
           (State MWait wg rq rs wq ws uq u ins af fl)
(** 536 *)
| main_woken rq rs wq ws uq u ins af fl :
    step j (State MWait 0 rq rs wq ws uq u ins af fl) Tau
           (State MWoken 0 rq rs wq ws uq u ins af fl)
(** 546-550 *)
| main_return wg rq rs wq ws uq u ins af fl :
    step j (State MWoken wg rq rs wq ws uq u ins af fl) (Return (if af then Some fl else None))
           (State (MReturned (if af then Some fl else None)) wg rq rs wq ws uq u ins af fl)
(** 503-506 *)
| req_failed m wg p rs wq ws uq u ins fl :
    step j (State m wg (RGot p) rs wq ws uq u ins true fl) (Drop p)
           (State m wg RIdle rs wq ws uq u ins true fl)
(** 510-513 *)
| req_seen m wg p rs wq ws uq u ins fl :
    is_in p rs = true ->
    step j (State m wg (RGot p) rs wq ws uq u ins false fl) (Drop p)
           (State m wg RIdle rs wq ws uq u ins false fl)
(** 515 *)
| req_mark m wg p rs wq ws uq u ins fl :
    is_in p rs = false ->
    step j (State m wg (RGot p) rs wq ws uq u ins false fl) Tau
           (State m wg (RPush p) (p :: rs) wq ws uq u ins false fl)
(** 519-526 and rcmd/worker.go 107-109 *)
| req_push m wg p rs wq ws uq u ins af fl :
    length wq < workq_cap ->
    step j (State m wg (RPush p) rs wq ws uq u ins af fl) Tau
           (State m wg RIdle rs (wq ++ [p])%list ws uq u ins af fl)
(** rcmd/worker.go 17-24 *)
| work_start m wg rq rs p wq w1 w2 uq u ins af fl :
    step j (State m wg rq rs (p :: wq) (w1 ++ WIdle :: w2)%list uq u ins af fl) (Start p)
           (State m wg rq rs wq (w1 ++ WBusy p :: w2)%list uq u ins af fl)
(** rcmd/worker.go 24: InstallFunc returns *)
| work_finish m wg rq rs p r wq w1 w2 uq u ins af fl :
    step j (State m wg rq rs wq (w1 ++ WBusy p :: w2)%list uq u ins af fl) (Finish p r)
           (State m wg rq rs wq (w1 ++ WPost p r :: w2)%list uq u ins af fl)
(** rcmd/worker.go 33-40 *)
| work_post m wg rq rs p r wq w1 w2 uq u ins af fl :
    length uq < updq_cap ->
    step j (State m wg rq rs wq (w1 ++ WPost p r :: w2)%list uq u ins af fl) Tau
           (State m wg rq rs wq (w1 ++ WIdle :: w2)%list (uq ++ [(p, r)])%list u ins af fl)
(** 428-431 *)
| upd_failed m wg rq rs wq ws p uq ins af fl :
    step j (State m wg rq rs wq ws ((p, RFail) :: uq) UIdle ins af fl) Tau
           (State m wg rq rs wq ws uq UDone ins true (fl ++ [p])%list)
(** 449-452 *)
| upd_ok m wg rq rs wq ws p c uq ins af fl :
    step j (State m wg rq rs wq ws ((p, ROk c) :: uq) UIdle ins af fl) Tau
           (State m wg rq rs wq ws uq (UCheck (dependents j p) c) (p :: ins) af fl)
(** 461-462 *)
| upd_suggest m wg rq rs wq ws uq q l c ins fl :
    all_installed j q ins = true ->
    step j (State m wg rq rs wq ws uq (UCheck (q :: l) c) ins false fl) Tau
           (State m (wg + 1) rq rs wq ws uq (USend q l c) ins false fl)
| upd_skip m wg rq rs wq ws uq q l c ins af fl :
    all_installed j q ins && negb af = false ->
    step j (State m wg rq rs wq ws uq (UCheck (q :: l) c) ins af fl) Tau
           (State m wg rq rs wq ws uq (UCheck l c) ins af fl)
(** 467 *)
| upd_send m wg rs wq ws uq q l c ins af fl :
    step j (State m wg RIdle rs wq ws uq (USend q l c) ins af fl) Tau
           (State m wg (RGot q) rs wq ws uq (UCheck l c) ins af fl)
(** 471-495 *)
| upd_copied m wg rq rs wq ws uq ins af fl :
    step j (State m wg rq rs wq ws uq (UCheck [] true) ins af fl) Tau
           (State m wg rq rs wq ws uq UDone ins af fl)
(** 484-487: returns without wg.Done() *)
| upd_copy_error m wg rq rs wq ws uq ins af fl :
    step j (State m wg rq rs wq ws uq (UCheck [] false) ins af fl) Tau
           (State m wg rq rs wq ws uq UIdle ins af fl)
(** 497 *)
| upd_done m wg rq rs wq ws uq ins af fl :
    step j (State m wg rq rs wq ws uq UDone ins af fl) Tau
           (State m (wg - 1) rq rs wq ws uq UIdle ins af fl).

(** Executions, with what is observed, oldest first. They are about rcmd/install.go
    395-551. *)
Inductive execution (j : job) : state -> list label -> state -> Prop :=
| ex_nil s : execution j s [] s
| ex_snoc s ls s' l s'' : execution j s ls s' -> step j s' l s'' -> execution j s (ls ++ [l])%list s''.

(** No goroutine of rcmd/install.go 395-551 can make a step. *)
Definition stuck (j : job) (s : state) : Prop := forall l s', ~ step j s l s'.
