(** InstallPackagePlan (rcmd/install.go 395-551) together with its workers, R and the
    file system: while the scheduler (Sched.v) runs, each busy worker goes through
    InstallThroughBinary (266-392) in small steps, interleaved arbitrarily with the
    other workers, with R and with the copying of binaries to the cache. *)
From stdpp Require Import strings list gmap.
From Coq Require Import Ascii ZArith.
From Verif.model Require Import GoStr Nexus RepoDb Graph Fs Stamp Yml Sched Install Download Tarballs.

Local Open Scope string_scope.

(** R CMD INSTALL as a process: it changes the file system in steps of its own, and ends
    with an exit status. It is started in rcmd/install.go 146-184. *)
Record rsystem := RSystem {
  rs_state : Type;
  rs_init : rcall -> rs_state;
  rs_step : rcall -> rs_state -> fsys -> rs_state -> fsys -> Prop;
  rs_exit : rcall -> rs_state -> fsys -> Z -> Prop
}.

(** What InstallPackagePlan is given (395-404): the downloads, the library, the versions
    of pkgr and R, the platform; and the temporary directory that is made up for each
    package (297-300). This is rcmd/install.go 297-300, 395-404. *)
Record setting := {
  e_downloads : gmap string download; e_library : path; e_pkgr : string; e_rversion : r_version;
  e_platform : string; e_where : surroundings; e_tmp : string -> path
}.

(** rcmd/install.go 297-300: a temporary directory for each package. *)
Definition surroundings_for (e : setting) (p : string) : surroundings :=
  {| s_cwd := s_cwd (e_where e); s_tmp := e_tmp e p; s_cache := s_cache (e_where e); s_os := s_os (e_where e);
     s_md5 := s_md5 (e_where e); s_read := s_read (e_where e) |}.

(** rcmd/install.go 517-526: the request for a package; dl.Get gives an empty
    download for a package it does not have. *)
Definition download_of (e : setting) (p : string) : download :=
  default {| d_path := None; d_new := false; d_wanted := empty_wanted |} (e_downloads e !! p).

(** rcmd/install.go 517-526: the request for a package. *)
Definition request_for (e : setting) (p : string) : request :=
  let d := download_of e p in
  {| q_pkg := p; q_path := match d_path d with Some x => path_text x | None => "" end;
     q_meta_pkg := w_pkg (d_wanted d); q_meta_version := w_version (d_wanted d); q_type := w_type (d_wanted d);
     q_repo := w_repo (d_wanted d); q_library := e_library e; q_build := true; q_pkgr := e_pkgr e;
     q_rversion := e_rversion e; q_platform := e_platform e |}.

(** rcmd/install.go 313-315 *)
Definition source_for (e : setting) (p : string) : path :=
  Install.resolve (s_cwd (e_where e)) (q_path (request_for e p)).

(** rcmd/install.go 360-361; [None] is fatal. *)
Definition ball_for (e : setting) (p : string) : option path :=
  match binary_ext (s_os (e_where e)) (base_name (source_for e p)) (e_platform e) with
  | Some n => Some (join_path (e_tmp e p) n)
  | None => None
  end.

(** The three calls of Install in InstallThroughBinary: with a binary from the cache
    (286), to build (341), and with the binary that was built (382). This is
    rcmd/install.go 286, 341, 382. *)
Inductive stage := Cached | Build | Final.

(** What R is called with; [None] if the program has ended before. This is
    rcmd/install.go 286-292, 341-347, 382-388. *)
Definition call_for (e : setting) (p : string) (k : stage) : option rcall :=
  match k with
  | Cached =>
      match cache_path (surroundings_for e p) (request_for e p) with
      | Some bp => Some {| rc_dir := s_cwd (e_where e); rc_library := e_library e; rc_build := false; rc_source := bp |}
      | None => None
      end
  | Build => Some {| rc_dir := e_tmp e p; rc_library := e_tmp e p; rc_build := true; rc_source := source_for e p |}
  | Final =>
      match ball_for e p with
      | Some b => Some {| rc_dir := e_tmp e p; rc_library := e_library e; rc_build := false; rc_source := b |}
      | None => None
      end
  end.

(** rcmd/install.go 254-255: the request that is used for stamping. *)
Definition stage_request (e : setting) (p : string) (k : stage) : request :=
  match k with Cached => as_binary (request_for e p) | _ => request_for e p end.

(** Where a worker is in InstallThroughBinary. This is rcmd/install.go 266-392. *)
Inductive wstate (X : Type) :=
| WLook                 (** before 270: is the package in the library? *)
| WCache                (** before 282: is a binary in the cache? *)
| WTmp                  (** before 301: MkdirAll *)
| WFile (k : stage)     (** in Install, before 103: does the file exist? *)
| WRun (k : stage) (x : X)  (** in Install, 157: R is running *)
| WStamp (k : stage)    (** in Install, before 177: writeDescriptionInfo *)
| WClean (code : Z) (err : bool)  (** before 349: the package is removed from the temporary directory *)
| WBall                 (** before 359: is there a binary? *)
| WEnd (code : Z) (err : bool) (binary : option path).  (** returning *)
Arguments WLook {X}. Arguments WCache {X}. Arguments WTmp {X}. Arguments WFile {X} k. Arguments WRun {X} k x.
Arguments WStamp {X} k. Arguments WClean {X} code err. Arguments WBall {X}. Arguments WEnd {X} code err binary.

(** Install returns to InstallThroughBinary with an exit code and possibly an error.
    This is rcmd/install.go 294, 348, 389. *)
Definition after_install {X : Type} (e : setting) (p : string) (k : stage) (code : Z) (err : bool) : wstate X :=
  match k with
  | Cached => WEnd code err None
  | Build => WClean code err
  | Final => WEnd code err (ball_for e p)
  end.

(** A step of the worker that installs [p]. This is rcmd/install.go 266-392. *)
Inductive wstep (e : setting) (Rs : rsystem) (p : string) : wstate (rs_state Rs) -> fsys -> wstate (rs_state Rs) -> fsys -> Prop :=
| w_present f : fs_dir_exists f (join_path (e_library e) p) = true ->
    wstep e Rs p WLook f (WEnd (-999) false None) f
| w_absent f : fs_dir_exists f (join_path (e_library e) p) = false -> wstep e Rs p WLook f WCache f
| w_cached f bp : cache_path (surroundings_for e p) (request_for e p) = Some bp -> fs_exists f bp = true ->
    wstep e Rs p WCache f (WFile Cached) f
| w_not_cached f bp : cache_path (surroundings_for e p) (request_for e p) = Some bp -> fs_exists f bp = false ->
    wstep e Rs p WCache f WTmp f
| w_tmp f f' : mkdir_all (e_tmp e p) f = Some f' -> wstep e Rs p WTmp f (WFile Build) f'
| w_no_file f k c : call_for e p k = Some c -> fs_exists f (rc_source c) = false ->
    wstep e Rs p (WFile k) f (after_install e p k 1 false) f
| w_call f k c : call_for e p k = Some c -> fs_exists f (rc_source c) = true ->
    wstep e Rs p (WFile k) f (WRun k (rs_init Rs c)) f
| w_r f k c x x' f' : call_for e p k = Some c -> rs_step Rs c x f x' f' ->
    wstep e Rs p (WRun k x) f (WRun k x') f'
| w_r_ok f k c x : call_for e p k = Some c -> rs_exit Rs c x f 0 -> wstep e Rs p (WRun k x) f (WStamp k) f
| w_r_fail f k c x code : call_for e p k = Some c -> rs_exit Rs c x f code -> code <> 0%Z ->
    wstep e Rs p (WRun k x) f (after_install e p k code true) f
| w_stamp f k c : call_for e p k = Some c ->
    wstep e Rs p (WStamp k) f (after_install e p k 0 false)
      (write_description (surroundings_for e p) (stage_request e p k) (rc_library c) f)
| w_clean f code err :
    let inst := join_path (e_tmp e p) p in
    wstep e Rs p (WClean code err) f
      (if negb err && (code =? 0)%Z then WBall else WEnd code err None)
      (if fs_dir_exists f inst then remove_all inst f else f)
| w_ball f b : ball_for e p = Some b -> fs_exists f b = true -> wstep e Rs p WBall f (WFile Final) f
| w_no_ball f b : ball_for e p = Some b -> fs_exists f b = false -> wstep e Rs p WBall f (WEnd 1 true None) f.

(** Places where log.Fatal ends the program: rcmd/helpers.go 21 and 40, rcmd/install.go 303. *)
Inductive wstop (e : setting) (p : string) {X : Type} : wstate X -> fsys -> Prop :=
| w_stop_os f : cache_path (surroundings_for e p) (request_for e p) = None -> wstop e p WCache f
| w_stop_tmp f : mkdir_all (e_tmp e p) f = None -> wstop e p WTmp f
| w_stop_ext f : ball_for e p = None -> wstop e p WBall f.

(** What the scheduler gets to know (428, 471-487): whether there was an error; copying
    the binary may fail later on. This is rcmd/install.go 428, 471-487. *)
Inductive result_of : bool -> option path -> result -> Prop :=
| ro_fail b : result_of true b RFail
| ro_none : result_of false None (ROk true)
| ro_copy b c : result_of false (Some b) (ROk c).

(** rcmd/install.go 472-482: the directory for binaries and the copy. *)
Definition binary_dir (e : setting) (p : string) : path :=
  join_path (match d_path (download_of e p) with Some x => removelast (removelast x) | None => s_cwd (e_where e) end) "binary".

(** rcmd/install.go 477-481: where the binary is copied to. *)
Definition store_for (e : setting) (p : string) (ball : path) : path :=
  join_path (join_path (binary_dir e p) (rv_short (e_rversion e))) (base_name ball).

(** os.Mkdir, errors ignored. Used in rcmd/install.go 476. *)
Definition make_dir (d : path) (f : fsys) : fsys := fun q =>
  if bool_decide (q = d /\ f d = None /\ f (removelast d) = Some Dir) then Some Dir else f q.

(** rcmd/install.go 476-497: the binary is copied and removed from the temporary
    directory, or copying fails, possibly after writing the beginning of the copy. *)
Inductive copy_step (dir store ball : path) : bool -> fsys -> fsys -> Prop :=
| cp_done f c : make_dir dir f ball = Some (File c) -> make_dir dir f (removelast store) = Some Dir ->
    make_dir dir f store <> Some Dir ->
    copy_step dir store ball true f
      (fun q => if bool_decide (q = ball) then None else if bool_decide (q = store) then Some (File c) else make_dir dir f q)
| cp_nothing f : copy_step dir store ball false f (make_dir dir f)
| cp_part f c r : make_dir dir f ball = Some (File (c +:+ r)) -> make_dir dir f (removelast store) = Some Dir ->
    make_dir dir f store <> Some Dir ->
    copy_step dir store ball false f
      (fun q => if bool_decide (q = store) then Some (File c) else make_dir dir f q).

(** The copies that are to be made: package, binary, and whether it will succeed. This
    is rcmd/install.go 471-482. *)
Definition to_copy (p : string) (r : result) (b : option path) : list (string * path * bool) :=
  match r, b with
  | ROk c, Some ball => [(p, ball, c)]
  | _, _ => []
  end.

(** rcmd/install.go 395-551: the scheduler (Sched.v), the workers that are installing,
    the copies to be made, the files, and whether the program has ended by log.Fatal. *)
Record tstate (X : Type) := TState {
  t_sched : state; t_work : gmap string (wstate X); t_copies : list (string * path * bool); t_fs : fsys;
  t_stopped : bool
}.
Arguments TState {X}. Arguments t_sched {X}. Arguments t_work {X}. Arguments t_copies {X}. Arguments t_fs {X}. Arguments t_stopped {X}.

(** rcmd/install.go 532: before the loop. *)
Definition tinitial (X : Type) (j : job) (f : fsys) : tstate X := TState (initial j) ∅ [] f false.

(** The steps of rcmd/install.go 395-551 in which no worker starts or finishes. *)
Definition plain_label (l : label) : Prop := match l with Start _ | Finish _ _ => False | _ => True end.

(** A step of the whole. The copying (in the update function, before wg.Done) may take
    place at any time after the installation here. This is rcmd/install.go 266-551. *)
Inductive tstep (e : setting) (Rs : rsystem) (j : job) : tstate (rs_state Rs) -> list label -> tstate (rs_state Rs) -> Prop :=
| ts_sched s l s' W C f : step j s l s' -> plain_label l ->
    tstep e Rs j (TState s W C f false) [l] (TState s' W C f false)
| ts_start s p s' W C f : step j s (Start p) s' ->
    tstep e Rs j (TState s W C f false) [Start p] (TState s' (<[p := WLook]> W) C f false)
| ts_finish s p r s' W C f code err b : W !! p = Some (WEnd code err b) -> result_of err b r -> step j s (Finish p r) s' ->
    tstep e Rs j (TState s W C f false) [Finish p r] (TState s' (delete p W) (C ++ to_copy p r b)%list f false)
| ts_work s p w w' W C f f' : W !! p = Some w -> wstep e Rs p w f w' f' ->
    tstep e Rs j (TState s W C f false) [] (TState s (<[p := w']> W) C f' false)
| ts_stop s p w W C f : W !! p = Some w -> wstop e p w f ->
    tstep e Rs j (TState s W C f false) [] (TState s W C f true)
(** R goes on after log.Fatal *)
| ts_orphan s p k c x x' W C f f' : W !! p = Some (WRun k x) -> call_for e p k = Some c -> rs_step Rs c x f x' f' ->
    tstep e Rs j (TState s W C f true) [] (TState s (<[p := WRun k x']> W) C f' true)
| ts_copy s p ball ok W C1 C2 f f' : copy_step (binary_dir e p) (store_for e p ball) ball ok f f' ->
    tstep e Rs j (TState s W (C1 ++ (p, ball, ok) :: C2)%list f false) [] (TState s W (C1 ++ C2)%list f' false).

(** rcmd/install.go 266-551: executions, with what is seen, oldest first. *)
Inductive together (e : setting) (Rs : rsystem) (j : job) (s : tstate (rs_state Rs)) : list label -> tstate (rs_state Rs) -> Prop :=
| tg_nil : together e Rs j s [] s
| tg_snoc ls s' l s'' : together e Rs j s ls s' -> tstep e Rs j s' l s'' -> together e Rs j s (ls ++ l)%list s''.

(** cmd/install.go 122-135: InstallPackagePlan and installAdditionalPackages, one after
    the other.  All copies have been made when the former returns (it waits for wg.Done
    in 499).  The two flags: whether they return an error. *)
Inductive installs (e : setting) (Rs : rsystem) (j : job) (R : rprog) (l : list (string * additional)) (f : fsys) :
  bool -> bool -> fsys -> Prop :=
| installs_all ls st errs ae f' t : together e Rs j (tinitial _ j f) ls st -> t_stopped st = false -> t_copies st = [] ->
    s_main (t_sched st) = MReturned errs ->
    install_additional R (e_where e) (e_pkgr e) (e_library e) l (t_fs st) = (ae, f', t) ->
    installs e Rs j R l f (match errs with Some _ => true | None => false end) ae f'.

(** A worker on its own. This is rcmd/install.go 266-392. *)
Inductive alone (e : setting) (Rs : rsystem) (p : string) : wstate (rs_state Rs) -> fsys -> wstate (rs_state Rs) -> fsys -> Prop :=
| al_nil w f : alone e Rs p w f w f
| al_step w f w1 f1 w2 f2 : wstep e Rs p w f w1 f1 -> alone e Rs p w1 f1 w2 f2 -> alone e Rs p w f w2 f2.

(** R as a function (Install.v), run in one step. This is for rcmd/install.go
    146-184. *)
Definition rs_of (R : rprog) : rsystem := {|
  rs_state := option Z; rs_init := fun _ => None;
  rs_step := fun c x f x' f' => x = None /\ exists code, R c f = (code, f') /\ x' = Some code;
  rs_exit := fun c x f code => x = Some code
|}.
