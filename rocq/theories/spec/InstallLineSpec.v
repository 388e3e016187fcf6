(** What is said about whole runs of a command line for install: C166. *)
From stdpp Require Import strings list gmap.
From Coq Require Import Ascii ZArith.
From Verif.model Require Import GoStr Version Desc Nexus RepoDb Graph Plan Fs Rollback Sched Install Download Tarballs Together Urls Fetching Config Cli Flags InstallLine.
From Verif.spec Require Import StrSpec YmlSpec ConfigSpec StartSpec RepoSpec GraphSpec PlanSpec LibSpec SchedSpec InstallSpec TarballSpec TogetherSpec ApartSpec FetchingSpec EndSpec CliSpec LoadLineSpec.

Local Open Scope string_scope.

(** The path of the library: as it is written in the line, or else in PKGR_LIBRARY, or else in
    the file; or else as the lock file says. *)
Definition library_text (w : install_case) (ts : list token) (r : string) : Prop :=
  (exists l, asks_for (last_given "library" (given_in ts)) (va_library (ic_vars w)) (fi_library (ic_keys w)) l /\ l <> "" /\
     home_path (ic_home w) l (Some r)) \/
  (asks_nothing (last_given "library" (given_in ts)) (va_library (ic_vars w)) (fi_library (ic_keys w)) /\
    ((ic_lock w = "packrat" /\ plain_name (ic_platform w) /\ plain_name (rv_full (ic_version w)) /\
        r = "packrat/lib/" +:+ ic_platform w +:+ "/" +:+ rv_full (ic_version w)) \/
     (ic_lock w = "renv" /\ exists pre l post, l <> "" /\ (forall y, y ∈ pre -> ~ occurs "_pkgr_" y) /\
        (forall y, y ∈ pre ++ ["_pkgr_" +:+ l +:+ "_pkgr_"] ++ post -> unix_line y)%list /\
        ic_renv w = Some (text (pre ++ ["_pkgr_" +:+ l +:+ "_pkgr_"] ++ post)%list) /\ home_path (ic_home w) l (Some r)))).

(** It is the directory [lib], seen from the directory [dir]. *)
Definition names_library (w : install_case) (ts : list token) (dir lib : path) : Prop :=
  exists r, library_text w ts r /\ stands_for dir r lib.

(** Records are filed under their names, there is no package R, maps are traversed in some
    order, and the DESCRIPTION files that are read are in order. *)
Record sound_case (w : install_case) : Prop := {
  sc_nexus : nexus_ok (ic_nexus w); sc_r : no_record (ic_nexus w) "R"; sc_orders : oracle_ok (ic_orders w);
  sc_tarballs : Forall desc_deps_ok (ic_tarballs w); sc_descriptions : Forall desc_deps_ok (ic_descriptions w)
}.

(** What the configuration asks for, together with what it needs; [deps] and [nx] are the
    settings and the databases with the customizations. *)
Definition asked_for (w : install_case) (deps : install_deps) (nx : nexus) (q : string) : Prop :=
  exists p, PlanSpec.wanted (ic_file w) (ic_tarballs w) (ic_descriptions w) p /\ p ∉ r_base /\ rtc (pulls deps nx) p q.

Definition customized (w : install_case) (deps : install_deps) (nx : nexus) : Prop :=
  set_plan_customizations (cf_suggests (ic_file w)) (cf_packages (ic_file w)) (Plan.cf_customs (ic_file w))
    (default_config (cf_no_recommended (ic_file w))) (ignore_packages (ic_nexus w) (cf_ignore (ic_file w))) = Some (deps, nx).

(** R does what it should, in these directories. *)
Record sound_r (Rs : rsystem) (R : rprog) (name : path -> string) : Prop := {
  sr_only : rs_only Rs name; sr_installs : rs_installs Rs name; sr_only' : r_only R (fun _ => name);
  sr_trees : r_trees R; sr_installs' : r_installs R (fun _ => name)
}.

(** Names that can be names of files, directories apart from each other, and unpacked
    tarballs that are there. *)
Record sound_run (w : install_case) (e : Together.setting) (x : fetch_env) (name : path -> string) (ds : list path)
    (ip : install_plan) (keys add add' : list string) (l : list (string * additional)) (n : nat) : Prop := {
  su_names : forall p, p ∈ get_all_packages ip keys add -> r_name p;
  su_fetch : fetch_ok x (wants ip);
  su_arranged : arranged e x (Job (ip_starting ip) (ip_depdb ip) keys n) name ds;
  su_installable : installable (fun _ => name) (e_library e) l;
  su_unpacked : forall p a, (p, a) ∈ l -> in_some ds (removelast (ad_path a))
}.
