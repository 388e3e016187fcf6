(** Settings: C70, C71, C80. *)
From stdpp Require Import strings list.
From Coq Require Import Ascii ZArith NArith Lia.
From Verif.model Require Import GoStr RepoDb Env Yml Config.
From Verif.spec Require Import StrSpec VersionSpec YmlSpec ConfigSpec.
From Verif.proofs Require Import GoStrLemmas ConfigProofs StartProofs.

Local Open Scope string_scope.

(** C70 *)
Theorem C70_configured : forall c l r, asks_for (lc_flag c) (lc_env c) (lc_file c) l -> l <> "" ->
  home_path (lc_home c) l r -> library_of c = r.
Proof.
  intros c l r H Hl Hr. rewrite <- (expand_home _ _ _ Hr). unfold library_of. rewrite (setting_asked _ _ _ _ H). by destruct (String.eqb_spec l "").
Qed.
Print Assumptions C70_configured.

Theorem C70_lockfile : forall c, asks_nothing (lc_flag c) (lc_env c) (lc_file c) ->
  (lc_lock c = "packrat" -> plain_name (lc_platform c) -> plain_name (rv_full (lc_version c)) ->
     library_of c = Some ("packrat/lib/" +:+ lc_platform c +:+ "/" +:+ rv_full (lc_version c)))
  /\ (lc_lock c = "packrat" -> lc_platform c = "x86_64-w64-mingw32/x64" -> plain_name (rv_full (lc_version c)) ->
     library_of c = Some ("packrat/lib/x86_64-w64-mingw32/" +:+ rv_full (lc_version c)))
  /\ (lc_lock c = "renv" -> forall pre lib post, lib <> "" ->
     (forall l, l ∈ pre -> ~ occurs "_pkgr_" l) ->
     (forall l, l ∈ pre ++ ["_pkgr_" +:+ lib +:+ "_pkgr_"] ++ post -> unix_line l)%list ->
     lc_renv c = Some (text (pre ++ ["_pkgr_" +:+ lib +:+ "_pkgr_"] ++ post)%list) ->
     forall r, home_path (lc_home c) lib r -> library_of c = r)
  /\ (lc_lock c = "renv" -> lc_renv c = None -> library_of c = None)
  /\ (lc_lock c <> "packrat" -> lc_lock c <> "renv" -> library_of c = None).
Proof.
  intros c H. unfold library_of. rewrite (setting_nothing _ _ _ H). cbn [String.eqb]. change (String.eqb "" "") with true. cbv iota.
  unfold get_library_path. split; [|split; [|split; [|split]]].
  - intros -> Hp Hv. change (String.eqb "packrat" "packrat") with true. cbv iota zeta.
    assert (packrat_platform (lc_platform c) = lc_platform c) as ->.
    { unfold packrat_platform. destruct (String.eqb_spec (lc_platform c) "x86_64-w64-mingw32/x64") as [E|]; [|done].
      rewrite E in Hp. destruct Hp as (_ & _ & _ & Hp). vm_compute in Hp. done. }
    rewrite packrat_path by done. done.
  - intros -> -> Hv. change (String.eqb "packrat" "packrat") with true. cbv iota zeta.
    change (packrat_platform "x86_64-w64-mingw32/x64") with "x86_64-w64-mingw32".
    by rewrite packrat_path by (try done; by repeat split).
  - intros -> pre lib post Hl Hpre Hu -> r Hr. rewrite <- (expand_home _ _ _ Hr). change (String.eqb "renv" "packrat") with false.
    change (String.eqb "renv" "renv") with true. cbv iota zeta. rewrite (renv_read pre lib post Hl Hpre Hu). by destruct lib.
  - intros -> ->. done.
  - intros H1 H2. destruct (String.eqb_spec (lc_lock c) "packrat"); [done|]. by destruct (String.eqb_spec (lc_lock c) "renv").
Qed.
Print Assumptions C70_lockfile.

Definition ex_config : library_config := {|
  lc_flag := None; lc_env := Some ""; lc_file := None; lc_lock := "renv";
  lc_renv := Some ("Welcome" +:+ newline +:+ "_pkgr_/p/renv/library/R-4.0_pkgr_" +:+ newline);
  lc_version := RVersion 4 0 2; lc_platform := "x86_64-pc-linux-gnu"; lc_home := "/home/a" |}.

Example C70_example :
  library_of ex_config = Some "/p/renv/library/R-4.0"
  /\ library_of {| lc_flag := Some "~/lib"; lc_env := Some "e"; lc_file := Some "f"; lc_lock := "renv"; lc_renv := None;
       lc_version := RVersion 4 0 2; lc_platform := "x86_64-pc-linux-gnu"; lc_home := "/home/a" |} = Some "/home/a/lib"
  /\ library_of {| lc_flag := None; lc_env := None; lc_file := None; lc_lock := "packrat"; lc_renv := None;
       lc_version := RVersion 4 0 2; lc_platform := "x86_64-pc-linux-gnu"; lc_home := "/home/a" |}
     = Some "packrat/lib/x86_64-pc-linux-gnu/4.0.2".
Proof. split; [|split]; vm_compute; reflexivity. Qed.

Example C70_tilde_example : home_path "/home/a" "~/lib" (Some "/home/a/lib") /\ home_path "/home/a" "~bob/lib" None.
Proof.
  split; [|by apply (hp_user _ "b"%char "ob/lib")].
  apply (hp_below "/home/a" ["home"; "a"] ["lib"]); try done.
  intros x Hx. cbn in Hx. rewrite !elem_of_cons, elem_of_nil in Hx. destruct Hx as [->|[->|[->|[]]]]; by repeat split.
Qed.

(** C71.  In full: the number of workers is the requested number when positive,
    otherwise the number of CPUs, but at most eight.  Proved for getWorkerCount
    and when Threads is set.  Missing: Threads not set, see the refutation. *)
Theorem C71_workers_partial : forall t cpus,
  ((1 <= t)%Z -> worker_count t cpus = t) /\ ((t < 1)%Z -> worker_count t cpus = Z.min cpus 8)
  /\ ((1 <= cpus)%Z -> (1 <= worker_count t cpus)%Z)
  /\ (forall file, workers (Some t) file cpus = worker_count t cpus)
  /\ workers None (Some t) cpus = worker_count t cpus.
Proof.
  intros t cpus. unfold workers, threads_setting, setting, worker_count.
  destruct (Z.ltb_spec t 1), (Z.leb_spec cpus 8); repeat split; intros; lia.
Qed.
Print Assumptions C71_workers_partial.

Example C71_example : worker_count 0 64 = 8%Z /\ worker_count 3 64 = 3%Z /\ workers (Some 0%Z) None 64 = 8%Z.
Proof. by repeat split. Qed.

(** When nothing is requested the default of the setting is the number of CPUs,
    which counts as a request: there is no limit of eight. *)
Theorem C71_default_refuted : forall cpus, (1 <= cpus)%Z -> workers None None cpus = cpus.
Proof. intros cpus H. unfold workers, threads_setting, setting, worker_count. destruct (Z.ltb_spec cpus 1); lia. Qed.
Print Assumptions C71_default_refuted.

Example C71_default_example : workers None None 64 = 64%Z.
Proof. done. Qed.

(** C80.  In full: for the output of R --version of every R, version and platform
    are those of R.  Proved for released versions of R.  Missing: development
    versions, see the refutation. *)
Theorem C80_version_partial : forall pre mid post a b c rest p prest,
  (forall l, l ∈ pre ++ mid ++ post -> unix_line l /\ other_line l)%list ->
  unix_line (version_line_of a b c rest) -> unix_line (platform_line_of p prest) ->
  small_numeral a -> small_numeral b -> small_numeral c -> after_word rest -> a_word p -> after_word prest ->
  parse_version_data (text (pre ++ [version_line_of a b c rest] ++ mid ++ [platform_line_of p prest] ++ post)%list)
  = VData (numeral_value a) (numeral_value b) (numeral_value c) p.
Proof. exact version_read. Qed.
Print Assumptions C80_version_partial.

Example C80_example : parse_version_data (text [
    "R version 3.6.0 (2019-04-26) -- ""Planting of a Tree"""; "Copyright (C) 2019 The R Foundation for Statistical Computing";
    "Platform: x86_64-apple-darwin15.6.0 (64-bit)"; ""; "R is free software and comes with ABSOLUTELY NO WARRANTY." ])
  = VData 3 6 0 "x86_64-apple-darwin15.6.0".
Proof. vm_compute. reflexivity. Qed.

(** A development version is taken for version 0.0.0. *)
Theorem C80_devel_refuted : parse_version_data (text [
    "R Under development (unstable) (2023-03-01 r83926) -- ""Unsuffered Consequences""";
    "Copyright (C) 2023 The R Foundation for Statistical Computing"; "Platform: x86_64-pc-linux-gnu (64-bit)" ])
  = VData 0 0 0 "x86_64-pc-linux-gnu".
Proof. vm_compute. reflexivity. Qed.
Print Assumptions C80_devel_refuted.
