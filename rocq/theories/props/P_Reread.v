(** C156: pkgr add --install. *)
From stdpp Require Import strings list gmap.
From Coq Require Import Ascii ZArith Lia.
From Verif.model Require Import GoStr Fs Env Yml Config Start Reread.
From Verif.spec Require Import RereadSpec.
From Verif.proofs Require Import RereadProofs StartProofs.
From Verif.props Require Import P_Start.

Local Open Scope string_scope.

(** add --install starts the installation exactly as install would after add: with the same
    configuration, in the same directory and with the same files, or it does not start it.
    Needed: the file that is changed is the one that was read (see C85), the library does not
    depend on where R is asked for it, and the changed file is read as the old one with more
    packages, none of them null. *)
Theorem C156_same p listed files cwd name pkgs :
  edited_file cwd name = loaded_file cwd name ->
  same_library p cwd (command_dir cwd name) ->
  (forall t t' l v v', files (loaded_file cwd name) = Some t -> listed t = Some l -> add_packages t l pkgs = Some t' ->
     pr_read p t = Some v -> pr_read p t' = Some v' -> flags_there v' /\ more_packages v v') ->
  add_install p listed files cwd name pkgs = add_then_install p listed files cwd name pkgs.
Proof. apply add_install_same. Qed.

(** Without --config nothing has to be known about the library. *)
Theorem C156_default p listed files cwd pkgs :
  (forall t t' l v v', files (cwd ++ ["pkgr.yml"])%list = Some t -> listed t = Some l -> add_packages t l pkgs = Some t' ->
     pr_read p t = Some v -> pr_read p t' = Some v' -> flags_there v' /\ more_packages v v') ->
  add_install p listed files cwd "pkgr.yml" pkgs = add_then_install p listed files cwd "pkgr.yml" pkgs.
Proof.
  intros H. destruct (C85_default_file "" cwd "x" (cwd ++ ["x"])%list) as (name & Hn & H1 & _ & H2); [by apply plain_stands|].
  change (config_name "" "") with (Some "pkgr.yml") in Hn. injection Hn as <-.
  apply C156_same; [congruence| |by rewrite H1].
  intros c. unfold command_dir. fold (loaded_file cwd "pkgr.yml"). by rewrite H1, removelast_last.
Qed.

(** Reading twice is reading once, whatever was in the variable: each list of the file is the
    list of the configuration. *)
Theorem C156_packages p listed files cwd pkgs c dir files' t' v' l :
  (forall t t' l v v', files (cwd ++ ["pkgr.yml"])%list = Some t -> listed t = Some l -> add_packages t l pkgs = Some t' ->
     pr_read p t = Some v -> pr_read p t' = Some v' -> flags_there v' /\ more_packages v v') ->
  add_install p listed files cwd "pkgr.yml" pkgs = Some (c, dir, files') ->
  files' (cwd ++ ["pkgr.yml"])%list = Some t' -> pr_read p t' = Some v' -> st_lists v' !! "packages" = Some l ->
  co_lists c !! "packages" = Some (map (default "") l).
Proof.
  intros H. rewrite (C156_default _ _ _ _ _ H). unfold add_then_install, install_alone.
  destruct (add_alone p listed files cwd "pkgr.yml" pkgs) as [g|]; [|done]. unfold init_config.
  destruct (C85_default_file "" cwd "x" (cwd ++ ["x"])%list) as (name & Hn & H1 & _ & H2); [by apply plain_stands|].
  change (config_name "" "") with (Some "pkgr.yml") in Hn. injection Hn as <-. rewrite H1.
  destruct (g (cwd ++ ["pkgr.yml"])%list) as [t|] eqn:Et; [|done]. destruct (pr_read p t) as [v|] eqn:Ev; [|done].
  destruct (find_library (pr_library p) cwd (unmarshal no_configuration v)) as [c0|] eqn:Ef; [|done].
  intros [= <- _ <-] Ht Hv Hl. rewrite Et in Ht. injection Ht as <-. rewrite Ev in Hv. injection Hv as <-.
  apply read_shape in Ef as (S1 & _ & _).
  assert (co_lists (use_update (pr_update p) (expand_all (pr_home p) c0)) = co_lists (expand_all (pr_home p) c0)) as ->
    by (unfold use_update; by destruct (pr_update p)).
  unfold expand_all. cbn [co_lists foldr]. rewrite !lookup_alter_ne by done.
  rewrite S1, over_all_lookup, Hl, lookup_empty. cbn [default]. by rewrite over_fresh.
Qed.

(** A reader for small files: items without a text are null. *)
Definition ex_items (t : string) : list (option string) :=
  omap (fun l => if String.eqb l "-" then Some None else if has_prefix "- " l then Some (Some (trim_prefix "- " l)) else None) (scan_lines t).

Definition ex_again_read (library : string) (t : string) : option settings :=
  Some (Settings {[ "library" := library; "noupdate" := "false"; "cache" := "~/cache" ]}
          {[ "packages" := ex_items t; "tarballs" := [Some "~/a.tar.gz"] ]} {[ "repos" := [Some {[ "CRAN" := "~/cran" ]}] ]}).

Definition ex_listed (t : string) : option (list string) := Some (map (default "") (ex_items t)).

Definition ex_process (library : string) : process :=
  Process "/home/me" (ex_again_read library) (fun d _ => Some ("/" +:+ join "/" (d ++ ["renv"])%list)) true.

Definition ex_yml (items : list string) : string := write_lines ("Version: 1" :: "Packages:" :: items).

Definition ex_files (t : string) : list string -> option string := fun q => if bool_decide (q = ["p"; "pkgr.yml"]) then Some t else None.

Definition of_start (r : option (configuration * list string * (list string -> option string))) :=
  match r with
  | Some (c, d, f) => Some (co_lists c !! "packages", co_lists c !! "tarballs", co_single c !! "library", co_single c !! "noupdate", d, f ["p"; "pkgr.yml"])
  | None => None
  end.

Example C156_example :
  of_start (add_install (ex_process "lib") ex_listed (ex_files (ex_yml ["- a"; "- b"])) ["p"] "pkgr.yml" ["c"; "a"]) =
    Some (Some ["c"; "a"; "b"], Some ["/home/me/a.tar.gz"], Some "lib", Some "false", ["p"], Some (ex_yml ["- c"; "- a"; "- b"])) /\
  of_start (add_then_install (ex_process "lib") ex_listed (ex_files (ex_yml ["- a"; "- b"])) ["p"] "pkgr.yml" ["c"; "a"]) =
  of_start (add_install (ex_process "lib") ex_listed (ex_files (ex_yml ["- a"; "- b"])) ["p"] "pkgr.yml" ["c"; "a"]).
Proof. split; vm_compute; reflexivity. Qed.

Local Lemma seen {A B : Type} (f : A -> B) (r : option A) x : f <$> r = Some x -> exists a, r = Some a /\ f a = x.
Proof. destruct r as [a|]; [|done]. intros [= <-]. by exists a. Qed.

(** renv is asked for its library in the directory of the caller by install, but in that of the
    configuration by add --install. *)
Theorem C156_renv_refuted : exists p listed files cwd name pkgs a b,
  edited_file cwd name = loaded_file cwd name /\
  add_install p listed files cwd name pkgs = Some a /\ add_then_install p listed files cwd name pkgs = Some b /\
  co_single a.1.1 !! "library" = Some "/p/renv" /\ co_single b.1.1 !! "library" = Some "/home/me/renv".
Proof.
  exists (ex_process ""), ex_listed, (ex_files (ex_yml ["- a"])), ["home"; "me"], "/p/pkgr.yml", ["c"].
  edestruct (seen (fun a => co_single a.1.1 !! "library") (add_install (ex_process "") ex_listed (ex_files (ex_yml ["- a"])) ["home"; "me"] "/p/pkgr.yml" ["c"])) as (a & Ha & Fa);
    [vm_compute; reflexivity|].
  edestruct (seen (fun a => co_single a.1.1 !! "library") (add_then_install (ex_process "") ex_listed (ex_files (ex_yml ["- a"])) ["home"; "me"] "/p/pkgr.yml" ["c"])) as (b & Hb & Fb);
    [vm_compute; reflexivity|].
  exists a, b. split; [reflexivity|]. split; [exact Ha|]. split; [exact Hb|]. split; [exact Fa|exact Fb].
Qed.

(** An item without a text is a package without a name, which is reported as missing; after add
    --install the name of its neighbour is in its place, and the package is there twice. *)
Theorem C156_null_refuted : exists p listed files cwd name pkgs a b,
  edited_file cwd name = loaded_file cwd name /\ same_library p cwd (command_dir cwd name) /\
  add_install p listed files cwd name pkgs = Some a /\ add_then_install p listed files cwd name pkgs = Some b /\
  co_lists a.1.1 !! "packages" = Some ["c"; "b"; "b"] /\ co_lists b.1.1 !! "packages" = Some ["c"; ""; "b"].
Proof.
  exists (ex_process "lib"), ex_listed, (ex_files (ex_yml ["-"; "- b"])), ["p"], "pkgr.yml", ["c"].
  edestruct (seen (fun a => co_lists a.1.1 !! "packages") (add_install (ex_process "lib") ex_listed (ex_files (ex_yml ["-"; "- b"])) ["p"] "pkgr.yml" ["c"])) as (a & Ha & Fa);
    [vm_compute; reflexivity|].
  edestruct (seen (fun a => co_lists a.1.1 !! "packages") (add_then_install (ex_process "lib") ex_listed (ex_files (ex_yml ["-"; "- b"])) ["p"] "pkgr.yml" ["c"])) as (b & Hb & Fb);
    [vm_compute; reflexivity|].
  exists a, b. split; [reflexivity|]. split; [by intros c|]. split; [exact Ha|]. split; [exact Hb|]. split; [exact Fa|exact Fb].
Qed.

(** With --config sub/pkgr.yml a third file may be read: the one that was changed is
    sub/sub/pkgr.yml, and it is installed; install reads sub/pkgr.yml. *)
Theorem C156_config_refuted : exists p listed files cwd name pkgs a b,
  add_install p listed files cwd name pkgs = Some a /\ add_then_install p listed files cwd name pkgs = Some b /\
  a.1.2 = ["p"; "sub"; "sub"] /\ b.1.2 = ["p"; "sub"] /\
  co_lists a.1.1 !! "packages" = Some ["c"; "z"] /\ co_lists b.1.1 !! "packages" = Some ["a"].
Proof.
  set (files := fun q : list string => if bool_decide (q = ["p"; "sub"; "pkgr.yml"]) then Some (ex_yml ["- a"])
    else if bool_decide (q = ["p"; "sub"; "sub"; "pkgr.yml"]) then Some (ex_yml ["- z"]) else None).
  exists (ex_process "lib"), ex_listed, files, ["p"], "sub/pkgr.yml", ["c"].
  edestruct (seen (fun a => (a.1.2, co_lists a.1.1 !! "packages")) (add_install (ex_process "lib") ex_listed files ["p"] "sub/pkgr.yml" ["c"])) as (a & Ha & Fa);
    [vm_compute; reflexivity|].
  edestruct (seen (fun a => (a.1.2, co_lists a.1.1 !! "packages")) (add_then_install (ex_process "lib") ex_listed files ["p"] "sub/pkgr.yml" ["c"])) as (b & Hb & Fb);
    [vm_compute; reflexivity|].
  exists a, b. split; [exact Ha|]. split; [exact Hb|]. injection Fa as F1 F2. injection Fb as F3 F4. done.
Qed.

Print Assumptions C156_same.
Print Assumptions C156_default.
Print Assumptions C156_packages.
Print Assumptions C156_renv_refuted.
Print Assumptions C156_null_refuted.
Print Assumptions C156_config_refuted.
