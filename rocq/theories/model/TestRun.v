(** Running and preparing the tests: integration_tests/integration_helper, testhelper/e2e_tests.go. *)
From stdpp Require Import strings list.
From Coq Require Import Ascii ZArith.
From Verif.model Require Import GoStr Fs.

Local Open Scope string_scope.

(** integration_tests/integration_helper/targets/targets.go 3-34, 69-98: RunTargets.  A target
    is a number; the places of this list are those of the constants. *)
Definition run_targets : list string :=
  ["mixed-source"; "simple"; "threads"; "logging-config"; "outdated-pkgs"; "description-repo-bug"; "outdated-pkgs-no-update";
   "outdated-pkgs-stress"; "repo-order"; "repo-local"; "repo-local-and-remote"; "simple-suggests"; "rollback"; "rollback-disabled";
   "create-library"; "strict-mode"; "misc"; "recommended"; "bad-customization"; "load"; "load-fail"; "tarball-install";
   "tarball-rollback"; "tilde-expansion"; "binaries-mac"; "binaries-linux"; "path-bug"; "env-vars"].

(** integration_tests/integration_helper/targets/targets.go 36-67: ResetTargets. *)
Definition reset_targets : list string :=
  ["test-mixed-source-reset"; "test-simple-reset"; "test-threads-reset"; "test-logging-config-reset"; "test-outdated-pkgs-reset";
   "test-description-repo-bug-reset"; "test-outdated-pkgs-no-update-reset"; "test-outdated-pkgs-stress-reset"; "test-repo-order-reset";
   "test-repo-local-reset"; "test-repo-local-and-remote-reset"; "test-simple-suggests-reset"; "test-rollback-reset";
   "test-rollback-disabled-reset"; "test-create-library-reset"; "test-strict-mode-reset"; "test-misc-reset"; "test-recommended-reset";
   "test-bad-customizations-reset"; "test-load-reset"; "test-load-fail-reset"; "test-tarball-install-reset"; "test-tarball-rollback-reset";
   "test-tilde-expansion-reset"; "test-binaries-mac-reset"; "test-binaries-linux-reset"; "test-path-bug-reset"; "test-env-vars-reset"].

(** integration_tests/Makefile 18-160, for integration_tests/integration_helper/make.go 27: the
    rules that reset a test. *)
Definition reset_rules : list string :=
  ["test-mixed-source-reset"; "test-simple-reset"; "test-threads-reset"; "test-logging-config-reset"; "test-outdated-pkgs-reset";
   "test-description-repo-bug-reset"; "test-outdated-pkgs-no-update-reset"; "test-outdated-pkgs-stress-reset"; "test-repo-order-reset";
   "test-repo-local-reset"; "test-repo-local-and-remote-reset"; "test-simple-suggests-reset"; "test-rollback-reset";
   "test-rollback-disabled-reset"; "test-create-library-reset"; "test-strict-mode-reset"; "test-misc-reset"; "test-recommended-reset";
   "test-bad-customizations-reset"; "test-load-reset"; "test-load-fail-reset"; "test-tarball-install-reset"; "test-tarball-rollback-reset";
   "test-tilde-expansion-reset"; "test-binaries-mac-reset"; "test-binaries-linux-reset"; "test-path-bug-reset"; "test-env-vars-reset"].

(** The directories beside integration_tests/suite_test.go 1-16. *)
Definition test_dirs : list string :=
  ["__jc_unknown"; "__needs_work"; "addremove"; "automated"; "bad-customization"; "baseline"; "binaries-linux"; "binaries-mac"; "cranlocal";
   "create-library"; "customization"; "description-repo-bug"; "env-vars"; "integration_helper"; "library"; "load-fail"; "load";
   "logging-config"; "minicran"; "misc"; "mixed-source"; "multi-repo"; "outdated-pkgs"; "packrat-library"; "path-bug"; "recommended";
   "rollback-disabled"; "rollback"; "simple-suggests"; "simple"; "strict-mode"; "tarball-install"; "tarball-rollback"; "threads";
   "tilde-expansion"; "version"].

(** The errors of integration_tests/integration_helper/runt.go 13-44 and make.go 22-33. *)
Inductive test_error := NotHere | NoTarget | MakeFails | GoFails | FailFound.

(** integration_tests/integration_helper/make.go 17-20: isIntegrationTestDir; the working
    directory is known. *)
Definition is_test_dir (wd : path) : bool := bool_decide (last wd = Some "integration_tests").

(** integration_tests/integration_helper/make.go 22-33: Reset.  [make]: whether make with this
    target succeeds; a target that is not in the map is the empty text. *)
Definition reset (wd : path) (make : string -> bool) (t : nat) : option test_error :=
  if is_test_dir wd then if make (default "" (reset_targets !! t)) then None else Some MakeFails
  else Some NotHere.

(** integration_tests/integration_helper/runt.go 25-27: a process cannot be started in a
    directory that is not there.  [go]: whether go test succeeds, and its output. *)
Definition go_in (dirs : list string) (go : string -> bool * string) (dir : string) : bool * string :=
  if bool_decide (dir ∈ dirs) then go dir else (false, "").

(** integration_tests/integration_helper/runt.go 13-44: RunTest; [None] is success.  The output
    is also written, as the numbers of its bytes. *)
Definition run_test (wd : path) (dirs : list string) (make : string -> bool) (go : string -> bool * string) (t : nat) : option test_error :=
  if is_test_dir wd then
    match run_targets !! t with
    | None => Some NoTarget
    | Some dir =>
        match reset wd make t with
        | Some e => Some e
        | None =>
            let '(ok, out) := go_in dirs go dir in
            if ok then if contains "FAIL:" out then Some FailFound else None
            else Some GoFails
        end
    end
  else Some NotHere.

(** testhelper/e2e_tests.go 37-68: SetupEndToEndWithInstallFull: the arguments of pkgr. *)
Definition setup_args (config : string) : list string := ["install"; "--config=" +:+ config].

(** testhelper/e2e_tests.go 37-68, 70-75: whether the test goes on.  [deleted]: the library could
    be deleted; [ok]: pkgr ended well. *)
Definition setup_goes_on (deleted ok expect_error : bool) : bool :=
  if deleted then (if negb ok && negb expect_error then false else if ok && expect_error then false else true) else false.

(** os.Remove (library), for testhelper/e2e_tests.go 78: a file, or a directory that is empty;
    [empty] tells which directories are, [can]: there is the right to remove it. *)
Definition os_remove (empty : path -> bool) (can : bool) (q : path) (f : fsys) : bool * fsys :=
  match f q with
  | None => (false, f)
  | Some (File _) => if can then (true, fun x => if bool_decide (x = q) then None else f x) else (false, f)
  | Some Dir => if can && empty q then (true, fun x => if bool_decide (x = q) then None else f x) else (false, f)
  end.

(** testhelper/e2e_tests.go 77-88: DeleteTestFile: whether the test has not failed by it, and the
    files afterwards.  assert.NoFileExists (library) does not mind directories. *)
Definition delete_test_file (empty : path -> bool) (can : bool) (q : path) (f : fsys) : bool * fsys :=
  let '(ok, f') := os_remove empty can q f in
  if ok then (true, f') else (match f' q with Some (File _) => false | _ => true end, f').

(** testhelper/e2e_tests.go 18-20: MakeTestName. *)
Definition make_test_name (id name : string) : string := "[" +:+ id +:+ "] " +:+ name.

(** testhelper/e2e_tests.go 22-24: MakeSubtestName. *)
Definition make_subtest_name (id sub name : string) : string := "[" +:+ id +:+ "-" +:+ sub +:+ "] " +:+ name.
