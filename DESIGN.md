# Formal model of pkgr

Properties are in `properties.jsonl`, the status of each one is in `MANIFEST.json`,
the Coq sources are in `rocq/theories`, the seeded wrong programs in
`seeded/LOG.jsonl`.

## Layout

| directory | contents |
|---|---|
| `theories/model` | Gallina models of the Go functions, one file per area, each definition citing file and lines in `/repo`; no proofs |
| `theories/spec`  | independent specification vocabulary (orders, reachability, path prefixes, ...) |
| `theories/proofs`| lemmas and invariants |
| `theories/props` | the property theorems only: statement, `exact lemma`, `Print Assumptions`, plus non-vacuity `Example`s |

Theorem names start with the property id (`C21_...`).  `_refuted` marks a
machine-checked counterexample (the code does not have the property as stated);
`_partial` marks a theorem that proves only part of the statement, the comment
above it says what is missing.

The specifications use the data types of the model (records, file systems, R as a
program) but restate what they need in their own words.  The exceptions are:
`get_package` in "the repository offers this package" (its meaning is property
C12), `exec` in "the state after an interruption" (one primitive file operation),
and `resolve` and `join` for turning path texts into paths.

## Modelling conventions

* Go strings are byte strings: Coq `string`.
* Go maps are std++ `gmap`s.  A `range` over a map asks an *iteration-order
  oracle* for a permutation of the keys; theorems quantify over all oracles.
* Panics, `log.Fatal` and error returns are explicit values.
* Goroutines, channels, wait groups and semaphores are explicit state machines
  given by an inductive relation `step`; theorems quantify over all executions
  (all interleavings).
* External programs (R), the network, the clock and MD5 are universally
  quantified arguments.
* File systems are functions from absolute paths (lists of components) to
  nodes; a crash is "stop after any prefix of the primitive operations".
* Recursion that Go does not bound uses fuel; exhaustion is a distinct value and
  a theorem shows that it does not occur.
* Go's `int` is `Z`; `Atoi` saturates at 64 bits as the Go function does.

## Per property: what is modelled and how it is proved

Versions and dependency strings, `model/GoStr.v`, `model/Version.v`:

* C01 order laws of `CompareVersions`: case analysis and linear arithmetic.
* C02 agreement with an independent padded numeric order on digit lists: induction on the text.
* C03 refuted (split limit of four parts); proved for the first three components.
* C04 printing then parsing a dependency: string lemmas.
* C05 parsing of `name (op version)` with any blanks: string lemmas.
* C06 refuted (a version without separator panics); the exact set of panicking inputs is proved.
* C07 refuted (`isLowerVersion` is not asymmetric); proved for equal patches when no component
  goes the other way.

Repository indexes, `model/Desc.v`, `model/Nexus.v`, `model/RepoDb.v`:

* C08, C09, C17 record filters: list induction.
* C10 refuted (the last listed record wins); proved for ascending lists.
* C11 refuted for source-only repositories; proved for two-index repositories.
* C12, C13 package selection and customization: list induction.
* C14 refuted (pinning resets the source type); proved for the other cases.
* C15 fan-in of the index downloads: any permutation of results.
* C18 cache key: refuted by an ambiguity witness; injectivity part proved.
* C19 index cache with clock and age limit: case analysis.
* C72 refuted for every record with a bare dependency on R, and from the text of an
  index.

Reading descriptions, `model/Control.v`:

* C101, C105 one record: white space next to a line end does not change the pieces
  of a list, induction over the continuation lines; C105 is refuted for an empty entry.
* C102 a whole index: composition with C09.
* C103 refuted for three line ends at the end; proved for an even number.
* C104 refuted for local files that cannot be read.

Planning, `model/Graph.v`, `model/Plan.v`, `model/Pacman.v`:

* C16, C20, C23, C24, C26 depth-first graph construction with iteration oracle and
  fuel, against reachability: invariant on the partially built graph.
* C21, C22 layering: invariant of the loop; well-founded induction for cycles.
* C25 inversion: induction over the key list, against a membership statement.
* C27 refuted (Suggests edges bypass the exclusion); rest proved.
* C28 refuted (outdated packages outside the plan are counted); rest proved.
* C29 refuted (empty request, one-component version); everything else proved to succeed.
* C30 refuted for repeated customizations; exact otherwise.
* C31, C32 outdated packages and library scan: map and list induction.
* C69 refuted (Depends of a DESCRIPTION is left out); the exact request is proved.
* C73 the plan command from configuration to plan: composition of the above.

Library life cycle, `model/Fs.v`, `model/Rollback.v`:

* C33-C40 prepare, install, rollback and cleanup as traces of primitive
  operations; the installation phase is any program that changes only the planned
  package directories and scratch places (C97 shows that it is such a program).  Frame lemmas on path prefixes; induction over the staged
  packages.  The hypotheses of C33 are each shown to be needed by a refutation.
  C40 is refuted (exit status 0 after failures).

Concurrent installation, `model/Sched.v`:

* C41-C48, C74 inductive invariants over all interleavings, counting pending work
  pointwise; termination by a decreasing measure.  C46 and C47 are refuted by
  executions that end in a state without steps (lost `wg.Done`), and for every size above
  2502 plus the number of workers by queues that wait for each other (`props/P_Large.v`, an
  execution built by induction over the packages; C47_size_exact: below, never).

Installing one package, `model/Install.v`, `model/Stamp.v`, `model/Env.v`:

* C49, C50, C78 `InstallThroughBinary` with R as any program: case analysis and frame lemmas.
* C54-C57, C75, C76 environment given to R: list induction; C75 is refuted,
  and shown when the caller and the settings do not have the variable.
* C58-C60 stamping of DESCRIPTION files: induction on the lines.

Everything together, `model/Together.v`:

* C97, C98 the scheduler of `Sched.v` whose workers go through `InstallThroughBinary`
  step by step on one shared file system, with R as a process of its own: an
  inductive invariant over all interleavings gives every worker its areas of the
  file system; termination by a measure on top of that of C47.
* C99, C100 whole runs of `pkgr install`: composition of planning (C20, C24),
  staging, rollback and cleanup (C33-C36), C97, C98 and the tarballs (C93).

Downloads, `model/Download.v`:

* C51, C77 the goroutines and the semaphore: invariants and a measure.
* C52, C53 refuted (partial file kept, bad status without error); rest proved.
* C130 the goroutines of C51 going through `DownloadPackage` in small steps on the shared
  file system (`model/Fetching.v`): simulation into `Download.v` and an invariant that
  gives every goroutine its file.  Its result is what C99 needs to install
  (`proofs/EndProofs.v`); refused downloads refute C98.
* C131 invariants of C97's executions that follow one binary from R to the cache
  (`proofs/StoreProofs.v`); with C50 and C130 the next run finds it.  Failed copies refute
  the rest.

Configuration and other commands:

* C61-C63 `pkgr add` and `pkgr remove` on lines (`model/Yml.v`): induction on lines.
* C64, C65 unpacking tarballs (`model/Extract.v`): path cleaning, frame lemmas.
* C66, C67, C79 cleaning (`model/Clean.v`): frame lemmas.
* C68 `pkgr load` (`model/Load.v`): invariants and a measure over all interleavings.
* C70, C71, C80 settings and the output of R (`model/Config.v`): string lemmas, case analysis.
* C81-C83 repository settings and addresses (`model/Urls.v`): case analysis; refuted
  for suffixes outside Linux, repeated customizations, version numbers with two digits.
* C106 how a repository is reached: the first four characters of an address; refuted
  for capitals and for a directory named like `httpd`.
* C84 /etc/os-release (`model/OsRelease.v`): the TOML reader on lists of lines, induction.
* C85-C89 starting commands and R (`model/Start.v`): path cleaning preserves the
  place a path stands for; induction on texts.  Refutations for relative paths.
* C90 the PATH given to R (`model/Env.v`); C91 no two packages share a place in the
  cache (`model/Install.v`, `model/Download.v`): names are split at their separators.
* C92-C94 tarballs (`model/Tarballs.v`): frame lemmas over the list of tarballs.
* C95, C96 `pkgr inspect` (`model/Inspect.v`): from C24 and C25; the number of recorded
  dependencies decreases along the tree.
* C107-C111 the validation tools (`model/Valtools.v`): list inductions; refuted for the
  name ".", the place of the skip exception, failing packages without a failing test,
  and short names of files outside of the module.
* C112, C113 logging (`model/Logging.v`): a run is a list of records and of changes to
  the loggers; induction.  Refuted for the commands that never open a log file, for
  `add --install`, and for the level in the configuration file.
* C114-C116 whole commands (`model/Commands.v`): `remove` with several names (lines are
  kept or dropped independently of each other), `clean` (C66 with C79; refuted with
  tarballs, which are unpacked again), and planning from the text of DESCRIPTION files
  (C101 with C69).
* C117-C120 the command `load` (`model/LoadCmd.v`): the report of C68 with its texts, R
  being any function from a directory and an expression to an answer.  Refuted for
  relative names of the configuration file, for rows with several libraries, for
  missing packages with `--all`, and for the exit status.
* C121-C124 what planning announces (`model/Report.v`): the numbers, sources, updates
  and lines are compared with the plan and with what the installation of C33 replaces.
  Refuted for a repository called tarballs, tarballs of planned packages, and outdated
  packages that are not asked for.
* C125, C126 endings (`model/Status.v`): case analysis; the configuration file carries
  how much of it can be read and written.  Refuted for dropped errors and files that are
  truncated before they are written.
* C127 temporary directories (`model/Temp.v`): invariants over all interleavings of
  builds, environments and R; refuted for equal readings of the clock, for every
  generator.
* C128, C129 settings (`model/Flags.v`): the order of precedence of viper and the
  expansion of paths; composed with C38 and C39.
* C132, C133 the processes of R (`model/Calls.v`): one function from each use of R to
  program, arguments, directory and environment; the lemmas of C54-C56 for every use.
  Refuted for tarballs and cached binaries, for load, and for versions read as 0.0.
* C134, C135 origins (`model/Origins.v`): the announced lines are, up to order, the
  downloads of the plan (from `plan_downloads`); refuted for a package named twice.  The
  words for suggestions are the domains of all maps, reduced by `ignore_packages`.
* C136 the shared map (`model/Shared.v`): each operation takes four steps; the invariant
  counts the holders of the lock; results by appending to `in_turn`.
* C137, C138 (`model/Docs.v`): induction over the tree of commands; frame lemmas of
  `mkdir_all` and `remove_all`.  `model/Rest.v` has small functions that nothing calls.
* C139 the web (`model/Web.v`): the two HTTP clients as chains of redirections with
  certificates and proxies; refuted for redirections to http, cached files and proxies.
* C140 runs without rollback: frame lemmas of C33-C40; refuted for failed updates.
* C141 installing again: what is in the library is skipped and not outdated, so the second
  run has nothing to do; refuted for tarballs and for versions without separator.
* C142 databases in the cache (`model/DbCache.v`): the cache file as bytes, written whole,
  in part or not at all; histories by induction; refuted after a failed index or a kill.
* C143 what DESCRIPTION files tell (`proofs/StampedProofs.v`): an invariant along all
  executions of `together`; the type is binary exactly if the cache or the plan had one.
* C144 plan as a preview (`model/Preview.v`): planInstall with everything it reads and
  leaves; a second run is shown to find the databases that the first one wrote and the
  tarballs that it unpacked, and planning with two orders of map iterations to give the
  same plan.
* C145 small helpers (`model/Rest.v`), most of which nothing calls.
* C146 databases used at the same time (`model/Fetchers.v`): the steps of goroutines and of
  several runs on the files of the cache, with files apart from paths, so that a file can
  be emptied or removed while another goroutine has it open.
* C147 several runs that download into one cache (`model/Sharing.v`): Create empties the
  file of another run, and each writes at its own offset.
* C148 the JSON that inspect and load write (`model/Json.v`), read by a reader written
  after RFC 8259 (`spec/JsonSpec.v`).  The text is modelled byte by byte after
  encoding/json of Go 1.24; numbers other than integers do not occur.
* C149 several runs with one cache of binaries (`model/Builds.v`): looking, building and
  copying; its files go as those of C147, to which the proofs reduce it.
* C150 each record of the log can be read back; C151 secrets are not in the log
  (`model/Records.v`): the formatter of logrus, the log file as processes open it and append
  to it, and what is logged when R is started.
* C152 several runs with one library (`model/Runs.v`): renaming, installing, rolling back and
  removing backups, change by change; for runs about different packages a simulation by
  each of them alone.
* C153 what the end-to-end tests read (`model/TestLogs.v`): the records of C150, picked, decoded
  and sorted by the helpers in testhelper.
* C154 customizations as written (`model/Customs.v`): what yaml.v2 gives for Customizations.Packages,
  decoded weakly as mapstructure does, and asked again by IsCustomizationSet, with its panics.
  Left out: floating point numbers, sequences inside the sequence, the decoding of Env, dots in
  the names of packages in the form of a map. The behaviour of viper 1.8.1 and mapstructure is
  written down from their source and is trusted.
* C155 several runs that unpack tarballs into one cache (`model/Unpackers.v`): untar and Extract in
  steps, interleaved in every order. RemoveAll and MkdirAll are one step each, and os.Root finds its
  directory by name; the second matters only for runs with the same directory.
* C156 `add --install` (`model/Reread.v`): initConfig twice in one process, the second time over the
  configuration that is there. How mapstructure decodes over what is there (null changes nothing,
  lists element by element, maps by adding keys) is written down from its source and is trusted.
* C157 the lists of packages in memory (`model/Slices.v`): the built-in append with arrays and
  capacities. The capacity of a new array is any function of the old length; slices that do not start
  at the beginning of their array do not occur in the functions that are modelled.
* C158 the command line (`model/Cli.v`): the tree of commands and flags, and how cobra 1.9.1 and
  pflag 1.0.6 find the command and read the flags. The behaviour of these libraries is written down
  from their source and is trusted. Left out: the hidden `__complete`, arguments that begin with
  `-test.`, and that `completion` refuses words. Whole numbers are read by any function.
* C159 from the command line of install to the library (`spec/LineSpec.v`, `props/P_Line.v`): no new
  model; it composes C158, C128 and the run. The number of workers of the scheduler is the one that
  the settings ask for.
* C160 CopyDir of the tests (`model/Copy.v`): with MkdirAll, Mkdir, Readdir and goutils.CopyFS.
  Permissions, links and errors while reading or writing are left out.
* C161 the tools as programs (`model/Tools.v`): main of checkmat, fmttests, filecov and docgen with
  all arguments. The package flag of Go is written down from its source and trusted; reading
  profiles, go.mod and links is any function; the JSON text of filecov is left out.
* C162 (`model/LoadLine.v`): C158 for what is given, then C117, C119 and C120.  That R is
  run in one directory only is said by changing R elsewhere.
* C163 (`model/Lines.v`): C158 for what is given, then C126 for the file that add and remove
  edit, and C66, C79 and C115 for what clean removes.  What the line asks for is said in
  `spec/LinesSpec.v` without the parsed flags.
* C164 (`model/ViewLine.v`): C158 for what is given, then C95, C96 and C148 for the text that
  inspect writes, and C55, C87 and C132 for the process that run starts.
* C165 (`model/TestRun.v`): by cases; make, go test and pkgr are any programs that end well or
  not.  The lists of targets, rules and directories are data of the repository.
* C166 (`model/InstallLine.v`): the program as one relation from the arguments to the files;
  C158 and C85 give the settings and the library, C73 the plan, C99 and C100 the rest.
* C167 (`model/PlanLine.v`): C158 gives both runs the same settings, the lemma behind C144 the
  same plan up to the order; C124 gives the lines, C20 the packages, C166 the library.
* `props/P_Exact.v` to `props/P_Exact16.v` (`spec/ExactSpec.v`, `spec/ExpandSpec.v`,
  `spec/Exact3Spec.v`, `spec/Exact4Spec.v`, `spec/Exact7Spec.v`, `spec/Exact8Spec.v`,
  `spec/RollbackSpec.v`):
  for claims that hold only in part, what the program does in all cases (theorems with
  the suffix `_exact`): C03, C06, C07, C10, C11, C14, C18, C27, C28, C29, C30, C33, C34,
  C36, C37, C40, C43, C46, C47, C50, C52, C53, C54, C55, C56, C57, C58, C59, C60, C61, C62, C63,
  C65, C66, C67, C68, C71, C72, C75, C76, C77, C78, C80, C81, C82, C83, C84, C85, C86,
  C87, C90, C96, C103, C104, C105, C106, C107, C108, C111, C112, C113, C114, C115, C117,
  C119, C120, C121, C122, C123, C124, C125, C126, C127, C132, C134, C138,
  C139, C140, C142.

## Trusted base

* Coq 8.16.1's kernel, and its virtual machine for `vm_compute` in examples and
  counterexamples.
* `Print Assumptions` is printed after every property theorem (all theorems named
  in `MANIFEST.json`).  For each of them Coq answers
  `Closed under the global context`: no axiom is used.
* Loading std++ makes seven constants of the standard library's ssreflect known
  that `coqchk` lists as axioms of the context: `Under_rel`, `Under_rel_from_rel`,
  `Under_relE`, `Over_rel`, `over_rel`, `over_rel_done`, `under_rel_done`, all in
  `Coq.ssr.ssrunder.Under_rel` (an opaque module of the standard library).
  No theorem here depends on them.
* No axiom, parameter, `Admitted`, functor or module type is declared here.
* The correspondence between the Go source and `theories/model`, which is by
  reading.  The Go compiler, runtime and the libraries below are trusted to do
  what the model says.

### Modelled

| Go | model |
|---|---|
| `desc`: versions, dependencies, DESCRIPTION records | `Version.v`, `Desc.v` |
| `cran`: package database, index fetch and cache, selection, downloads | `Nexus.v`, `RepoDb.v`, `Download.v`, `Fetching.v` |
| `pacman`: library scan, outdated packages | `Pacman.v` |
| `gpsr`: dependency graph, layers, plan | `Graph.v` |
| `cmd/plan.go`, `configlib` customizations | `Plan.v`, `Report.v` |
| `rollback`, `cmd/install.go` | `Fs.v`, `Rollback.v` |
| `rcmd/install.go`, `rcmd/worker.go`, `rcmd/helpers.go` | `Sched.v`, `Install.v`, `Stamp.v` |
| `rcmd/configure.go`, `rcmd/nvp.go`, `rcmd/Rsettings.go`, `rcmd/rp` | `Env.v`, `Config.v` |
| `configlib` library, threads; `add`, `remove` | `Config.v`, `Yml.v` |
| `cran/utils.go`, `cran/repodb.go` addresses, `cmd/plan.go` repositories | `Urls.v`, `OsRelease.v` |
| `cmd/root.go`, `configlib/config.go` flags, paths and variables, `cmd/run.go`, `rcmd/RunR.go` | `Start.v`, `Flags.v`, `Calls.v` |
| `internal/archive`, `cmd/tarballOps.go`, tarballs in `cmd/install.go` | `Extract.v`, `Tarballs.v` |
| `cmd/cleanCache.go`, `cmd/cleanPkgdb.go`, `cmd/utils.go` | `Clean.v` |
| `cmd/load.go`, `cmd/structs.go` | `Load.v`, `LoadCmd.v` |
| `cmd/inspect.go` | `Inspect.v` |
| `InstallPackagePlan` with its effects on files, whole runs of `cmd/install.go` | `Together.v` |
| `desc/desc.go` (`ParseDesc`, `ReadDesc`), reading an index in `cran/repodb.go` | `Control.v` |
| `internal/valtools`: `checkmat`, `fmttests`, `filecov` | `Valtools.v` |
| `logger`, log files of the commands in `cmd` | `Logging.v` |
| `cmd/remove.go`, `cmd/clean.go`, `cmd/descriptionOps.go` | `Commands.v` |
| exit statuses of the commands, failures of reading and writing `pkgr.yml` | `Status.v` |
| `rcmd/utils.go`, temporary directories | `Temp.v` |
| messages of `cmd/plan.go` about origins, lookups in `cran/pkg_nexus.go` | `Origins.v` |
| `cran/sync.go` | `Shared.v` |
| HTTP clients of `cran/repodb.go` and `cran/download-package.go` | `Web.v` |
| The cache file of a database (`cran/repodb.go` Decode, Encode, FetchPackages) | `DbCache.v` |
| planInstall with what it reads and leaves (`cmd/plan.go` 83-326) | `Preview.v` |
| commands and flags of the command line (`cmd/root.go` 47-109, `init` of `cmd/*.go`) | `Cli.v` |
| slices of packages in memory (`gpsr/dependencies.go` 144-153) | `Slices.v` |
| reading the configuration twice (`cmd/add.go` 48-71, `cmd/root.go` 118-143) | `Reread.v` |
| untar and Extract step by step, in several runs (`cmd/tarballOps.go` 50-92, `internal/archive/extract.go` 38-115) | `Unpackers.v` |
| DownloadPackage step by step, in several runs (`cran/download-package.go` 153-255) | `Sharing.v` |
| FetchPackages step by step, in goroutines (`cran/pkg_nexus.go` 36-41, `cran/repodb.go` 119-272) | `Fetchers.v` |
| `internal/tools/docgen`, `rcmd/cache.go` | `Docs.v` |
| copying a directory for a test (`testhelper/fileio.go`) | `Copy.v` |
| main of the tools, with their arguments (`internal/valtools`, `internal/tools/docgen`) | `Tools.v` |
| the flags of `load` and `plan`, and keys of the same names (`cmd/load.go`, `cmd/plan.go`) | `LoadLine.v` |
| the lines of `add`, `remove` and `clean` (`cmd/add.go`, `cmd/remove.go`, `cmd/clean*.go`) | `Lines.v` |
| the lines of `inspect` and `run` (`cmd/inspect.go`, `cmd/run.go`) | `ViewLine.v` |
| running and preparing tests (`integration_tests/integration_helper`, `testhelper/e2e_tests.go`) | `TestRun.v` |
| `pkgr install` from the arguments on (`cmd/root.go`, `cmd/plan.go`, `cmd/install.go`) | `InstallLine.v` |
| `pkgr plan` from the arguments on (`cmd/root.go`, `cmd/plan.go`) | `PlanLine.v` |
| functions that nothing calls | `Rest.v` |

### Not modelled, or modelled as an assumption

* R itself: any program whose changes are limited as `r_only` says (the package,
  its lock directory, and its working directory when building); it is assumed to
  terminate.  In `Together.v` R is a process with steps of its own, limited in the
  same way, that leaves a tree of directories behind.
* Temporary directories of different packages are different and apart from the
  library.  (`randomString` in `rcmd/utils.go` is seeded with the time at every
  call, so that two workers may get the same directory: `Temp.v`, C127.)
* In whole runs the downloads are any change in the cache after which the files are
  there, or those of `Fetching.v` (C99_downloaded); web servers may answer anything.
* How R prints a character vector (rows with numbers, texts in quotes) in C118.
* MD5: an arbitrary function; where distinctness matters the text before hashing
  is compared.
* The control-file parser (`pault.ag/go/debian/control`, not part of the repository) is
  modelled from its documented behaviour for one paragraph in `Control.v` (C101-C105);
  elsewhere its result is an input.
* The YAML parser, `viper` and `go-homedir`: their results
  are inputs, or their documented precedence and expansion is modelled.
* The TOML parser: modelled for files made of assignments, comments and blank lines.
* `os.ExpandEnv`, `path/filepath` and `os/exec` path resolution are modelled from
  their documentation and source.
* goutils' `ReadLines` and `WriteLines`; `bufio.Scanner` is modelled with its limit.
* `archives`: delivers the entries of a tarball one after the other, or stops.
* `Readdir` delivers each entry once in any order.
* `os/exec` keeps the last definition of a repeated environment variable.
* `encoding/gob`: any format whose texts can be read and whose beginnings cannot.
* TLS, DNS and proxies: any network; `Web.v` says only when Go checks a certificate.
* Permissions, quotas, symbolic links, and other programs changing the same files.
* Shared variables in the scheduler are read and written atomically; the data race
  on `anyFailed` is not modelled beyond arbitrary interleaving.
* Planning theorems assume that no repository offers a package called `R`.
* The text of messages, how trees are drawn, `experiment`; of logging, which records
  reach which file is modelled.
* Windows paths; path functions are those of Unix.
* Bytes only: `strings.ToUpper` and `TrimSpace` are the ASCII parts.
