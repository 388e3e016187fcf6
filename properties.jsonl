{"id": "C01", "title": "Version comparison is a total order on parsed versions", "statement": "Comparing two parsed versions returns -1, 0 or 1; it is reflexive, swapping the arguments negates the answer, it is transitive, and it returns 0 exactly when all five numeric components are equal.", "quantifier": "all triples of parsed versions", "why_tests_cant": "order laws range over infinitely many pairs and triples; a table of comparisons cannot establish transitivity", "anchors": [{"file": "desc/version.go", "symbols": ["CompareVersions"]}]}
{"id": "C02", "title": "Version strings are compared numerically, component by component", "statement": "For any two version strings made of two to four decimal components separated by '.' or '-', CompareVersionStrings returns the sign of the numeric lexicographic comparison of the components, missing components counting as zero; in particular leading zeros, separator choice and digit counts never change the answer.", "quantifier": "all version strings with 2-4 numeric components, each below 2^63", "why_tests_cant": "the input space is infinite and the parsing and comparison interact", "anchors": [{"file": "desc/version.go", "symbols": ["ParseVersion", "CompareVersionStrings", "CompareVersions"]}]}
{"id": "C03", "title": "Five-component versions are told apart", "statement": "Two version strings whose numeric components differ (the Version type has five of them) never compare as equal, and a version is never ordered below its own prefix.", "quantifier": "all version strings with 2-5 numeric components", "why_tests_cant": "needs every component position; the existing tests only use four components", "anchors": [{"file": "desc/version.go", "symbols": ["ParseVersion"]}, {"file": "desc/structs.go", "symbols": ["Version"]}]}
{"id": "C04", "title": "Dependency strings survive printing and parsing", "statement": "Printing a dependency with a version constraint and parsing the text back gives the same name, constraint and version text.", "quantifier": "all dependencies whose name and version text are well formed, and all five operators", "why_tests_cant": "infinitely many names and versions, and the operator tests overlap ('>' is contained in '>=')", "anchors": [{"file": "desc/desc.go", "symbols": ["ParseDep"]}, {"file": "desc/dep.go", "symbols": ["Dep.ToString"]}, {"file": "desc/structs.go", "symbols": ["Constraint.ToString"]}]}
{"id": "C05", "title": "Dependency entries are parsed with the right operator whatever the spacing", "statement": "Parsing 'name<spaces>(<spaces>op<spaces>version<spaces>)' for op in ==, >=, >, <=, < yields the name, exactly that operator and the version, for any amount of spacing; parsing a bare name yields no constraint.", "quantifier": "all names, versions, operators and amounts of white space", "why_tests_cant": "whitespace and operator combinations are unbounded", "anchors": [{"file": "desc/desc.go", "symbols": ["ParseDep"]}]}
{"id": "C06", "title": "Version parsing is total", "statement": "Parsing a version string never aborts the process: every string yields a version.", "quantifier": "all strings", "why_tests_cant": "a panic depends on the shape of an arbitrary input string", "anchors": [{"file": "desc/version.go", "symbols": ["ParseVersion"]}]}
{"id": "C07", "title": "Sorting versions agrees with comparing them", "statement": "The sort order used for version lists (Versions.Less) is a strict order that agrees with CompareVersions.", "quantifier": "all pairs of versions", "why_tests_cant": "a comparison-function defect shows only for particular component patterns", "anchors": [{"file": "desc/version.go", "symbols": ["Versions.Less", "isLowerVersion"]}]}
{"id": "C08", "title": "The R-version filter keeps exactly the compatible packages", "statement": "A package that declares a constraint on R is considered compatible exactly when the running R version satisfies it; a package with no entry for R is compatible.", "quantifier": "all package records and all R versions", "why_tests_cant": "all operator/version combinations", "anchors": [{"file": "cran/repodb.go", "symbols": ["isRVersionCompatible", "checkRVersionCompatibility"]}]}
{"id": "C09", "title": "A package database holds only usable records", "statement": "After reading a repository index, every entry of the database is filed under its own package name, is compatible with the running R, has no sub-directory Path, and is the last such record for that name in the index; every name with such a record has an entry.", "quantifier": "all index contents (any number and order of records)", "why_tests_cant": "depends on arbitrary index contents", "anchors": [{"file": "cran/repodb.go", "symbols": ["RepoDb.FetchPackages"]}]}
{"id": "C10", "title": "The newest compatible version listed by a repository is the one offered", "statement": "If an index lists several compatible versions of a package, the database offers the highest.", "quantifier": "all index contents", "why_tests_cant": "record order in the index is not under the user's control", "anchors": [{"file": "cran/repodb.go", "symbols": ["RepoDb.FetchPackages"]}]}
{"id": "C11", "title": "An unreadable repository is reported", "statement": "If no index of a configured repository can be fetched, building the package database fails with an error and nothing is written to the index cache.", "quantifier": "all repositories (source only, or source and binary) and all failure patterns of the index downloads", "why_tests_cant": "failure patterns of concurrent downloads", "anchors": [{"file": "cran/repodb.go", "symbols": ["RepoDb.FetchPackages"]}, {"file": "cran/pkg_nexus.go", "symbols": ["NewPkgDb"]}]}
{"id": "C12", "title": "Repositories are consulted in the configured order", "statement": "A package is taken from the first repository, in configuration order, that offers it in the applicable source type; it is reported as unavailable exactly when none does.", "quantifier": "all lists of repositories, contents and customizations", "why_tests_cant": "any number of repositories and contents", "anchors": [{"file": "cran/pkg_nexus.go", "symbols": ["PkgNexus.GetPackage", "isCorrectRepo"]}]}
{"id": "C13", "title": "Per-package customizations are honoured and local", "statement": "After pinning a package to a repository (or source type), that package is only ever taken from that repository (type), and the choice for every other package is unchanged; pinning to an unknown repository is an error.", "quantifier": "all databases, packages and pins", "why_tests_cant": "must hold for every other package and every sequence of pins", "anchors": [{"file": "cran/pkg_nexus.go", "symbols": ["PkgNexus.SetPackageRepo", "PkgNexus.SetPackageType", "PkgNexus.GetPackage"]}]}
{"id": "C14", "title": "Pinning a package's repository does not change its source type", "statement": "Pinning a package to the repository that would have been chosen anyway leaves the selected record and source type unchanged.", "quantifier": "all databases and packages", "why_tests_cant": "interaction of two configuration features", "anchors": [{"file": "cran/pkg_nexus.go", "symbols": ["PkgNexus.GetPackage", "PkgNexus.SetPackageRepo"]}]}
{"id": "C15", "title": "Repository order does not depend on download timing", "statement": "Whatever order the concurrent repository downloads finish in, the resulting database list is in configuration order; an error is returned exactly when some repository failed or none is configured.", "quantifier": "all interleavings of any number of downloads", "why_tests_cant": "schedules", "anchors": [{"file": "cran/pkg_nexus.go", "symbols": ["NewPkgDb"]}]}
{"id": "C16", "title": "Ignored packages are never planned", "statement": "A package listed in IgnorePackages never appears in the install plan as a dependency, however many packages require it.", "quantifier": "all repositories and dependency graphs", "why_tests_cant": "arbitrary dependency graphs", "anchors": [{"file": "cmd/plan.go", "symbols": ["planInstall"]}, {"file": "gpsr/helpers.go", "symbols": ["appendToGraph"]}]}
{"id": "C17", "title": "Missing packages are reported exactly", "statement": "The availability report of a request lists exactly the requested packages no repository offers as missing, in request order, and the all-available check holds exactly when that list is empty.", "quantifier": "all requests and databases", "why_tests_cant": "arbitrary lists", "anchors": [{"file": "cran/pkg_nexus.go", "symbols": ["PkgNexus.GetPackages", "PkgNexus.CheckAllAvailable"]}]}
{"id": "C18", "title": "Distinct repositories have distinct index caches", "statement": "Two repository configurations (name, URL, source types, R version, suffix) that can differ in content never share an index cache file.", "quantifier": "all pairs of repository configurations", "why_tests_cant": "pairs of arbitrary strings", "anchors": [{"file": "cran/repodb.go", "symbols": ["RepoDb.Hash", "RepoDb.GetRepoDbCacheFilePath"]}]}
{"id": "C19", "title": "Index cache freshness", "statement": "A cached index is used exactly when it exists and is younger than the configured maximum age; otherwise the index is fetched again and the cache replaced by the fresh one.", "quantifier": "all histories of runs and clock readings", "why_tests_cant": "histories over time", "anchors": [{"file": "cran/repodb.go", "symbols": ["RepoDb.FetchPackages", "RepoDb.Decode", "RepoDb.Encode"]}]}
{"id": "C20", "title": "The plan is exactly the dependency closure of the request", "statement": "For available requested packages the plan contains exactly the packages reachable from them through available, non-excluded Depends/Imports/LinkingTo (and configured Suggests) edges: nothing is missing and nothing else is installed.", "quantifier": "all databases, requests, dependency settings and map iteration orders", "why_tests_cant": "arbitrary graphs and random map iteration order", "anchors": [{"file": "gpsr/helpers.go", "symbols": ["appendToGraph"]}, {"file": "gpsr/solution.go", "symbols": ["ResolveInstallationReqs"]}]}
{"id": "C21", "title": "Install layers respect dependencies and are as early as possible", "statement": "Resolved layers list every package of the graph exactly once; all dependencies of a package are in strictly earlier layers, and every package beyond the first layer has a dependency in the layer just before it.", "quantifier": "all dependency graphs and map iteration orders", "why_tests_cant": "arbitrary graphs", "anchors": [{"file": "gpsr/dependencies.go", "symbols": ["ResolveLayers"]}]}
{"id": "C22", "title": "Cycles are reported, and only cycles", "statement": "Resolving a graph in which every dependency is itself a node fails exactly when the graph has a dependency cycle, and always terminates.", "quantifier": "all closed dependency graphs", "why_tests_cant": "termination and completeness over arbitrary graphs", "anchors": [{"file": "gpsr/dependencies.go", "symbols": ["ResolveLayers"]}]}
{"id": "C23", "title": "Planning is deterministic", "statement": "The layers, starting packages and recorded dependencies of a plan are the same sets whatever order Go iterates its maps in.", "quantifier": "all databases, requests and pairs of iteration orders", "why_tests_cant": "random map iteration cannot be enumerated", "anchors": [{"file": "gpsr/helpers.go", "symbols": ["appendToGraph"]}, {"file": "gpsr/dependencies.go", "symbols": ["ResolveLayers"]}, {"file": "gpsr/solution.go", "symbols": ["ResolveInstallationReqs"]}]}
{"id": "C24", "title": "Recorded dependencies are the full transitive closure", "statement": "For every planned package that is not a starting package, the plan records exactly its transitive dependencies (and not itself); starting packages are exactly those without dependencies.", "quantifier": "all acyclic databases and requests", "why_tests_cant": "arbitrary graph depth", "anchors": [{"file": "gpsr/solution.go", "symbols": ["ResolveInstallationReqs"]}]}
{"id": "C25", "title": "Dependency inversion is exact", "statement": "A package is listed among the dependents of another exactly when the other is recorded among its dependencies, without duplicates and sorted.", "quantifier": "all dependency maps", "why_tests_cant": "arbitrary maps", "anchors": [{"file": "gpsr/dependencies.go", "symbols": ["InstallDeps.InvertDependencies", "InstallPlan.InvertDependencies"]}]}
{"id": "C26", "title": "Every planned package is downloaded exactly once from its chosen repository", "statement": "The download list has exactly one entry per planned package, each with the repository and source type the package database selects.", "quantifier": "all plans", "why_tests_cant": "arbitrary plans", "anchors": [{"file": "gpsr/dependencies.go", "symbols": ["InstallPlan.Pack"]}, {"file": "cran/download-package.go", "symbols": ["DownloadPackages"]}]}
{"id": "C27", "title": "Base packages are never planned; recommended ones only when allowed", "statement": "No package of the R base set is ever planned as a dependency; with NoRecommended no recommended package is planned unless it is requested explicitly.", "quantifier": "all databases and requests", "why_tests_cant": "arbitrary graphs, including Suggests edges", "anchors": [{"file": "gpsr/helpers.go", "symbols": ["isExcludedPackage", "appendToGraph"]}, {"file": "gpsr/pkgs.go", "symbols": ["DefaultPackages"]}]}
{"id": "C28", "title": "The announced number of packages to install is right", "statement": "The number of packages pkgr announces it will install equals the number of planned packages that are not installed yet plus the number of planned packages that will be updated.", "quantifier": "all plans and library contents", "why_tests_cant": "arbitrary combinations of plan and library", "anchors": [{"file": "gpsr/dependencies.go", "symbols": ["InstallPlan.GetNumPackagesToInstall"]}]}
{"id": "C29", "title": "Planning succeeds for every acyclic request, including the empty one", "statement": "Planning never aborts: if all requested packages are available and there is no cycle it returns a plan, also when there is nothing to resolve.", "quantifier": "all databases and requests", "why_tests_cant": "totality", "anchors": [{"file": "gpsr/solution.go", "symbols": ["ResolveInstallationReqs"]}]}
{"id": "C30", "title": "Suggests settings: the package setting overrides the global one", "statement": "Whether the suggested packages of a package are installed is its own Suggests customization when set, otherwise the global setting for listed packages and false for all others.", "quantifier": "all configurations", "why_tests_cant": "combinations of settings and duplicate entries", "anchors": [{"file": "configlib/config.go", "symbols": ["SetPlanCustomizations", "setCfgCustomizations", "setViperCustomizations", "IsCustomizationSet"]}]}
{"id": "C31", "title": "Outdated packages are exactly those with a strictly newer available version", "statement": "An installed package is reported as outdated exactly when the repositories offer a strictly higher version, and the report carries the two versions.", "quantifier": "all libraries and databases", "why_tests_cant": "arbitrary versions", "anchors": [{"file": "pacman/utils.go", "symbols": ["GetOutdatedPackages"]}]}
{"id": "C32", "title": "The installed-package scan reflects the library", "statement": "When every package directory is named after its package, the scan reports exactly the directories with a readable DESCRIPTION; every installed package is classified as installed by pkgr or not, never both.", "quantifier": "all library contents and directory listing orders", "why_tests_cant": "arbitrary directory contents and listing order", "anchors": [{"file": "pacman/utils.go", "symbols": ["GetPriorInstalledPackages", "GetInstallers", "GetPackagesByInstalledFrom"]}]}
{"id": "C33", "title": "A failed installation is rolled back to the original library", "statement": "If installation fails after the library has been prepared and rollback is enabled, the library afterwards is exactly what it was before, file by file.", "quantifier": "all libraries, plans, sets of packages that were installed before the failure, and failure points", "why_tests_cant": "failure points and partial installations are unbounded", "anchors": [{"file": "rollback/operations.go", "symbols": ["RollbackPackageEnvironment", "rollbackChangedPackages"]}, {"file": "rollback/types.go", "symbols": ["CreateRollbackPlan", "RollbackPlan.PreparePackagesForUpdate", "RollbackPlan.PrepareAdditionalPackagesForOverwrite"]}, {"file": "cmd/install.go", "symbols": ["rInstall"]}]}
{"id": "C34", "title": "A library created by a failed run is removed again", "statement": "If the run created the library itself and fails, the library does not exist afterwards and nothing outside it changed.", "quantifier": "all plans and partial installations", "why_tests_cant": "failure points", "anchors": [{"file": "rollback/operations.go", "symbols": ["RollbackPackageEnvironment"]}]}
{"id": "C35", "title": "Packages outside the plan are never touched", "statement": "No run, successful or not, changes any library directory that is not a planned package or its backup directory, nor anything outside the library.", "quantifier": "all libraries, plans, outcomes", "why_tests_cant": "frame property over arbitrary file systems", "anchors": [{"file": "cmd/install.go", "symbols": ["rInstall"]}, {"file": "rollback/operations.go", "symbols": ["RollbackPackageEnvironment", "DeleteBackupPackageFolders"]}]}
{"id": "C36", "title": "A successful run leaves no backup directories and the new packages", "statement": "After a successful run every planned package has the freshly installed contents (or its untouched previous contents if it was already present and not updated) and no backup directory of an updated or overwritten package is left.", "quantifier": "all libraries and plans", "why_tests_cant": "arbitrary library contents", "anchors": [{"file": "cmd/install.go", "symbols": ["rInstall"]}, {"file": "rollback/operations.go", "symbols": ["DeleteBackupPackageFolders"]}]}
{"id": "C37", "title": "An interruption before the end of installation loses no old package", "statement": "If the process dies at any point between preparing the library and deciding success or failure, the old contents of every package being updated or overwritten still exist, complete, in the package's directory or its backup directory.", "quantifier": "all crash points, libraries and plans", "why_tests_cant": "crash points", "anchors": [{"file": "cmd/install.go", "symbols": ["rInstall"]}, {"file": "rollback/operations.go", "symbols": ["tagOldInstallation"]}]}
{"id": "C38", "title": "NoUpdate leaves installed packages alone", "statement": "With NoUpdate, a package that is already installed and is not given as a tarball keeps its contents, whatever newer versions are available and whether or not the run succeeds.", "quantifier": "all libraries, plans, outcomes", "why_tests_cant": "arbitrary combinations", "anchors": [{"file": "cmd/install.go", "symbols": ["rInstall"]}, {"file": "rcmd/install.go", "symbols": ["InstallThroughBinary"]}]}
{"id": "C39", "title": "Strict mode does not create a library", "statement": "In strict mode a run whose library does not exist stops before changing the file system.", "quantifier": "all plans and file systems", "why_tests_cant": "frame property", "anchors": [{"file": "cmd/install.go", "symbols": ["rInstall"]}]}
{"id": "C40", "title": "A failed installation is visible in the exit status", "statement": "The install command exits with a non-zero status exactly when some package failed to install.", "quantifier": "all plans and failure patterns", "why_tests_cant": "failure patterns", "anchors": [{"file": "cmd/install.go", "symbols": ["rInstall"]}]}
{"id": "C41", "title": "A package is only installed after all its dependencies", "statement": "In every execution of an install plan, when the installation of a package starts, every package recorded among its dependencies has already been installed successfully.", "quantifier": "all plans, numbers of workers and interleavings of feeder, requester, workers and updater", "why_tests_cant": "interleavings", "anchors": [{"file": "rcmd/install.go", "symbols": ["InstallPackagePlan"]}, {"file": "rcmd/worker.go", "symbols": ["InstallQueue", "Worker.Start"]}]}
{"id": "C42", "title": "No package is installed twice, and only planned packages are", "statement": "In every execution each package's installation starts at most once, and only packages of the plan are started.", "quantifier": "all interleavings", "why_tests_cant": "interleavings", "anchors": [{"file": "rcmd/install.go", "symbols": ["InstallPackagePlan"]}]}
{"id": "C43", "title": "Success means everything was installed", "statement": "If executing the plan returns without error, every package of the plan was installed successfully.", "quantifier": "all plans and interleavings", "why_tests_cant": "interleavings; premature return of the wait", "anchors": [{"file": "rcmd/install.go", "symbols": ["InstallPackagePlan"]}]}
{"id": "C44", "title": "Failures are reported exactly", "statement": "If executing the plan returns, the error lists exactly the packages whose installation failed, and it is nil exactly when there is none.", "quantifier": "all interleavings and failure patterns", "why_tests_cant": "interleavings", "anchors": [{"file": "rcmd/install.go", "symbols": ["InstallPackagePlan"]}]}
{"id": "C45", "title": "Nothing that depends on a failed package is installed", "statement": "In every execution no package that depends, directly or transitively, on a package whose installation failed is ever started.", "quantifier": "all interleavings and failure patterns", "why_tests_cant": "interleavings", "anchors": [{"file": "rcmd/install.go", "symbols": ["InstallPackagePlan"]}]}
{"id": "C46", "title": "Executing a plan always terminates when no installation fails", "statement": "For every plan whose size fits the queues, when no installation fails, every maximal execution is finite and ends with the function returning.", "quantifier": "all plans up to the queue capacity, all numbers of workers, all interleavings", "why_tests_cant": "termination and deadlock freedom over interleavings", "anchors": [{"file": "rcmd/install.go", "symbols": ["InstallPackagePlan"]}, {"file": "rcmd/worker.go", "symbols": ["NewInstallQueue"]}]}
{"id": "C47", "title": "Executing a plan terminates also when installations fail", "statement": "Every maximal execution of a plan ends with the function returning, so that the failure can be reported and rolled back.", "quantifier": "all interleavings and failure patterns", "why_tests_cant": "a lost wake-up needs a particular interleaving", "anchors": [{"file": "rcmd/install.go", "symbols": ["InstallPackagePlan"]}]}
{"id": "C48", "title": "At most the configured number of installations run at once", "statement": "At no point of any execution are more installations running than there are workers.", "quantifier": "all interleavings", "why_tests_cant": "interleavings", "anchors": [{"file": "rcmd/worker.go", "symbols": ["InstallQueue"]}, {"file": "cmd/utils.go", "symbols": ["getWorkerCount"]}]}
{"id": "C49", "title": "A package that fails to build never reaches the library", "statement": "Installing one package changes the library only after the package was built and installed in a temporary directory (or found in the binary cache); an already present package is skipped unchanged; if the build fails the library is unchanged and the error is reported.", "quantifier": "all outcomes of the R invocations and file system states", "why_tests_cant": "outcome combinations of external commands", "anchors": [{"file": "rcmd/install.go", "symbols": ["InstallThroughBinary", "isInCache", "Install"]}]}
{"id": "C50", "title": "A binary stored in the cache is found again", "statement": "The path under which a freshly built binary is stored is the path that is looked up for the same package, version, platform and R version.", "quantifier": "all package names, versions and platforms", "why_tests_cant": "string construction in two places must agree for every input", "anchors": [{"file": "rcmd/helpers.go", "symbols": ["binaryNameOs", "binaryExtOs"]}, {"file": "rcmd/install.go", "symbols": ["isInCache", "InstallPackagePlan"]}]}
{"id": "C51", "title": "Downloads: results match packages and concurrency is bounded", "statement": "After downloading a list of distinct packages, each package maps to the outcome of its own download, failures are absent, and never more than ten downloads run at once, for every interleaving.", "quantifier": "all lists, outcomes and interleavings", "why_tests_cant": "interleavings", "anchors": [{"file": "cran/download-package.go", "symbols": ["DownloadPackages"]}, {"file": "cran/sync.go", "symbols": ["PkgMap"]}]}
{"id": "C52", "title": "A cached download is complete", "statement": "A package file found in the download cache and reused was downloaded completely, also after earlier interrupted or failed downloads.", "quantifier": "all histories of downloads with interruptions at any byte", "why_tests_cant": "crash points", "anchors": [{"file": "cran/download-package.go", "symbols": ["DownloadPackage"]}]}
{"id": "C53", "title": "A package that could not be downloaded is reported as an error", "statement": "If the server answers a package request with a non-success status the download of that package returns an error.", "quantifier": "all HTTP statuses", "why_tests_cant": "status codes", "anchors": [{"file": "cran/download-package.go", "symbols": ["DownloadPackage"]}]}
{"id": "C54", "title": "R sees exactly the configured library paths", "statement": "In the environment passed to R, R_LIBS_USER is the temporary install library and R_LIBS_SITE the configured library paths, never values inherited from the caller's environment.", "quantifier": "all system environments, settings and package customizations", "why_tests_cant": "arbitrary environments with duplicates", "anchors": [{"file": "rcmd/configure.go", "symbols": ["configureEnv"]}, {"file": "rcmd/Rsettings.go", "symbols": ["RSettings.LibPathsEnv"]}]}
{"id": "C55", "title": "A package's customized environment wins", "statement": "The effective value of a variable customized for a package is the customized one, whatever the system or global settings say, except for the library variables set by pkgr.", "quantifier": "all environments and customizations", "why_tests_cant": "duplicates and ordering in environments", "anchors": [{"file": "rcmd/configure.go", "symbols": ["configureEnv"]}, {"file": "rcmd/nvp.go", "symbols": ["NvpList"]}]}
{"id": "C56", "title": "Secrets from the environment do not reach the package build", "statement": "The value of a variable named as sensitive in the caller's environment never appears as the value of that variable in the environment of R.", "quantifier": "all environments", "why_tests_cant": "arbitrary environments", "anchors": [{"file": "rcmd/configure.go", "symbols": ["configureEnv", "censoredEnvVars"]}]}
{"id": "C57", "title": "Name-value lists behave like maps", "statement": "After setting a name to a value, reading that name gives that value and all other names are unchanged; after removing a name it is absent; order of the other entries is kept.", "quantifier": "all lists", "why_tests_cant": "arbitrary lists with duplicates", "anchors": [{"file": "rcmd/nvp.go", "symbols": ["NvpList.Append", "NvpList.Get", "NvpList.Update", "NvpList.Remove"]}]}
{"id": "C58", "title": "Stamping a DESCRIPTION keeps all other fields", "statement": "Stamping adds the pkgr version, install type and repository URL exactly once, points Repository at the repository used, and keeps every other line in order.", "quantifier": "all DESCRIPTION contents", "why_tests_cant": "arbitrary file contents", "anchors": [{"file": "rcmd/install.go", "symbols": ["updateDescriptionInfoByLines"]}]}
{"id": "C59", "title": "Stamping a DESCRIPTION twice is the same as stamping it once", "statement": "Stamping again with the same arguments changes nothing.", "quantifier": "all DESCRIPTION contents and stamp values", "why_tests_cant": "arbitrary contents", "anchors": [{"file": "rcmd/install.go", "symbols": ["updateDescriptionInfoByLines"]}]}
{"id": "C60", "title": "The original repository of a package is recorded faithfully", "statement": "When stamping replaces the Repository field, the previous value is kept in full under OriginalRepository.", "quantifier": "all DESCRIPTION contents", "why_tests_cant": "arbitrary field values", "anchors": [{"file": "rcmd/install.go", "symbols": ["updateDescriptionInfoByLines"]}]}
{"id": "C61", "title": "pkgr add only inserts the new packages", "statement": "Adding packages keeps every existing line of the configuration in order and inserts exactly one list item per new package directly below the Packages key; packages already listed are not added again; adding never aborts.", "quantifier": "all configuration files and package lists", "why_tests_cant": "arbitrary file contents", "anchors": [{"file": "configlib/add_package.go", "symbols": ["AddPackages", "insertPackages"]}]}
{"id": "C62", "title": "pkgr remove only removes the named package", "statement": "Removing a package deletes exactly the list items naming that package in the Packages section and keeps every other line in order.", "quantifier": "all configuration files and package names", "why_tests_cant": "arbitrary file contents", "anchors": [{"file": "configlib/config.go", "symbols": ["remove"]}]}
{"id": "C63", "title": "Adding then removing a package restores the configuration", "statement": "Removing a package right after adding it gives back the original file.", "quantifier": "all configuration files and packages", "why_tests_cant": "round trip over arbitrary contents", "anchors": [{"file": "configlib/add_package.go", "symbols": ["insertPackages"]}, {"file": "configlib/config.go", "symbols": ["remove"]}]}
{"id": "C64", "title": "Unpacking a tarball never writes outside its directory", "statement": "Whatever entries an archive contains, every path created, opened or written while unpacking lies inside the destination directory, and only regular files and directories are created.", "quantifier": "all archives (any entry names, types and order)", "why_tests_cant": "adversarial input", "anchors": [{"file": "internal/archive/extract.go", "symbols": ["Extract", "extractFile"]}]}
{"id": "C65", "title": "An unpacked tarball in the cache is complete", "statement": "A tarball directory found in the cache and reused has the complete contents of the tarball, also after failed or interrupted unpacking.", "quantifier": "all archives and interruption points", "why_tests_cant": "crash points", "anchors": [{"file": "cmd/tarballOps.go", "symbols": ["untar"]}]}
{"id": "C66", "title": "Cleaning the cache removes exactly what was asked", "statement": "Cleaning the cache of given repositories and sub-folders removes those and nothing else.", "quantifier": "all cache contents and selections", "why_tests_cant": "frame property", "anchors": [{"file": "cmd/cleanCache.go", "symbols": ["cleanCacheFolders", "deleteCacheSubfolders"]}]}
{"id": "C67", "title": "Cleaning everything also cleans unpacked tarballs", "statement": "A full clean of the cache removes the unpacked tarballs that installs use, also when no cache directory is configured.", "quantifier": "all configurations", "why_tests_cant": "configuration combinations", "anchors": [{"file": "cmd/cleanCache.go", "symbols": ["cleanCacheFolders"]}, {"file": "cmd/utils.go", "symbols": ["userCache"]}]}
{"id": "C68", "title": "The load report is complete and terminates", "statement": "Loading a list of packages terminates for every interleaving and thread setting, reports one result per package, and counts exactly the failures.", "quantifier": "all package lists, outcomes, thread settings and interleavings", "why_tests_cant": "interleavings", "anchors": [{"file": "cmd/load.go", "symbols": ["load", "attemptLoadConcurrent"]}, {"file": "cmd/structs.go", "symbols": ["LoadReport.AddResult"]}]}
{"id": "C69", "title": "The dependencies in a DESCRIPTION or tarball are installed", "statement": "Every package listed under Depends, Imports or LinkingTo of a configured DESCRIPTION or tarball (other than R itself and base packages) is part of the request.", "quantifier": "all DESCRIPTION contents", "why_tests_cant": "arbitrary dependency fields", "anchors": [{"file": "desc/structs.go", "symbols": ["Desc.GetCombinedDependencies"]}, {"file": "cmd/plan.go", "symbols": ["planInstall"]}]}
{"id": "C70", "title": "Library takes precedence over Lockfile", "statement": "If a Library is configured it is used as is; otherwise the library is derived from the lockfile type, and an unknown type is an error.", "quantifier": "all configurations", "why_tests_cant": "combinations", "anchors": [{"file": "configlib/config.go", "symbols": ["NewConfig", "getLibraryPath"]}]}
{"id": "C71", "title": "Number of workers", "statement": "The number of workers is the requested number when positive, otherwise the number of CPUs capped at eight; it is never zero on a machine with a CPU.", "quantifier": "all thread settings and CPU counts", "why_tests_cant": "all integers", "anchors": [{"file": "cmd/utils.go", "symbols": ["getWorkerCount"]}]}
{"id": "C72", "title": "A bare dependency on R does not exclude a package", "statement": "A package that lists R in Depends without a version constraint is compatible with every R version.", "quantifier": "all package records and R versions", "why_tests_cant": "interaction of parsing and filtering", "anchors": [{"file": "cran/repodb.go", "symbols": ["isRVersionCompatible", "checkRVersionCompatibility"]}]}
{"id": "C73", "title": "Planning from the configuration file", "statement": "For every configuration, the plan contains exactly the dependency closure of the listed packages plus the dependencies of tarballs and DESCRIPTION files, with base and ignored packages removed, taken from the pinned repositories; missing packages are reported and give no plan.", "quantifier": "all configurations, databases, tarballs, DESCRIPTION files and map iteration orders", "why_tests_cant": "combination of all planning features", "anchors": [{"file": "cmd/plan.go", "symbols": ["planInstall", "removeBasePackages"]}, {"file": "configlib/config.go", "symbols": ["SetPlanCustomizations"]}]}
{"id": "C74", "title": "Executing a plan never drives the wait group negative", "statement": "In every interleaving, including failures, the wait group counter never becomes negative (which would crash the program), and nothing is started after the function has returned.", "quantifier": "all plans, failure patterns and interleavings", "why_tests_cant": "a crash needs a particular interleaving", "anchors": [{"file": "rcmd/install.go", "symbols": ["InstallPackagePlan"]}]}
{"id": "C75", "title": "The caller's R_LIBS does not reach R", "statement": "The environment passed to R never defines R_LIBS from the caller's environment, since R puts those paths in front of the configured ones.", "quantifier": "all caller environments", "why_tests_cant": "depends on the developer's own environment", "anchors": [{"file": "rcmd/configure.go", "symbols": ["configureEnv"]}]}
{"id": "C76", "title": "Other variables of the caller are passed on unchanged", "statement": "A variable of the caller that is not customized, not sensitive, not PATH and not one of the library variables has the same value for R.", "quantifier": "all caller environments, customizations and settings", "why_tests_cant": "arbitrary environments", "anchors": [{"file": "rcmd/configure.go", "symbols": ["configureEnv"]}, {"file": "rcmd/nvp.go", "symbols": ["NvpList.Append"]}]}
{"id": "C77", "title": "The directory of every download exists", "statement": "Before the downloads start, the cache directory that each file is written to has been created.", "quantifier": "all lists of packages and repositories", "why_tests_cant": "combinations of repositories, in particular equal names", "anchors": [{"file": "cran/download-package.go", "symbols": ["getRepos", "DownloadPackages"]}]}
{"id": "C78", "title": "R is only given files of the package", "statement": "Every source handed to R CMD INSTALL while installing a package is the file downloaded for it, its binary in the cache, or the binary built from it.", "quantifier": "all requests, also after failed downloads", "why_tests_cant": "combinations of failures", "anchors": [{"file": "rcmd/install.go", "symbols": ["InstallThroughBinary", "Install"]}, {"file": "cran/download-package.go", "symbols": ["DownloadPackage"]}]}
{"id": "C79", "title": "Cleaning package databases", "statement": "Cleaning the package databases of given repositories (or of all configured ones) removes the database files that a plan with the same R version reads, and no other file.", "quantifier": "all configurations, database lists, R versions and file systems", "why_tests_cant": "frame property over arbitrary file systems", "anchors": [{"file": "cmd/cleanPkgdb.go", "symbols": ["cleanPackageDatabases", "removePackageDatabases"]}, {"file": "cran/repodb.go", "symbols": ["GetRepoDbCacheFilePath", "Hash"]}]}
{"id": "C80", "title": "The version and platform of R", "statement": "The version and platform taken from the output of R --version are those of R, whatever else R prints.", "quantifier": "all outputs of R --version, all versions", "why_tests_cant": "all numbers and surrounding lines", "anchors": [{"file": "rcmd/Rsettings.go", "symbols": ["GetRVersion", "parseVersionData"]}, {"file": "rcmd/rp/lines.go", "symbols": ["ScanLines", "ScanROutput"]}]}
{"id": "C81", "title": "Packages are fetched from the directory of their index", "statement": "For every configured repository, the address of a package to download is in the directory of the index in which the package was found.", "quantifier": "all configurations, platforms, distributions, R versions and files", "why_tests_cant": "all strings", "anchors": [{"file": "cran/repodb.go", "symbols": ["GetPackagesFileURL", "NewRepoDb"]}, {"file": "cran/download-package.go", "symbols": ["DownloadPackage"]}, {"file": "cmd/plan.go", "symbols": ["planInstall"]}]}
{"id": "C82", "title": "The type of packages of a repository", "statement": "A repository is asked for the type of package configured for it, or else the default of the platform, and the index of that type is read.", "quantifier": "all configurations, platforms and distributions", "why_tests_cant": "all lists of customizations", "anchors": [{"file": "cmd/plan.go", "symbols": ["planInstall"]}, {"file": "cran/repodb.go", "symbols": ["NewRepoDb"]}, {"file": "cran/utils.go", "symbols": ["DefaultType", "SupportsBinary", "linuxKnownSupportsBinary"]}, {"file": "configlib/get_customization.go", "symbols": ["GetRepoCustomizationByName"]}]}
{"id": "C83", "title": "The directory of binaries on Linux", "statement": "Binaries are looked for under ubuntu/<codename>, centos/<major version> for CentOS and Red Hat, and <id>/<version> for other distributions.", "quantifier": "all values of ID, VERSION_ID and VERSION_CODENAME", "why_tests_cant": "all strings", "anchors": [{"file": "cran/utils.go", "symbols": ["getLinuxBinaryUri", "cranBinaryURL"]}]}
{"id": "C84", "title": "Reading /etc/os-release", "statement": "ID, VERSION_ID and VERSION_CODENAME are read from /etc/os-release, whether values are quoted or not, among any other assignments, comments and blank lines.", "quantifier": "all os-release files with distinct variables", "why_tests_cant": "all lists of lines", "anchors": [{"file": "cran/utils.go", "symbols": ["ReadOsRelease"]}]}
{"id": "C85", "title": "Relative paths are relative to the configuration file", "statement": "Whatever directory pkgr is called in, the configuration file given with --config is read, relative paths in it lead to places seen from its directory, and add and remove change that same file.", "quantifier": "all working directories, names of configuration files and paths", "why_tests_cant": "all paths, including . and ..", "anchors": [{"file": "configlib/config.go", "symbols": ["loadConfigFromPath", "RemovePackage", "getRenvLibrary"]}, {"file": "cmd/root.go", "symbols": ["initConfig"]}, {"file": "configlib/add_package.go", "symbols": ["AddPackages"]}]}
{"id": "C86", "title": "Environment variables in the configuration", "statement": "A dollar sign followed by a word, with or without braces, is replaced by the value of that variable or by nothing if it is not set, and no other text is changed.", "quantifier": "all texts made of plain text and variables, all environments", "why_tests_cant": "all texts and environments", "anchors": [{"file": "configlib/config.go", "symbols": ["loadConfigFromPath"]}]}
{"id": "C87", "title": "pkgr run --pkg uses the variables of an installation", "statement": "The R session of pkgr run --pkg=X gets the variables from the customizations that an installation of X gets.", "quantifier": "all lists of customizations and packages", "why_tests_cant": "all lists of customizations", "anchors": [{"file": "cmd/run.go", "symbols": ["rRun"]}, {"file": "configlib/get_customization.go", "symbols": ["GetPackageCustomizationByName"]}, {"file": "configlib/config.go", "symbols": ["SetCustomizations"]}]}
{"id": "C88", "title": "The arguments of R CMD INSTALL", "statement": "Packages are installed with R --vanilla CMD INSTALL into the configured library, with exactly one argument for each setting that is on, followed by the file.", "quantifier": "all settings, libraries and files", "why_tests_cant": "all combinations of settings", "anchors": [{"file": "rcmd/install.go", "symbols": ["CliArgs", "NewDefaultInstallArgs", "Install"]}, {"file": "rcmd/structs.go", "symbols": ["InstallArgs"]}]}
{"id": "C89", "title": "The R that is run", "statement": "pkgr runs the R of RPath, or the R of the PATH without it, whatever the working directory of the command, and the Rscript beside that R.", "quantifier": "all settings of RPath and working directories", "why_tests_cant": "all paths", "anchors": [{"file": "rcmd/Rsettings.go", "symbols": ["R", "NewRSettings"]}, {"file": "rcmd/RunR.go", "symbols": ["convertToRscript", "RunRscriptWithArgs"]}, {"file": "configlib/config.go", "symbols": ["NewConfig"]}]}
{"id": "C90", "title": "R is first on its PATH", "statement": "R is started with a PATH whose first directory is that of RPath, followed by the PATH of the caller.", "quantifier": "all environments and RPath settings", "why_tests_cant": "all inputs", "anchors": [{"file": "rcmd/configure.go", "symbols": ["configureEnv"]}]}
{"id": "C91", "title": "Places in the cache are kept apart", "statement": "Two downloads, or two built packages, share a file of the package cache only when package, version, kind, R minor version, repository name and repository address agree.", "quantifier": "all pairs of packages, repositories and R versions", "why_tests_cant": "all inputs", "anchors": [{"file": "cran/download-package.go", "symbols": ["DownloadPackages"]}, {"file": "cran/utils.go", "symbols": ["binaryName", "RepoURLHash"]}, {"file": "rcmd/install.go", "symbols": ["isInCache"]}, {"file": "rcmd/helpers.go", "symbols": ["binaryNameOs"]}]}
{"id": "C92", "title": "Every tarball is unpacked and used", "statement": "Every tarball of the configuration is unpacked completely into a directory named after its contents, its description is used, and it is installed from its package directory.", "quantifier": "all lists of tarballs and cache contents", "why_tests_cant": "all inputs", "anchors": [{"file": "cmd/tarballOps.go", "symbols": ["unpackTarballs", "untar", "getHashedTarballName"]}]}
{"id": "C93", "title": "Installing tarballs", "statement": "Every tarball is installed once, from its own directory into the library; only the packages given as tarballs change; an error is returned exactly when R fails for one of them, and without an error all of them are in the library.", "quantifier": "all sets of tarballs in all orders, all behaviours of R", "why_tests_cant": "all executions", "anchors": [{"file": "cmd/install.go", "symbols": ["installAdditionalPackages"]}, {"file": "rcmd/install.go", "symbols": ["Install"]}]}
{"id": "C94", "title": "Dependencies of tarballs come first", "statement": "What a tarball depends on is installed before the tarball.", "quantifier": "all configurations and repositories", "why_tests_cant": "all inputs", "anchors": [{"file": "cmd/plan.go", "symbols": ["planInstall"]}, {"file": "cmd/install.go", "symbols": ["installAdditionalPackages", "rInstall"]}]}
{"id": "C95", "title": "inspect lists dependencies exactly", "statement": "pkgr inspect --deps maps each package to its direct and indirect dependencies, and with --reverse to the planned packages that depend on it, sorted and once each; arguments restrict the record to the named packages.", "quantifier": "all repositories, requests and arguments", "why_tests_cant": "all inputs and map iteration orders", "anchors": [{"file": "cmd/inspect.go", "symbols": ["inspect", "printDeps"]}, {"file": "gpsr/dependencies.go", "symbols": ["InvertDependencies"]}]}
{"id": "C96", "title": "inspect prints the dependency tree", "statement": "pkgr inspect --deps --tree ends and prints below each package exactly its dependencies; with --reverse, the packages that depend on it.", "quantifier": "all repositories, requests and arguments", "why_tests_cant": "all inputs and map iteration orders", "anchors": [{"file": "cmd/inspect.go", "symbols": ["inspect", "printDeps", "recurseDeps"]}]}
{"id": "C97", "title": "Installing a plan touches its packages only", "statement": "However the workers, R and the copying of binaries interleave, at every moment only the planned packages that are not in the library yet, temporary directories, lock directories of R and the package cache have changed.", "quantifier": "all plans, numbers of workers, schedules and behaviours of R, also after a fatal error", "why_tests_cant": "all executions of any length", "anchors": [{"file": "rcmd/install.go", "symbols": ["InstallPackagePlan", "InstallThroughBinary", "Install", "isInCache"]}, {"file": "rcmd/worker.go", "symbols": ["Worker.Start"]}]}
{"id": "C98", "title": "A plan that is installed without error is complete", "statement": "When InstallPackagePlan returns without error every package of the plan is in the library; while anything is done for a package its dependencies are in the library; and InstallPackagePlan returns.", "quantifier": "all plans, numbers of workers, schedules and behaviours of R", "why_tests_cant": "all executions of any length", "anchors": [{"file": "rcmd/install.go", "symbols": ["InstallPackagePlan", "InstallThroughBinary", "Install"]}, {"file": "rcmd/worker.go", "symbols": ["Worker.Start"]}]}
{"id": "C99", "title": "A run without errors installs the request", "statement": "After pkgr install without errors all requested packages, their dependencies and the tarballs are in the library, no backups of replaced packages are left, and everything else is as before.", "quantifier": "all repositories, requests, libraries, schedules and behaviours of R", "why_tests_cant": "all executions", "anchors": [{"file": "cmd/install.go", "symbols": ["rInstall", "installAdditionalPackages"]}, {"file": "cmd/plan.go", "symbols": ["planInstall"]}, {"file": "rcmd/install.go", "symbols": ["InstallPackagePlan"]}, {"file": "rollback/operations.go", "symbols": ["RollbackPackageEnvironment"]}]}
{"id": "C100", "title": "A run with errors changes nothing", "statement": "After pkgr install in which a package or tarball could not be installed, everything outside of temporary directories, lock directories and the cache is as before.", "quantifier": "all libraries, plans, schedules and behaviours of R", "why_tests_cant": "all executions", "anchors": [{"file": "cmd/install.go", "symbols": ["rInstall", "installAdditionalPackages"]}, {"file": "rcmd/install.go", "symbols": ["InstallPackagePlan"]}, {"file": "rollback/operations.go", "symbols": ["RollbackPackageEnvironment"]}]}
{"id": "C101", "title": "A description is read as written", "statement": "Reading a DESCRIPTION file or index record gives the values of its fields; dependency fields give their comma-separated entries, also over several lines, each in its own field, and of two entries for one package the last counts. It fails exactly if an entry is malformed.", "quantifier": "all well-formed records", "why_tests_cant": "all inputs", "anchors": [{"file": "desc/desc.go", "symbols": ["ParseDesc", "ReadDesc", "NewDesc"]}, {"file": "desc/structs.go", "symbols": ["desc"]}]}
{"id": "C102", "title": "An index offers what its text lists", "statement": "The packages read from the text of an index are those of its records, with Unix or Windows line ends; of several usable records of one package the last counts.", "quantifier": "all index texts made of well-formed records", "why_tests_cant": "all inputs", "anchors": [{"file": "cran/repodb.go", "symbols": ["FetchPackages"]}, {"file": "desc/desc.go", "symbols": ["ParseDesc"]}]}
{"id": "C103", "title": "Empty lines at the end of an index do not matter", "statement": "An index followed by any number of empty lines is read like one without.", "quantifier": "all index texts", "why_tests_cant": "all inputs", "anchors": [{"file": "cran/repodb.go", "symbols": ["FetchPackages"]}]}
{"id": "C104", "title": "An index that cannot be read is an error", "statement": "What is used as the index of a repository was read to its end; otherwise an error is reported.", "quantifier": "all answers of a repository", "why_tests_cant": "all inputs", "anchors": [{"file": "cran/repodb.go", "symbols": ["FetchPackages"]}]}
{"id": "C105", "title": "Every dependency has a name", "statement": "Every dependency that is read is named by an entry of its field, and none has an empty name.", "quantifier": "all well-formed records", "why_tests_cant": "all inputs", "anchors": [{"file": "desc/desc.go", "symbols": ["NewDesc", "ParseDep"]}]}
{"id": "C106", "title": "Web addresses are fetched, directories are read", "statement": "The indexes and packages of a repository are fetched over HTTP if its address is an http or https address, and read as files otherwise; a repository's indexes and packages are always reached in the same way.", "quantifier": "all repositories and addresses", "why_tests_cant": "all inputs", "anchors": [{"file": "cran/repodb.go", "symbols": ["FetchPackages", "GetPackagesFileURL"]}, {"file": "cran/download-package.go", "symbols": ["DownloadPackage"]}]}
{"id": "C107", "title": "The matrix check finds the problems of a traceability matrix", "statement": "checkmat exits with 0 if and only if the matrix and the directory of documentation can be read and the matrix has none of the problems that the usage text names; every problem is written and nothing else is.", "quantifier": "all matrices, directories and file systems", "why_tests_cant": "all inputs", "anchors": [{"file": "internal/valtools/checkmat/main.go", "symbols": ["checkValidFileNames", "checkMissingFiles", "checkEntrypointDocMismatch", "checkDupEntrypoints", "checkMissingEntries", "check"]}]}
{"id": "C108", "title": "The exit status of the test formatter", "statement": "fmttests exits with 2 if the stream cannot be read, with 1 if any fail record is encountered or, unless skips are allowed, any skip record, and with 0 otherwise.", "quantifier": "all streams of records", "why_tests_cant": "all inputs", "anchors": [{"file": "internal/valtools/fmttests/main.go", "symbols": ["processEvents", "main"]}]}
{"id": "C109", "title": "The test formatter writes each result and the output of failures", "statement": "fmttests writes one line for each result of a test in the order of the records, with passing subtests on request, and writes the output of each failing test that was recorded so far.", "quantifier": "all streams of records", "why_tests_cant": "all inputs", "anchors": [{"file": "internal/valtools/fmttests/main.go", "symbols": ["processEvents"]}]}
{"id": "C110", "title": "Coverage is the percentage of statements run", "statement": "filecov reports for each profile, and over all, the percentage of statements that were run: between 0 and 100, and 100 exactly if every statement was run.", "quantifier": "all profiles", "why_tests_cant": "all inputs", "anchors": [{"file": "internal/valtools/filecov/main.go", "symbols": ["percentCovered"]}]}
{"id": "C111", "title": "Short file names in the coverage report", "statement": "filecov removes the name of the module from the names of its files and keeps other names; different files keep different names.", "quantifier": "all modules and lists of files", "why_tests_cant": "all inputs", "anchors": [{"file": "internal/valtools/filecov/main.go", "symbols": ["shortenFileNames"]}]}
{"id": "C112", "title": "A command writes its records to its log file", "statement": "Every record at or above the chosen level that a command logs once logging is set up is written to the log file configured for it, in order and after what the file held or, if overwriting is chosen, in its place; without a configured file no file is written.", "quantifier": "all commands, configurations and records", "why_tests_cant": "all executions", "anchors": [{"file": "logger/logger.go", "symbols": ["AddLogFile", "SetLogLevel"]}, {"file": "cmd/root.go", "symbols": ["initConfig"]}, {"file": "cmd/install.go", "symbols": ["rInstall"]}, {"file": "cmd/add.go", "symbols": ["rAdd", "initAddLog"]}, {"file": "cmd/plan.go", "symbols": ["plan"]}]}
{"id": "C113", "title": "The level of logging", "statement": "The level chosen, in small or capital letters, is the level used, and info otherwise; the flag wins over the configuration file.", "quantifier": "all levels and configurations", "why_tests_cant": "all inputs", "anchors": [{"file": "logger/logger.go", "symbols": ["SetLogLevel"]}, {"file": "cmd/root.go", "symbols": ["initConfig", "setGlobals"]}]}
{"id": "C114", "title": "Removing several packages", "statement": "pkgr remove with several names removes the entries of each of them and nothing else; the order of the names does not matter, and doing it again changes nothing.", "quantifier": "all configuration files and lists of names", "why_tests_cant": "all inputs", "anchors": [{"file": "cmd/remove.go", "symbols": ["rRemove"]}, {"file": "configlib/config.go", "symbols": ["RemovePackage", "remove"]}]}
{"id": "C115", "title": "Cleaning everything", "statement": "clean --all removes the source and binary packages in the cache, the unpacked tarballs and the databases of the configured repositories, and nothing else; without --all nothing is removed.", "quantifier": "all caches, configurations and file systems", "why_tests_cant": "all inputs", "anchors": [{"file": "cmd/clean.go", "symbols": ["clean"]}, {"file": "cmd/cleanCache.go", "symbols": ["cleanCacheFolders"]}, {"file": "cmd/cleanPkgdb.go", "symbols": ["cleanPackageDatabases"]}]}
{"id": "C116", "title": "The packages that DESCRIPTION files name are planned", "statement": "Every package that a DESCRIPTION file of the configuration names as a dependency is planned, but for base packages; a file that cannot be read or understood ends the run.", "quantifier": "all texts of DESCRIPTION files and repositories", "why_tests_cant": "all inputs", "anchors": [{"file": "cmd/descriptionOps.go", "symbols": ["unpackDescriptions"]}, {"file": "cmd/plan.go", "symbols": ["planInstall"]}, {"file": "desc/desc.go", "symbols": ["ParseDesc"]}]}
{"id": "C117", "title": "Packages are loaded in the directory of the configuration file", "statement": "Whatever the name of the configuration file given with --config is, pkgr load runs R in the directory of that file, and in the working directory when none is given.", "quantifier": "all working directories and names of configuration files", "why_tests_cant": "all paths", "anchors": [{"file": "cmd/load.go", "symbols": ["loadCmd"]}, {"file": "cmd/root.go", "symbols": ["initConfig"]}]}
{"id": "C118", "title": "The load report says what R said", "statement": "For every package the report of pkgr load gives the directory and the version that R names, the texts R has written and whether loading succeeded; it lists the libraries that R names.", "quantifier": "all answers of R, lists of packages and interleavings", "why_tests_cant": "all outputs of R and schedules", "anchors": [{"file": "cmd/load.go", "symbols": ["attemptLoad", "getAdditionalPkgInfo", "getRSessionLibPaths", "runRCmd"]}, {"file": "cmd/structs.go", "symbols": ["MakeLoadResult", "LoadReport.AddResult"]}, {"file": "rcmd/rp/lines.go", "symbols": ["ScanROutput"]}]}
{"id": "C119", "title": "pkgr load loads what it should", "statement": "Without --all the report has an entry for each package of the configuration and no other, with --all for each package of the plan and each tarball and no other.", "quantifier": "all configurations, plans, answers of R and interleavings", "why_tests_cant": "all plans and schedules", "anchors": [{"file": "cmd/load.go", "symbols": ["load"]}, {"file": "cmd/plan.go", "symbols": ["planInstall"]}, {"file": "gpsr/dependencies.go", "symbols": ["InstallPlan.GetAllPackages"]}]}
{"id": "C120", "title": "The end of pkgr load tells whether all packages could be loaded", "statement": "The last message and the exit status of pkgr load say whether every package was loaded.", "quantifier": "all lists of packages, answers of R and interleavings", "why_tests_cant": "all schedules", "anchors": [{"file": "cmd/load.go", "symbols": ["load", "attemptLoad"]}, {"file": "cmd/structs.go", "symbols": ["LoadReport.AddResult"]}]}
{"id": "C121", "title": "The sources that a plan announces", "statement": "For each repository the number of packages announced is the number of packages that come from it, for tarballs it is the number of tarballs, and the numbers add up to the number of required packages.", "quantifier": "all plans, repositories and tarballs", "why_tests_cant": "all inputs", "anchors": [{"file": "cmd/plan.go", "symbols": ["planInstall"]}]}
{"id": "C122", "title": "The numbers of packages that a plan announces", "statement": "The number of required packages is the number of packages planned or given as a tarball, the number of installed packages that of the packages in the library, and the number not from pkgr that of installed packages without the mark of pkgr.", "quantifier": "all plans, libraries and tarballs", "why_tests_cant": "all inputs", "anchors": [{"file": "cmd/plan.go", "symbols": ["planInstall"]}, {"file": "gpsr/dependencies.go", "symbols": ["InstallPlan.GetAllPackages"]}]}
{"id": "C123", "title": "The updates that a plan announces", "statement": "The packages announced as to be updated are those that the installation replaces by a newer version, and their number is announced; without updates there are none.", "quantifier": "all plans and settings", "why_tests_cant": "all inputs", "anchors": [{"file": "cmd/plan.go", "symbols": ["planInstall"]}]}
{"id": "C124", "title": "The packages that a plan lists as to be installed", "statement": "When some packages of the plan are to be installed and others are left alone, the packages listed are the planned packages that are not installed, each with its name, version and repository.", "quantifier": "all plans, libraries and repositories", "why_tests_cant": "all inputs", "anchors": [{"file": "cmd/plan.go", "symbols": ["planInstall"]}]}
{"id": "C125", "title": "The status of a command tells whether it has done its work", "statement": "plan, inspect, run and clean cache end with the status 0 exactly when they have done their work: a plan was made and in strict mode the library exists, the session of R ended well, the cache was cleaned without an error.", "quantifier": "all plans, sessions, caches and settings", "why_tests_cant": "all inputs", "anchors": [{"file": "cmd/root.go", "symbols": ["Execute"]}, {"file": "cmd/plan.go", "symbols": ["plan", "planInstall"]}, {"file": "cmd/run.go", "symbols": ["rRun"]}, {"file": "cmd/cleanCache.go", "symbols": ["cache", "cleanCacheFolders"]}]}
{"id": "C126", "title": "The configuration file after add and remove", "statement": "When add or remove ends with the status 0 the file has the entries added or removed, otherwise it is as it was before.", "quantifier": "all configuration files, names and failures of reading and writing", "why_tests_cant": "all inputs", "anchors": [{"file": "cmd/add.go", "symbols": ["rAdd"]}, {"file": "cmd/remove.go", "symbols": ["rRemove"]}, {"file": "configlib/add_package.go", "symbols": ["AddPackages"]}, {"file": "configlib/config.go", "symbols": ["remove"]}]}
{"id": "C127", "title": "Temporary directories", "statement": "The directories used to build packages and those given to R as R_LIBS_USER are directories of their own below the temporary directory, and R_LIBS_USER is and stays empty.", "quantifier": "all generators, clock readings, file systems and interleavings", "why_tests_cant": "all executions", "anchors": [{"file": "rcmd/utils.go", "symbols": ["randomString"]}, {"file": "rcmd/configure.go", "symbols": ["configureEnv"]}, {"file": "rcmd/install.go", "symbols": ["InstallThroughBinary"]}]}
{"id": "C128", "title": "Flags, variables and the file", "statement": "A setting has the value given on the command line; without one, that of the variable PKGR_LIBRARY or PKGR_RPATH if it is not empty; then that of the configuration file; then its default.  --update puts NoUpdate off.  In particular --no-update and --strict have their effect whatever the file says.", "quantifier": "all flags, variables, files, plans and file systems", "why_tests_cant": "all inputs", "anchors": [{"file": "cmd/root.go", "symbols": ["rootInit", "initConfig"]}, {"file": "configlib/config.go", "symbols": ["NewConfig", "loadConfigFromPath", "loadDefaultSettings"]}]}
{"id": "C129", "title": "Paths with a tilde", "statement": "In Library, RPath, Tarballs, Descriptions, Repos, Cache and the log files a tilde in front of a path stands for the home directory, paths without one are kept as they are, and a path into the home of somebody else ends the command with an error.", "quantifier": "all homes and configurations", "why_tests_cant": "all inputs", "anchors": [{"file": "configlib/config.go", "symbols": ["NewConfig", "expandTilde", "expandTildes", "expandTildesRepos"]}]}
{"id": "C130", "title": "Downloads fill the cache", "statement": "Whatever the servers and the order of the goroutines: when DownloadPackages returns, every package was either in the cache before and is unchanged, or is now there completely as delivered, or was refused by the server and has no path, or has failed and is not in the result.  At all times existing files are unchanged, nothing appears outside of the cache, and at most ten downloads are going on; it goes on until it returns or a local repository lacks a file, and not for ever.", "quantifier": "all requests, servers, file systems, interleavings and points of failure", "why_tests_cant": "all executions", "anchors": [{"file": "cran/download-package.go", "symbols": ["DownloadPackages", "DownloadPackage"]}, {"file": "cmd/install.go", "symbols": ["rInstall"]}]}
{"id": "C131", "title": "The binary cache gets what R has built", "statement": "However the workers, R and the copying interleave: a place for a binary in the cache only changes when the package is copied there, and then holds just the binary that R had built.  When the copies are made, each package that was built from source and whose copy has not failed is there as a whole, is not in the temporary directory any more, and is found by the next run.  A copy that fails leaves nothing that is taken for a binary.", "quantifier": "all plans, processes of R, file systems and interleavings", "why_tests_cant": "all executions", "anchors": [{"file": "rcmd/install.go", "symbols": ["InstallThroughBinary", "InstallPackagePlan"]}]}
{"id": "C132", "title": "What R is given", "statement": "All processes of R but those of load get a new R_LIBS_USER, the library in R_LIBS_SITE when packages are built or used, the variables of the caller with the secrets hidden, and besides those only the variables configured for the very package.  Start-up files of R are left aside except when the version or the library of renv is asked for and by load, whose sessions have exactly the environment of the caller.", "quantifier": "all environments, configurations and uses of R", "why_tests_cant": "arbitrary environments of the developer", "anchors": [{"file": "rcmd/RunR.go", "symbols": ["StartR", "RunR", "RunRscriptWithArgs", "RunRBatch"]}, {"file": "rcmd/install.go", "symbols": ["Install", "InstallThroughBinary"]}, {"file": "cmd/load.go", "symbols": ["runRCmd"]}, {"file": "cmd/run.go", "symbols": ["rRun"]}, {"file": "cmd/install.go", "symbols": ["installAdditionalPackages"]}, {"file": "configlib/config.go", "symbols": ["getRenvLibrary"]}]}
{"id": "C133", "title": "R is asked for its version once", "statement": "With the same settings R is run for its version only once.", "quantifier": "all outputs of R and numbers of questions", "why_tests_cant": "depends on the R that is installed", "anchors": [{"file": "rcmd/Rsettings.go", "symbols": ["NewRSettings", "GetRVersion", "parseVersionData"]}]}
{"id": "C134", "title": "The origin of each package is told", "statement": "For each package that will be downloaded, and for no other, plan and install tell once its repository, type and version and whether the user asked for it.", "quantifier": "all databases, requests and libraries", "why_tests_cant": "all inputs", "anchors": [{"file": "cmd/plan.go", "symbols": ["logUserPackageRepos", "logDependencyRepos", "planInstall"]}]}
{"id": "C135", "title": "Suggestions for missing packages", "statement": "Suggestions for missing packages are looked for exactly when a package is missing, among the names of everything some repository offers in some form, each once, without the packages to be ignored.", "quantifier": "all databases and requests", "why_tests_cant": "all inputs", "anchors": [{"file": "cran/pkg_nexus.go", "symbols": ["GetAllPkgsByName", "GetPackageFromRepo", "pkgExistsInRepo"]}, {"file": "cmd/plan.go", "symbols": ["planInstall"]}]}
{"id": "C136", "title": "The map of downloads can be shared", "statement": "However goroutines interleave their operations on the map of downloads, no two use it at the same time when one of them writes, the results are those of the operations one after the other, all operations come to an end, and what is put under a name of its own stays there.", "quantifier": "all programs, numbers of goroutines and interleavings", "why_tests_cant": "all interleavings", "anchors": [{"file": "cran/sync.go", "symbols": ["Put", "Delete", "Get", "NewPkgMap"]}]}
{"id": "C137", "title": "The documentation of the commands", "statement": "After docgen the directory has one file for each command the user sees and nothing else, each named such that checkmat finds the entry point of the command; nothing outside of the directory changes.", "quantifier": "all trees of commands and file systems", "why_tests_cant": "all inputs", "anchors": [{"file": "internal/tools/docgen/main.go", "symbols": ["gen", "main"]}, {"file": "internal/valtools/checkmat/main.go", "symbols": ["docToEntrypoint", "checkMissingEntries"]}]}
{"id": "C138", "title": "The directory of the package cache", "statement": "NewPackageCache gives an absolute directory, which exists then, or panics if it must work; what exists is not changed.", "quantifier": "all paths and file systems", "why_tests_cant": "all inputs", "anchors": [{"file": "rcmd/cache.go", "symbols": ["NewPackageCache"]}, {"file": "cmd/install.go", "symbols": ["rInstall"]}]}
{"id": "C139", "title": "Certificates are checked", "statement": "Unless noSecure is set (flag, variable or configuration), whatever pkgr fetches from an https address, index or package, comes from servers whose certificates were checked; with noSecure the same is fetched without checks.", "quantifier": "all networks, addresses, redirections, proxies and settings", "why_tests_cant": "depends on certificates and networks", "anchors": [{"file": "cran/repodb.go", "symbols": ["FetchPackages"]}, {"file": "cran/download-package.go", "symbols": ["DownloadPackage"]}, {"file": "cmd/root.go", "symbols": ["setGlobals"]}]}
{"id": "C140", "title": "Runs without rollback", "statement": "With NoRollback a run leaves what it has installed, also when installing fails, and removes its backups; packages that were not to be replaced are as before; no package of the library is lost.", "quantifier": "all libraries, plans, installations and failures", "why_tests_cant": "failures of R in the middle of a run", "anchors": [{"file": "cmd/install.go", "symbols": ["rInstall"]}, {"file": "rollback/types.go", "symbols": ["DeleteBackupPackageFolders"]}]}
{"id": "C141", "title": "Installing again", "statement": "After a run without errors, with the same configuration and repositories, another run announces nothing to install, does not run R and leaves the library as it is.", "quantifier": "all configurations, repositories, libraries and first runs", "why_tests_cant": "any repositories and libraries", "anchors": [{"file": "cmd/install.go", "symbols": ["rInstall"]}, {"file": "rcmd/install.go", "symbols": ["InstallThroughBinary", "InstallPackagePlan"]}, {"file": "pacman/utils.go", "symbols": ["GetOutdatedPackages"]}]}
{"id": "C142", "title": "Databases in the cache", "statement": "Along any uses of the cache file of a repository, also when some are killed or cannot write, a use gets all that the indexes offered at one time, not longer ago than the maximal age.", "quantifier": "all histories of uses, contents of indexes, times and failures", "why_tests_cant": "depends on clocks, failures and histories", "anchors": [{"file": "cran/repodb.go", "symbols": ["FetchPackages", "Encode", "Decode"]}]}
{"id": "C143", "title": "Packages tell how they were installed", "statement": "At the end of a run without errors, each package that was not in the library before or was replaced says in its DESCRIPTION, once, which version of pkgr has installed it, from which repository, and whether as source or binary: binary exactly if the cache had a binary of it or the plan has one.  The same holds for tarballs.", "quantifier": "all plans, processes of R, file systems and interleavings", "why_tests_cant": "all executions", "anchors": [{"file": "rcmd/install.go", "symbols": ["InstallThroughBinary", "Install", "updateDescriptionInfo", "writeDescriptionInfo", "isInCache"]}, {"file": "cmd/install.go", "symbols": ["installAdditionalPackages"]}]}
{"id": "C144", "title": "The plan is a preview of what is installed", "statement": "pkgr plan leaves the library alone: it changes only the directories of tarballs that were not unpacked yet and the files of databases in the cache.  When install (or plan) is run after it, before those files are too old, it ends planning in the same way, with the same plan up to the order of lists and the same tarballs, whatever the repositories offer by then, and changes nothing before packages are installed.", "quantifier": "all configurations, repositories, libraries and orders of map iterations", "why_tests_cant": "pairs of runs with any change of the repositories between them", "anchors": [{"file": "cmd/plan.go", "symbols": ["plan", "planInstall"]}, {"file": "cmd/install.go", "symbols": ["rInstall"]}, {"file": "cmd/tarballOps.go", "symbols": ["unpackTarballs"]}, {"file": "cran/repodb.go", "symbols": ["FetchPackages"]}, {"file": "cran/pkg_nexus.go", "symbols": ["NewPkgDb"]}]}
{"id": "C145", "title": "Helpers for output and names do what they say", "statement": "DisplayGraph prints one line for each dependency of each package; the text of a list of repositories begins with its length and determines the list; directory names lose a slash or backslashes at their end; AllPkgDeps follows all fields; a megabyte has 1048576 bytes; the file of a database has the same path whichever function is asked.", "quantifier": "all graphs, lists, names and sizes", "why_tests_cant": "arbitrary texts", "anchors": [{"file": "gpsr/dependencies.go", "symbols": ["DisplayGraph"]}, {"file": "cmd/cleanCache.go", "symbols": ["sliceToString"]}, {"file": "rcmd/utils.go", "symbols": ["sanitizeDirName"]}, {"file": "gpsr/install.go", "symbols": ["AllPkgDeps"]}, {"file": "cran/structs.go", "symbols": ["Download.GetMegabytes"]}, {"file": "cran/repodb.go", "symbols": ["GetPackageDbFilePath", "GetRepoDbCacheFilePath"]}]}
{"id": "C146", "title": "Databases used at the same time", "statement": "However the goroutines that fetch databases interleave, in one run or in several, each gets what it would get alone, and leaves the file in the cache as it would alone.  Nobody waits for another.", "quantifier": "all interleavings of looking at, removing, reading and writing the files, byte by byte", "why_tests_cant": "all interleavings", "anchors": [{"file": "cran/pkg_nexus.go", "symbols": ["NewPkgDb"]}, {"file": "cran/repodb.go", "symbols": ["FetchPackages", "Encode", "Decode"]}]}
{"id": "C147", "title": "Several runs with one cache", "statement": "When several runs of pkgr download into the same cache at the same time, each download ends as it would alone and each file is whole when it is used.", "quantifier": "all interleavings of downloads, byte by byte, and all answers of servers", "why_tests_cant": "all interleavings", "anchors": [{"file": "cran/download-package.go", "symbols": ["DownloadPackage", "DownloadPackages"]}]}
{"id": "C148", "title": "The JSON of inspect and load says what was found", "statement": "inspect and load --json write JSON that can be read in one way only, and from which every name, dependency, path, message and number that was found can be read again; it is UTF-8.", "quantifier": "all records, reports and texts", "why_tests_cant": "arbitrary texts: quotes, control characters, characters of one to four bytes, bytes that are no characters", "anchors": [{"file": "cmd/experiment.go", "symbols": ["prettyPrint"]}, {"file": "cmd/utils.go", "symbols": ["JsonMarshal"]}, {"file": "cmd/inspect.go", "symbols": ["printDeps", "printInstalledFromPackages"]}, {"file": "cmd/load.go", "symbols": ["printJsonLoadReport", "getRSessionMetadata"]}, {"file": "pacman/utils.go", "symbols": ["GetPackagesByInstalledFrom"]}]}
{"id": "C149", "title": "Several runs with one cache of binaries", "statement": "When several runs of pkgr build packages with the same cache at the same time, each installs what it would install alone, and each binary in the cache is one that R has built, as a whole.", "quantifier": "all interleavings of looking, building and copying, byte by byte, and all binaries", "why_tests_cant": "all interleavings", "anchors": [{"file": "rcmd/install.go", "symbols": ["isInCache", "InstallThroughBinary", "InstallPackagePlan"]}]}
{"id": "C150", "title": "Each record of the log can be read back", "statement": "Each record in the log file is one line of JSON, from which its level, message, time and fields can be read again, also when several runs write to the file.", "quantifier": "all records and texts, all orders in which processes open the file and write to it", "why_tests_cant": "arbitrary texts, several processes", "anchors": [{"file": "logger/logger.go", "symbols": ["NewLogrusFileHook", "Fire", "SetLogJson", "AddLogFile"]}]}
{"id": "C151", "title": "Secrets are not in the log", "statement": "What is logged when R is started does not depend on the values of tokens and keys in the environment.", "quantifier": "all environments and settings, all ways to start R", "why_tests_cant": "environments that differ in secrets only", "anchors": [{"file": "rcmd/configure.go", "symbols": ["configureEnv", "censoredEnvVars"]}, {"file": "rcmd/install.go", "symbols": ["Install"]}, {"file": "rcmd/RunR.go", "symbols": ["StartR", "RunRscriptWithArgs", "RunRBatch"]}]}
{"id": "C152", "title": "Several runs with one library", "statement": "Runs of pkgr install that use one library at the same time do not disturb each other: each leaves its packages as it would alone, a run with errors leaves what was there, and when all end without errors each package is one that a run has installed.", "quantifier": "all numbers of runs, all interleavings of their changes, all libraries", "why_tests_cant": "interleaved runs with failures", "anchors": [{"file": "cmd/install.go", "symbols": ["rInstall"]}, {"file": "rollback/operations.go", "symbols": ["RollbackPackageEnvironment", "DeleteBackupPackageFolders", "rollbackChangedPackages", "createUpdateBackupFolders", "tagOldInstallation"]}]}
{"id": "C153", "title": "The tests read the origins that pkgr tells", "statement": "The helpers of the end-to-end tests read from the output of pkgr exactly the messages about the origins of packages, and the text that is compared with golden files does not depend on the order of the messages.", "quantifier": "all outputs that have such messages among other records, all orders, all readers of JSON", "why_tests_cant": "records in arbitrary order, arbitrary texts", "anchors": [{"file": "testhelper/e2e_tests.go", "symbols": ["CollectPkgRepoSetLogs", "ComparePkgRepoSetMsg", "ToString", "ToStringWithType", "Contains", "ContainsWithType", "CollectGenericLogs", "FilterByPackageTag", "Collect"]}, {"file": "cmd/plan.go", "symbols": ["logUserPackageRepos", "logDependencyRepos"]}]}
{"id": "C154", "title": "Customizations of packages as they are written", "statement": "Each package gets exactly the settings that the configuration file has for it under Customizations: a package without settings is planned as usual, keys count whatever their case, a list and a map mean the same, and the settings of several entries add up.", "quantifier": "all values of Customizations.Packages, all global settings, all repositories", "why_tests_cant": "lists of maps, maps, empty values, keys in other cases, packages in several entries", "anchors": [{"file": "configlib/config.go", "symbols": ["NewConfig", "IsCustomizationSet", "SetPlanCustomizations", "setCfgCustomizations", "setViperCustomizations"]}]}
{"id": "C155", "title": "Tarballs unpacked by several runs into one cache", "statement": "Runs of pkgr that share a cache and unpack tarballs at the same time do not disturb each other: each directory that a run goes on to install from has exactly the files of its tarball, and nothing else in the file system changes.", "quantifier": "all sets of tarballs, all archives including broken ones, all orders of the steps of all runs", "why_tests_cant": "different tarballs, the same tarball twice, directories that are there already", "anchors": [{"file": "cmd/tarballOps.go", "symbols": ["unpackTarballs", "untar"]}, {"file": "internal/archive/extract.go", "symbols": ["Extract", "extractFile"]}]}
{"id": "C156", "title": "add --install is add and then install", "statement": "pkgr add --install has the same result as pkgr add followed by pkgr install: the installation is started with the same configuration, in the same directory and with the same files, although the process reads the configuration a second time over what it has read before.", "quantifier": "all configuration files, all working directories, all readers of YAML, all packages to add", "why_tests_cant": "files with and without --config, libraries of renv, null items in lists, lists and maps that were read before", "anchors": [{"file": "cmd/add.go", "symbols": ["rAdd"]}, {"file": "cmd/root.go", "symbols": ["initConfig"]}, {"file": "configlib/config.go", "symbols": ["NewConfig", "loadConfigFromPath", "expandTilde", "expandTildes", "expandTildesRepos"]}, {"file": "configlib/add_package.go", "symbols": ["AddPackages"]}]}
{"id": "C157", "title": "The lists of the packages of a plan keep their packages", "statement": "GetAllPackages appends to the packages that the plan starts with, so the lists that different calls return may lie in the same memory. A list that was returned still contains exactly the packages of the plan after any number of further calls, the packages that the plan starts with stay as they are, and no other memory is written.", "quantifier": "all plans, all capacities of arrays, all orders of iteration, any number of calls and of other allocations", "why_tests_cant": "arrays with and without room, calls that iterate in different orders, plans changed between two calls", "anchors": [{"file": "gpsr/dependencies.go", "symbols": ["GetAllPackages", "GetNumPackagesToInstall"]}, {"file": "cmd/plan.go", "symbols": ["planInstall"]}, {"file": "rollback/types.go", "symbols": ["CreateRollbackPlan"]}]}
{"id": "C158", "title": "The command line is understood as it is meant", "statement": "A command line runs the command that its first words name, with the flags and the words that are given, wherever the flags stand and however they are written; flags and values that do not exist are refused; --help shows the help of the command and nothing else happens.", "quantifier": "all lists of arguments, all commands of pkgr and all their flags", "why_tests_cant": "flags in front of and behind the command, with an equals sign, alone and with the next argument, letters, two dashes, misspelled words and flags", "anchors": [{"file": "cmd/root.go", "symbols": ["Execute", "rootInit", "init"]}, {"file": "cmd/add.go", "symbols": ["init"]}, {"file": "cmd/clean.go", "symbols": ["init", "clean"]}, {"file": "cmd/cleanCache.go", "symbols": ["init"]}, {"file": "cmd/cleanPkgdb.go", "symbols": ["init"]}, {"file": "cmd/inspect.go", "symbols": ["init"]}, {"file": "cmd/load.go", "symbols": ["init"]}, {"file": "cmd/plan.go", "symbols": ["init"]}, {"file": "cmd/run.go", "symbols": ["init"]}]}
{"id": "C159", "title": "The flags of the command line govern the installation", "statement": "A command line for install with --no-update leaves installed packages alone, with --strict creates no library, with --no-rollback=false restores the library when the run fails, with --no-rollback keeps what R installed, and with --threads runs at most that many installations at once, whatever the file and the environment say.", "quantifier": "all command lines for install, all environments, files, libraries, plans, worlds and executions", "why_tests_cant": "a file that contradicts the line, values behind a switch, hidden flags", "anchors": [{"file": "cmd/root.go", "symbols": ["Execute", "rootInit", "initConfig"]}, {"file": "cmd/install.go", "symbols": ["rInstall"]}, {"file": "cmd/utils.go", "symbols": ["getWorkerCount"]}]}
{"id": "C160", "title": "The copy that a test works on is the original", "statement": "CopyDir ends, gives the destination everything that the source has, changes nothing else and leaves the source as it was; if there is room for the copy there is no error.", "quantifier": "all file systems, sources and destinations", "why_tests_cant": "nested directories, files in the place of the copy, a destination inside of the source", "anchors": [{"file": "testhelper/fileio.go", "symbols": ["CopyDir"]}]}
{"id": "C161", "title": "The tools read their arguments as their usage says", "statement": "checkmat, fmttests, filecov and docgen work only when they are called with the arguments of their usage; flags in front of the words are read with one dash or two, unknown flags and unreadable values are refused with status 2, --help shows the usage; filecov writes the percentages of all files under the names without the module, or nothing.", "quantifier": "all lists of arguments, all files", "why_tests_cant": "flags with and without values, behind words, two dashes, wrong numbers of words, missing files", "anchors": [{"file": "internal/valtools/checkmat/main.go", "symbols": ["main", "readEntries", "usage"]}, {"file": "internal/valtools/fmttests/main.go", "symbols": ["main", "usage"]}, {"file": "internal/valtools/filecov/main.go", "symbols": ["main", "run", "write", "usage"]}, {"file": "internal/tools/docgen/main.go", "symbols": ["main"]}]}
{"id": "C162", "title": "The line of pkgr load decides what is loaded, where, and what is written", "statement": "For pkgr load: the packages of the configuration are loaded, with --all those of the plan and the tarballs; the report is written with --json and not without it; R runs in the directory of the file given with --config, and in that of the caller without it; the last message says whether all packages could be loaded; the program ends.  pkgr plan writes the dependencies with --show-deps and not without it.", "quantifier": "all command lines, configuration files, plans, answers of R and interleavings", "why_tests_cant": "flags are looked up in the file as well", "anchors": [{"file": "cmd/load.go", "symbols": ["load"]}, {"file": "cmd/plan.go", "symbols": ["plan"]}, {"file": "cmd/root.go", "symbols": ["initConfig"]}]}
{"id": "C163", "title": "The lines of pkgr add, remove and clean decide which files change", "statement": "pkgr add and pkgr remove change the configuration file that the line names, by the packages of the line, and no other file.  pkgr clean changes nothing without --all, and with it sources, binaries and databases are gone.  pkgr clean cache removes what the flags --repos, --src-only and --binaries-only ask for and nothing else; pkgr clean pkgdbs removes the databases of the repositories asked for.", "quantifier": "all command lines, file systems and configurations", "why_tests_cant": "from the arguments to the files", "anchors": [{"file": "cmd/add.go", "symbols": ["rAdd"]}, {"file": "cmd/remove.go", "symbols": ["rRemove"]}, {"file": "cmd/clean.go", "symbols": ["clean"]}, {"file": "cmd/cleanCache.go", "symbols": ["cleanCacheFolders"]}, {"file": "cmd/cleanPkgdb.go", "symbols": ["cleanPackageDatabases"]}]}
{"id": "C164", "title": "The lines of pkgr inspect and run decide what is shown and what R is given", "statement": "pkgr inspect --deps writes JSON that says, for the packages of the line or for all planned packages that need something, all dependencies; with --reverse the packages that depend on them, with --tree the same as a tree; without --deps nothing; with --installed-from the packages of the library by installer.  pkgr run starts R without start-up files in the directory of the configuration file with the library of the line, and with the variables of the package given with --pkg and of no other.", "quantifier": "all command lines, package databases, plans, libraries, environments and iteration orders", "why_tests_cant": "from the arguments to the text and to the process", "anchors": [{"file": "cmd/inspect.go", "symbols": ["inspect", "printDeps", "printInstalledFromPackages"]}, {"file": "cmd/run.go", "symbols": ["rRun"]}]}
{"id": "C165", "title": "The helpers of the tests notice failures", "statement": "RunTest succeeds exactly if it is called in integration_tests for a known target, make resets the test, and go test succeeds there; every target has its own directory and rule.  Preparing a test runs pkgr install with the configuration file and stops unless the library was deleted and pkgr ended as expected.  Files are deleted, or the test fails.  Different tests have different names.", "quantifier": "all working directories, targets, outcomes of make, go and pkgr, and file systems", "why_tests_cant": "the tests do not test their helpers", "anchors": [{"file": "integration_tests/integration_helper/runt.go", "symbols": ["RunTest"]}, {"file": "integration_tests/integration_helper/make.go", "symbols": ["Reset", "isIntegrationTestDir"]}, {"file": "testhelper/e2e_tests.go", "symbols": ["SetupEndToEndWithInstallFull", "DeleteTestFolder", "DeleteTestFile", "MakeTestName", "MakeSubtestName"]}]}
{"id": "C166", "title": "pkgr install, from its arguments to the library", "statement": "When pkgr install gets to its end without errors, every package that the configuration file asks for and everything that these packages need, and every tarball, is in the library that the line, PKGR_LIBRARY or the file names, seen from the directory of the configuration file, and nothing else changes there.  If something cannot be installed and --no-rollback=false is given, the library is as before.  A package that is not to be had changes nothing and gives status 1; with --strict nothing is changed if there is no library; --threads is the number of workers.", "quantifier": "all command lines, configurations, databases, libraries, servers, interleavings of downloads and installations, and iteration orders", "why_tests_cant": "from the arguments to the file system, with planning, downloading, installing and rollback in between", "anchors": [{"file": "cmd/install.go", "symbols": ["rInstall"]}, {"file": "cmd/plan.go", "symbols": ["planInstall"]}, {"file": "cmd/root.go", "symbols": ["initConfig"]}, {"file": "configlib/config.go", "symbols": ["NewConfig"]}]}
{"id": "C167", "title": "pkgr plan tells what pkgr install does with the same flags", "statement": "pkgr plan and pkgr install with the same flags, for the same files: if plan ends with an error, install ends in the same way and changes nothing; if plan shows a plan, install does not report missing packages, runs as many installations at once as plan says, and requires as many packages, with the dependencies shown by --show-deps.  Without an error, the packages listed as to be installed are in the library afterwards, fetched in the version and from the repository that plan says; the packages announced as to be updated are fetched in a newer version; the others in the library stay as they are.  The numbers of updates, of packages in the library, of packages from each repository and of packages to install are right, and the library is shown as it is written.  Install carries out every plan that is shown.", "quantifier": "all command lines, configurations, databases, libraries, orders of map iterations and executions", "why_tests_cant": "two runs of the program with different orders of map iterations", "anchors": [{"file": "cmd/plan.go", "symbols": ["plan", "planInstall"]}, {"file": "cmd/install.go", "symbols": ["rInstall"]}, {"file": "cmd/root.go", "symbols": ["initConfig"]}, {"file": "gpsr/dependencies.go", "symbols": ["ResolveInstallationReqs"]}]}
