{
 "claims": [
  {
   "property": "C01",
   "status": "proved",
   "theorems": [
    "C01_compare_total_order"
   ],
   "note": ""
  },
  {
   "property": "C02",
   "status": "proved",
   "theorems": [
    "C02_compare_strings_numeric"
   ],
   "note": ""
  },
  {
   "property": "C03",
   "status": "partial",
   "theorems": [
    "C03_exact",
    "C03_five_components_refuted",
    "C03_five_components_partial"
   ],
   "note": "Refuted: ParseVersion splits into at most four parts, so the fourth and fifth components of a five-component version are both lost. Proved: differences in the first three components are decided correctly for any number of components. C03_exact says which components are compared in all cases."
  },
  {
   "property": "C04",
   "status": "proved",
   "theorems": [
    "C04_dep_round_trip"
   ],
   "note": ""
  },
  {
   "property": "C05",
   "status": "proved",
   "theorems": [
    "C05_parse_dep_entry",
    "C05_parse_dep_bare"
   ],
   "note": ""
  },
  {
   "property": "C06",
   "status": "partial",
   "theorems": [
    "C06_exact",
    "C06_parse_total_refuted",
    "C06_parse_total_partial"
   ],
   "note": "Refuted: a version without '.' or '-' panics (index out of range). The partial theorem gives the exact set of panicking inputs. C06_exact says what is read from any other text."
  },
  {
   "property": "C07",
   "status": "partial",
   "theorems": [
    "C07_exact",
    "C07_sort_order_refuted",
    "C07_sort_order_partial"
   ],
   "note": "Refuted: isLowerVersion is not asymmetric and ignores Patch. Partial: with equal patches it misses no difference, and agrees when no component goes the other way. C07_exact says when the program takes a version to be lower."
  },
  {
   "property": "C08",
   "status": "proved",
   "theorems": [
    "C08_r_filter"
   ],
   "note": ""
  },
  {
   "property": "C09",
   "status": "proved",
   "theorems": [
    "C09_index_entries",
    "C09_index_records"
   ],
   "note": ""
  },
  {
   "property": "C10",
   "status": "partial",
   "theorems": [
    "C10_exact",
    "C10_newest_offered_refuted",
    "C10_newest_offered_partial"
   ],
   "note": "Refuted: the last listed usable version wins. Partial: exact when versions are listed in ascending order. Which record is offered, for every index: C10_exact."
  },
  {
   "property": "C11",
   "status": "partial",
   "theorems": [
    "C11_exact",
    "C11_unreadable_reported_refuted",
    "C11_unreadable_reported_partial"
   ],
   "note": "Refuted: for a source-only repository a failed fetch gives an empty, cached index and no error. Partial: exact for repositories with both kinds of index. Exactly when an error is reported, and the indexes otherwise: C11_exact."
  },
  {
   "property": "C12",
   "status": "proved",
   "theorems": [
    "C12_first_offering_repo"
   ],
   "note": ""
  },
  {
   "property": "C13",
   "status": "proved",
   "theorems": [
    "C13_customizations_local",
    "C13_settings_kept"
   ],
   "note": ""
  },
  {
   "property": "C14",
   "status": "partial",
   "theorems": [
    "C14_exact",
    "C14_pin_keeps_type_refuted",
    "C14_pin_keeps_type_partial"
   ],
   "note": "Refuted: pinning resets the source type from the repository's default. Partial: holds when the package was customized before or the repository has no default of its own. What a pinned package is in all cases: C14_exact."
  },
  {
   "property": "C15",
   "status": "proved",
   "theorems": [
    "C15_repo_order",
    "C15_no_repositories"
   ],
   "note": ""
  },
  {
   "property": "C16",
   "status": "proved",
   "theorems": [
    "C16_ignored"
   ],
   "note": ""
  },
  {
   "property": "C17",
   "status": "proved",
   "theorems": [
    "C17_missing_exact"
   ],
   "note": ""
  },
  {
   "property": "C18",
   "status": "partial",
   "theorems": [
    "C18_exact",
    "C18_cache_keys_distinct_refuted",
    "C18_cache_keys_distinct_partial"
   ],
   "note": "Refuted: kinds of index and suffix are not part of the key, and name and URL are concatenated. Partial: URL and R version are told apart under the same name. MD5 is treated as injective (text before hashing). Exactly when two index files have the same name: C18_exact (a repository a at bc and one named ab at c share theirs)."
  },
  {
   "property": "C19",
   "status": "partial",
   "theorems": [
    "C19_cache_freshness",
    "C19_limit",
    "C19_limit_refuted"
   ],
   "note": "The limit is as set up to 292 years (C19_limit); a larger one overflows and a young index is fetched again (C19_limit_refuted)."
  },
  {
   "property": "C20",
   "status": "proved",
   "theorems": [
    "C20_plan_is_closure",
    "C20_databases_ok"
   ],
   "note": ""
  },
  {
   "property": "C21",
   "status": "proved",
   "theorems": [
    "C21_layers"
   ],
   "note": ""
  },
  {
   "property": "C22",
   "status": "proved",
   "theorems": [
    "C22_cycles",
    "C22_plan_cycles"
   ],
   "note": ""
  },
  {
   "property": "C23",
   "status": "proved",
   "theorems": [
    "C23_deterministic",
    "C23_layers_deterministic"
   ],
   "note": ""
  },
  {
   "property": "C24",
   "status": "proved",
   "theorems": [
    "C24_recorded_deps"
   ],
   "note": ""
  },
  {
   "property": "C25",
   "status": "proved",
   "theorems": [
    "C25_inversion"
   ],
   "note": ""
  },
  {
   "property": "C26",
   "status": "proved",
   "theorems": [
    "C26_downloads"
   ],
   "note": ""
  },
  {
   "property": "C27",
   "status": "partial",
   "theorems": [
    "C27_exact",
    "C27_base_packages_refuted",
    "C27_base_packages_partial"
   ],
   "note": "Refuted: a suggested base or recommended package is planned. Partial: only requested or suggested packages can be base or recommended ones. Exactly which of these packages are planned: C27_exact."
  },
  {
   "property": "C28",
   "status": "partial",
   "theorems": [
    "C28_exact",
    "C28_count_refuted",
    "C28_count_partial"
   ],
   "note": "Refuted: an outdated installed package outside the plan is counted. Partial: the count is exact when every outdated package is required and no tarball is also planned. The cases left out are described by the theorems ending in _exact."
  },
  {
   "property": "C29",
   "status": "partial",
   "theorems": [
    "C29_exact",
    "C29_total_refuted",
    "C29_total_partial"
   ],
   "note": "Refuted: the empty request and a one-component installed version panic. Partial: everywhere else planning succeeds. Exactly when planning succeeds, reports a cycle and crashes: C29_exact."
  },
  {
   "property": "C30",
   "status": "partial",
   "theorems": [
    "C30_exact",
    "C30_suggests_refuted",
    "C30_suggests_partial",
    "C30_standard_config"
   ],
   "note": "Refuted for duplicate customization entries: the later entry resets the setting to its zero value. Partial: exact when every package is customized at most once. The cases left out are described by the theorems ending in _exact."
  },
  {
   "property": "C31",
   "status": "proved",
   "theorems": [
    "C31_outdated",
    "C31_outdated_numeric"
   ],
   "note": ""
  },
  {
   "property": "C32",
   "status": "proved",
   "theorems": [
    "C32_scan",
    "C32_installers"
   ],
   "note": ""
  },
  {
   "property": "C33",
   "status": "partial",
   "theorems": [
    "C33_exact",
    "C33_collateral_refuted",
    "C33_planned_runs",
    "C33_rolled_back_partial",
    "C33_double_listing_refuted",
    "C33_stale_backup_refuted",
    "C33_unreadable_dir_refuted",
    "C33_download_refuted",
    "C33_empty_name_refuted"
   ],
   "note": "Partial: exact restoration when no left-over backup is in the way, planned packages that are not installed have no directory, no package is both outdated and given as a tarball, and the failure is not a download failure. Each of these hypotheses is shown to be needed by a refutation. C33_exact says for every package what is left of it after a failed run in all cases: left-over backups, packages listed twice, directories in the way. C33_collateral_refuted: a package that follows one listed twice is lost with it."
  },
  {
   "property": "C34",
   "status": "partial",
   "theorems": [
    "C34_exact",
    "C34_created_library_removed_partial",
    "C34_parents_refuted"
   ],
   "note": "Partial: the library is gone and nothing else changed when its parent existed. Refuted otherwise: ancestors made by MkdirAll stay. What is left of the library and of its parents: C34_exact."
  },
  {
   "property": "C35",
   "status": "proved",
   "theorems": [
    "C35_frame",
    "C35_frame_new_library",
    "C35_end"
   ],
   "note": "Holds at every moment of a run. A run that creates the library can in addition only create the library's missing ancestors."
  },
  {
   "property": "C36",
   "status": "partial",
   "theorems": [
    "C36_exact",
    "C36_success_partial",
    "C36_others_kept",
    "C36_stale_backup_refuted"
   ],
   "note": "Partial: needs that no left-over backup is in the way. Refuted otherwise: the update is silently skipped. With a left-over backup the package is not replaced: C36_exact."
  },
  {
   "property": "C37",
   "status": "partial",
   "theorems": [
    "C37_exact",
    "C37_interrupted_partial",
    "C37_rollback_partial",
    "C37_stale_backup_refuted"
   ],
   "note": "Partial: needs that no left-over backup is in the way; also shown while rolling back. Refuted otherwise. With a left-over backup: C37_exact."
  },
  {
   "property": "C38",
   "status": "proved",
   "theorems": [
    "C38_no_update"
   ],
   "note": ""
  },
  {
   "property": "C39",
   "status": "proved",
   "theorems": [
    "C39_strict"
   ],
   "note": ""
  },
  {
   "property": "C40",
   "status": "partial",
   "theorems": [
    "C40_exact",
    "C40_exit_status_refuted",
    "C40_fatal_partial"
   ],
   "note": "Refuted: rInstall returns nil after failed installations, so the status is 0. Only download failures and a library that cannot be made are visible. Exactly when the status is 0: C40_exact."
  },
  {
   "property": "C41",
   "status": "proved",
   "theorems": [
    "C41_planned_jobs",
    "C41_dependencies_first"
   ],
   "note": ""
  },
  {
   "property": "C42",
   "status": "proved",
   "theorems": [
    "C42_at_most_once"
   ],
   "note": ""
  },
  {
   "property": "C43",
   "status": "partial",
   "theorems": [
    "C43_exact",
    "C43_missing_file_refuted",
    "C43_success_means_all_partial"
   ],
   "note": "Partial: a nil error from each installation means the update worker saw success for every package; at the level of the installation routine a missing file gives exit code 1 with a nil error. Exactly when nothing is installed without an error: C43_exact."
  },
  {
   "property": "C44",
   "status": "proved",
   "theorems": [
    "C44_errors_exact"
   ],
   "note": ""
  },
  {
   "property": "C45",
   "status": "proved",
   "theorems": [
    "C45_no_dependents"
   ],
   "note": ""
  },
  {
   "property": "C46",
   "status": "partial",
   "theorems": [
    "C46_exact",
    "C46_large_refuted",
    "C46_terminates_partial",
    "C46_copy_error_refuted"
   ],
   "note": "Partial: holds when every copy of a built binary into the cache succeeds. Refuted otherwise: a copy error skips wg.Done and the function hangs. Exactly when a run without failures returns: C46_exact. Proved for plans of at most 2502 packages plus the number of workers; for every larger size there is a plan with which the program hangs (C46_large_refuted): the queues of requests and updates wait for each other."
  },
  {
   "property": "C47",
   "status": "partial",
   "theorems": [
    "C47_size_exact",
    "C47_terminates_partial",
    "C47_lost_request_refuted"
   ],
   "note": "Partial: the function returns exactly when no queued request was dropped and every copy succeeded. Refuted otherwise: a request dropped after a failure loses its wg.Done. The bound on the size of the plan (2502 packages plus the number of workers) cannot be raised: C47_size_exact."
  },
  {
   "property": "C48",
   "status": "proved",
   "theorems": [
    "C48_worker_limit"
   ],
   "note": ""
  },
  {
   "property": "C49",
   "status": "partial",
   "theorems": [
    "C49_present_skipped_partial",
    "C49_only_the_package_partial",
    "C49_library_last_partial",
    "C49_build_failure_partial",
    "C49_success_partial"
   ],
   "note": "Partial only because a missing package file is not reported as an error (C43_missing_file_refuted). R is any program that changes nothing but the package, its lock and, when building, its working directory."
  },
  {
   "property": "C50",
   "status": "partial",
   "theorems": [
    "C50_exact",
    "C50_stored_is_found_partial",
    "C50_downloaded_is_found_partial",
    "C50_tar_gz_refuted",
    "C50_platform_refuted"
   ],
   "note": "Proved for names without tar.gz and the Linux platforms known to the program; refuted for a package called tar.gz on macOS and for binaries downloaded on other Linux platforms. On Linux, exactly when a downloaded binary is found: C50_exact."
  },
  {
   "property": "C51",
   "status": "proved",
   "theorems": [
    "C51_results",
    "C51_at_most_ten",
    "C51_terminates"
   ],
   "note": "All lists of distinct packages, all outcomes, all interleavings."
  },
  {
   "property": "C52",
   "status": "partial",
   "theorems": [
    "C52_complete_partial",
    "C52_interrupted_refuted",
    "C52_exact",
    "C52_first"
   ],
   "note": "Refuted: a partly downloaded file is reused. Proved when no download was interrupted. In all cases: C52_exact; the cached file is the first body that arrived, whole or not (C52_first)."
  },
  {
   "property": "C53",
   "status": "partial",
   "theorems": [
    "C53_errors_partial",
    "C53_bad_status_refuted",
    "C53_exact"
   ],
   "note": "Refuted: every status other than 200 is returned without an error. Proved for all other failures. What becomes of a request in all cases: C53_exact."
  },
  {
   "property": "C54",
   "status": "partial",
   "theorems": [
    "C54_library_paths_partial",
    "C54_not_inherited",
    "C54_equals_sign_refuted",
    "C54_exact"
   ],
   "note": "Partial: exact for unpadded paths without an equals sign. Refuted otherwise: R_LIBS_SITE is silently not set. The cases left out are described by the theorems ending in _exact."
  },
  {
   "property": "C55",
   "status": "partial",
   "theorems": [
    "C55_package_wins_partial",
    "C55_padded_name_refuted",
    "C55_exact"
   ],
   "note": "Partial: needs callers without blank-padded variable names. Refuted otherwise: the trimmed name overrides the customization. With padded names in the caller's environment: C55_exact."
  },
  {
   "property": "C56",
   "status": "partial",
   "theorems": [
    "C56_secrets_partial",
    "C56_padded_name_refuted",
    "C56_exact"
   ],
   "note": "Partial: needs callers without blank-padded variable names. Refuted otherwise. Also shown: AWS_SECRET_ACCESS_KEY is not in the list. Exactly which secrets are passed on: C56_exact."
  },
  {
   "property": "C57",
   "status": "partial",
   "theorems": [
    "C57_append_partial",
    "C57_update_partial",
    "C57_remove_partial",
    "C57_repeated_names_refuted",
    "C57_append_exact",
    "C57_update_exact",
    "C57_remove_exact",
    "C57_pair"
   ],
   "note": "Partial: exact for lists without repeated names. Refuted otherwise: Update changes the last, Get reads the first and Remove removes the first entry. The cases left out are described by the theorems ending in _exact."
  },
  {
   "property": "C58",
   "status": "partial",
   "theorems": [
    "C58_exact",
    "C58_fields_partial",
    "C58_mentioned_field_refuted"
   ],
   "note": "Partial: exact when only the pkgr fields themselves mention their names. Refuted otherwise: any line mentioning PkgrVersion:, PkgrInstallType: or PkgrRepositoryURL is dropped. The cases left out are described by the theorems ending in _exact."
  },
  {
   "property": "C59",
   "status": "partial",
   "theorems": [
    "C59_exact",
    "C59_twice_partial",
    "C59_name_refuted"
   ],
   "note": "Partial: needs a repository name that does not mention the pkgr fields. Refuted otherwise: the Repository line is dropped by the second stamping. With any repository name: C59_exact; the third stamping changes nothing."
  },
  {
   "property": "C60",
   "status": "partial",
   "theorems": [
    "C60_exact",
    "C60_original_partial",
    "C60_url_refuted"
   ],
   "note": "Partial: values without a colon. Refuted for URLs, which are cut at the first colon. The cases left out are described by the theorems ending in _exact."
  },
  {
   "property": "C61",
   "status": "partial",
   "theorems": [
    "C61_panics_exact",
    "C61_insert_partial",
    "C61_new_section",
    "C61_empty_section_refuted",
    "C61_repeated_argument_refuted",
    "C61_long_line_refuted"
   ],
   "note": "Partial: exact for Unix text files whose Packages key is followed by some list item, and for files without the key. Refuted otherwise: a key without items makes the program panic, repeated arguments are inserted repeatedly, and a line of 64 KiB or more truncates the file. What the YAML library reads as the listed packages is a parameter. C61_panics_exact says exactly when it panics."
  },
  {
   "property": "C62",
   "status": "partial",
   "theorems": [
    "C62_exact",
    "C62_remove_partial",
    "C62_prefix_refuted",
    "C62_section_refuted",
    "C62_two_blanks_refuted"
   ],
   "note": "Partial: exact when the text after dash and blank starts with the name only in items of the Packages section naming the package. Refuted otherwise: longer names and other sections are hit, and an item with two blanks is missed. C62_exact says which lines are removed from any file."
  },
  {
   "property": "C63",
   "status": "partial",
   "theorems": [
    "C63_exact",
    "C63_round_trip_partial",
    "C63_new_section_refuted",
    "C63_prefix_refuted"
   ],
   "note": "Partial: exact when a Packages section with an item exists and no other item starts with the name. Refuted otherwise. Exactly when the file is restored: C63_exact."
  },
  {
   "property": "C64",
   "status": "proved",
   "theorems": [
    "C64_confined",
    "C64_confined_at_any_time",
    "C64_only_files_and_directories"
   ],
   "note": "Every entry list, every outcome. Symbolic links already on disk below the directory are not modelled (the directory is emptied first and links in the archive are refused)."
  },
  {
   "property": "C65",
   "status": "partial",
   "theorems": [
    "C65_exact",
    "C65_complete_partial",
    "C65_partial_tree_reused_refuted",
    "C65_interrupted_refuted"
   ],
   "note": "Complete when the directory was not there before; refuted for a directory left behind by a failed or interrupted run, which is reused. Exactly when the tree is complete: C65_exact."
  },
  {
   "property": "C66",
   "status": "partial",
   "theorems": [
    "C66_chosen_partial",
    "C66_no_tarballs",
    "C66_both_flags",
    "C66_tarballs_refuted",
    "C66_missing_cache_refuted",
    "C66_exact"
   ],
   "note": "What the flags choose is removed and (besides emptied repository folders) nothing else, except that the unpacked tarballs are always removed (refuted: C66_tarballs_refuted) and that a missing cache directory panics (C66_missing_cache_refuted). Without configured tarballs the frame is exact (C66_no_tarballs). Exactly what is removed, and when cleaning crashes: C66_exact."
  },
  {
   "property": "C67",
   "status": "partial",
   "theorems": [
    "C67_tarballs_partial",
    "C67_default_cache_refuted",
    "C67_exact"
   ],
   "note": "Proved when a cache directory is configured; with the default cache the unpacked tarballs stay and <hash> is removed from the working directory instead (C67_default_cache_refuted). Without a configured cache: C67_exact."
  },
  {
   "property": "C68",
   "status": "partial",
   "theorems": [
    "C68_exact",
    "C68_terminates_partial",
    "C68_report_partial",
    "C68_zero_threads_refuted",
    "C68_negative_threads_refuted",
    "C68_duplicates_refuted"
   ],
   "note": "Termination, absence of deadlock and the session limit for positive thread settings and all interleavings; the report is complete, the failures are the failed attempts. Refuted: zero threads hang, negative threads panic, duplicates are counted twice. Exactly when loading hangs or panics: C68_exact."
  },
  {
   "property": "C69",
   "status": "partial",
   "theorems": [
    "C69_description_deps_refuted",
    "C69_description_deps_partial"
   ],
   "note": "Refuted: Depends of a DESCRIPTION or tarball is left out of the request. Partial: the request is exactly Imports, LinkingTo (and Suggests for descriptions) plus the listed packages, minus base packages."
  },
  {
   "property": "C70",
   "status": "proved",
   "theorems": [
    "C70_configured",
    "C70_lockfile"
   ],
   "note": "Precedence of --library, PKGR_LIBRARY and Library, the packrat path, reading the library from renv's output among other lines, and the fatal cases."
  },
  {
   "property": "C71",
   "status": "partial",
   "theorems": [
    "C71_workers_partial",
    "C71_default_refuted",
    "C71_exact"
   ],
   "note": "Proved for getWorkerCount and when Threads is set; when Threads is not set the limit of eight is not applied, because the default of the setting is the number of CPUs (C71_default_refuted). All cases: C71_exact."
  },
  {
   "property": "C72",
   "status": "partial",
   "theorems": [
    "C72_index_refuted",
    "C72_exact",
    "C72_bare_r_refuted"
   ],
   "note": "Refuted: every package with a bare R dependency is left out, for every R version; also shown from the text of an index. Exactly which records are kept: C72_exact."
  },
  {
   "property": "C73",
   "status": "proved",
   "theorems": [
    "C73_plan_install",
    "C73_pins",
    "C73_missing"
   ],
   "note": ""
  },
  {
   "property": "C74",
   "status": "proved",
   "theorems": [
    "C74_wait_group_nonnegative",
    "C74_nothing_after_return"
   ],
   "note": ""
  },
  {
   "property": "C75",
   "status": "partial",
   "theorems": [
    "C75_caller_r_libs_refuted",
    "C75_r_libs_partial",
    "C75_exact"
   ],
   "note": "Refuted: R_LIBS is passed on like any other variable. Partial: it only comes from the caller or the settings. Exactly when R_LIBS is passed on: C75_exact."
  },
  {
   "property": "C76",
   "status": "partial",
   "theorems": [
    "C76_passed_on_partial",
    "C76_empty_value_refuted",
    "C76_exact"
   ],
   "note": "Partial: values that are not empty and not padded with blanks. Refuted for empty values, which are dropped. The cases left out are described by the theorems ending in _exact."
  },
  {
   "property": "C77",
   "status": "partial",
   "theorems": [
    "C77_directories_partial",
    "C77_same_name_refuted",
    "C77_exact"
   ],
   "note": "Proved when repositories with equal names are equal; refuted for two repositories with the same name. Which directories are made, in all cases: C77_exact."
  },
  {
   "property": "C78",
   "status": "partial",
   "theorems": [
    "C78_exact",
    "C78_sources_partial",
    "C78_failed_download",
    "C78_working_directory_refuted"
   ],
   "note": "Proved for downloads that have a path; refuted after a failed download: R is told to install the working directory. For every path: C78_exact."
  },
  {
   "property": "C79",
   "status": "proved",
   "theorems": [
    "C79_databases"
   ],
   "note": "For all file systems; the key of a database is the text before the hash, the hash an arbitrary function."
  },
  {
   "property": "C80",
   "status": "partial",
   "theorems": [
    "C80_version_partial",
    "C80_devel_refuted",
    "C80_exact"
   ],
   "note": "Proved for released versions; a development version of R is read as 0.0.0 (C80_devel_refuted). For every output: C80_exact."
  },
  {
   "property": "C81",
   "status": "partial",
   "theorems": [
    "C81_exact",
    "C81_beside_index_partial",
    "C81_macos_refuted",
    "C81_two_entries_refuted"
   ],
   "note": "Proved on Linux, without a repository suffix and for source packages, for repositories customized at most once. Refuted on macOS and Windows with a suffix, and for two entries for one repository. Exactly when packages are fetched beside their index: C81_exact."
  },
  {
   "property": "C82",
   "status": "partial",
   "theorems": [
    "C82_exact",
    "C82_type_partial",
    "C82_repositories",
    "C82_source_index",
    "C82_binary_index",
    "C82_no_index_refuted"
   ],
   "note": "The type is proved for at most one entry per repository, the indexes read are characterized exactly; refuted that the index of the configured type is always read (Type: binary on Linux for a repository that is not MPN). With any number of entries and on every platform: C82_exact."
  },
  {
   "property": "C83",
   "status": "partial",
   "theorems": [
    "C83_exact",
    "C83_linux_directory_partial",
    "C83_ten_refuted",
    "C83_no_version_refuted"
   ],
   "note": "Refuted for major versions with two digits (centos/1) and for a missing VERSION_ID (panic); proved otherwise. All cases: C83_exact."
  },
  {
   "property": "C84",
   "status": "partial",
   "theorems": [
    "C84_exact",
    "C84_os_release_partial",
    "C84_equals_refuted",
    "C84_empty_refuted"
   ],
   "note": "Proved for files without empty plain values, equals signs in quoted values and comments ending with one; refuted for these: the whole file is rejected. The TOML reader is modelled for such lines. Exactly which files are read, and with which values: C84_exact."
  },
  {
   "property": "C85",
   "status": "partial",
   "theorems": [
    "C85_exact",
    "C85_relative_partial",
    "C85_default_file",
    "C85_edited_partial",
    "C85_edited_refuted",
    "C85_renv_refuted",
    "C85_tilde_refuted"
   ],
   "note": "Proved for the file that is read and the paths in it, for names without a tilde. Refuted: add and remove look for a relative --config path with a directory below itself; the library of renv is asked for in the caller's directory; ./~/pkgr.yml means a file in the home directory. Exactly when the file that is read is the one that is changed: C85_exact."
  },
  {
   "property": "C86",
   "status": "proved",
   "theorems": [
    "C86_exact",
    "C86_open_brace",
    "C86_expansion",
    "C86_unset",
    "C86_text"
   ],
   "note": "os.ExpandEnv is modelled from the standard library; stated for texts in which every dollar sign precedes a word. What becomes of any text, with mistakes like an open brace, is C86_exact."
  },
  {
   "property": "C87",
   "status": "partial",
   "theorems": [
    "C87_exact",
    "C87_run_partial",
    "C87_twice_refuted",
    "C87_first_empty_refuted"
   ],
   "note": "Proved for packages customized at most once; for a package listed twice the session gets the first entry, the installation the last one with variables (refuted). All cases: C87_exact."
  },
  {
   "property": "C88",
   "status": "proved",
   "theorems": [
    "C88_install_command",
    "C88_settings",
    "C88_no_repetition"
   ],
   "note": "The struct tags are modelled as the list of arguments in field order."
  },
  {
   "property": "C89",
   "status": "partial",
   "theorems": [
    "C89_default",
    "C89_absolute_partial",
    "C89_rscript_partial",
    "C89_name_refuted",
    "C89_relative_refuted",
    "C89_dot_refuted",
    "C89_tilde_refuted"
   ],
   "note": "Proved for no RPath and absolute paths on Linux and macOS; refuted for relative paths, ./R, an R of another name (Rscript is not found) and ~ together with a lock file."
  },
  {
   "property": "C90",
   "status": "partial",
   "theorems": [
    "C90_r_first_partial",
    "C90_longer_name_refuted",
    "C90_no_path_refuted",
    "C90_exact"
   ],
   "note": "Proved when the PATH of the caller does not begin with the text of the directory, or begins with the directory itself; refuted for a longer name beginning with the same text and for a caller without PATH. The cases left out are described by the theorems ending in _exact."
  },
  {
   "property": "C91",
   "status": "proved",
   "theorems": [
    "C91_downloads_apart",
    "C91_builds_apart"
   ],
   "note": "MD5 is a parameter; addresses agree up to collisions of the first 12 digits. Package names as R allows them, versions without slash and underscore."
  },
  {
   "property": "C92",
   "status": "partial",
   "theorems": [
    "C92_descriptions",
    "C92_recorded_partial",
    "C92_unpacked",
    "C92_same_package_refuted",
    "C92_other_directory_refuted"
   ],
   "note": "MD5, the reader of DESCRIPTION files and the directory listing are parameters. Refuted for two tarballs of one package (only the last is installed) and for archives with another directory first."
  },
  {
   "property": "C93",
   "status": "proved",
   "theorems": [
    "C93_each_once",
    "C93_success",
    "C93_only_these",
    "C93_errors"
   ],
   "note": "R is any program that changes only the package, its lock and its working directory; packages are unpacked in different directories apart from the library."
  },
  {
   "property": "C94",
   "status": "partial",
   "theorems": [
    "C94_before_partial",
    "C94_dependencies_planned_partial",
    "C94_only_as_tarball_refuted",
    "C94_order_refuted"
   ],
   "note": "Proved for Imports and LinkingTo that repositories have. Refuted for tarballs depending on each other: planning reports the package as missing, and the map of tarballs is iterated in any order. What tarballs list is in the library when R is run for one: C94_before_partial."
  },
  {
   "property": "C95",
   "status": "proved",
   "theorems": [
    "C95_dependencies",
    "C95_reverse"
   ],
   "note": "For every plan; names that are not planned get an empty record."
  },
  {
   "property": "C96",
   "status": "partial",
   "theorems": [
    "C96_exact",
    "C96_tree_partial",
    "C96_reverse_tree_refuted"
   ],
   "note": "The tree without --reverse is proved. Refuted with --reverse: the roots are chosen among the reverse dependencies but the branches are forward dependencies. All cases: C96_exact."
  },
  {
   "property": "C97",
   "status": "proved",
   "theorems": [
    "C97_frame",
    "C97_alone"
   ],
   "note": "R is any process that only changes the package, its lock and, when building, its working directory; temporary directories are taken to be different and apart from the library. Run undisturbed, a worker does what the model of InstallThroughBinary used in C49 and C50 does."
  },
  {
   "property": "C98",
   "status": "partial",
   "theorems": [
    "C98_refused_refuted",
    "C98_installed",
    "C98_ends_partial",
    "C98_missing_file_refuted"
   ],
   "note": "Proved for source files that are there (refuted without: a missing file counts as installed) and R that reports success only when the package is in its library. Returning is proved when R ends, no request is dropped and binaries can be copied (C47). Refuted also when a server does not have a package: what is in the working directory is installed in place of it."
  },
  {
   "property": "C99",
   "status": "proved",
   "theorems": [
    "C99_downloaded",
    "C99_downloads_cover",
    "C99_request_downloaded",
    "C99_whole_run",
    "C99_request_installed"
   ],
   "note": "Composition of planning, staging, downloads, scheduler, workers, tarballs and cleanup. With the downloads of C130 in full (C99_downloaded, C99_request_downloaded), when each has led to a file."
  },
  {
   "property": "C100",
   "status": "partial",
   "theorems": [
    "C100_whole_run_undone_partial",
    "C100_unreadable_dir_refuted"
   ],
   "note": "Composition with the rollback; under the hypotheses of C33: no stale backups, no directories in the way of new packages, no package both outdated and a tarball, an existing library, downloads work. Refuted without them: a directory without DESCRIPTION called like a package is deleted with its contents."
  },
  {
   "property": "C101",
   "status": "proved",
   "theorems": [
    "C101_record_read"
   ],
   "note": "The library behind ParseDesc (pault.ag/go/debian/control) is modelled from its documented behaviour. Field names are distinct words; string fields are on one line, entries of lists do not contain line ends; continuation lines that are a single dot are left out."
  },
  {
   "property": "C102",
   "status": "proved",
   "theorems": [
    "C102_index_read"
   ],
   "note": "Composition of C101 with C09."
  },
  {
   "property": "C103",
   "status": "partial",
   "theorems": [
    "C103_blank_lines_refuted",
    "C103_blank_lines_partial",
    "C103_exact"
   ],
   "note": "Proved for an even number of line ends at the end; refuted for three: the piece left over has no field and the whole index is rejected. An odd number of line ends of three or more is proved to fail always."
  },
  {
   "property": "C104",
   "status": "partial",
   "theorems": [
    "C104_unreadable_index_refuted",
    "C104_unreadable_index_partial",
    "C104_exact"
   ],
   "note": "Proved for web repositories and missing files; refuted for local files: the error of reading is dropped and the index counts as empty or ends early. All cases: C104_exact."
  },
  {
   "property": "C105",
   "status": "partial",
   "theorems": [
    "C105_dependency_names_refuted",
    "C105_dependency_names_partial",
    "C105_exact"
   ],
   "note": "Every name comes from an entry. Refuted for lists with an empty entry (a comma at the end): the dependency has the empty name. In all cases the names are exactly those in the entries (C105_exact)."
  },
  {
   "property": "C106",
   "status": "partial",
   "theorems": [
    "C106_exact",
    "C106_same_way",
    "C106_way_partial",
    "C106_way_refuted"
   ],
   "note": "Same way for indexes and packages: proved. Refuted for a scheme in capitals (opened as a file) and for directories whose name starts with http (fetched). All cases: C106_exact."
  },
  {
   "property": "C107",
   "status": "partial",
   "theorems": [
    "C107_exact",
    "C107_status_partial",
    "C107_messages_partial",
    "C107_errors",
    "C107_dot_refuted",
    "C107_skip_refuted"
   ],
   "note": "Proved for matrices without a file named . and without entries that have neither an entry point nor documentation. Refuted: the name . is accepted although the usage forbids . elements; the exception for skip is applied to check 03 and not to check 05 as the usage says. What the statuses 1 and 2 mean is proved. Exactly when the status is 0: C107_exact."
  },
  {
   "property": "C108",
   "status": "partial",
   "theorems": [
    "C108_exact",
    "C108_status_partial",
    "C108_error",
    "C108_package_refuted"
   ],
   "note": "Status 2 is characterised in full. Status 1 for records that name a test; refuted for the fail record of a package (a build failure): status 0. All cases: C108_exact."
  },
  {
   "property": "C109",
   "status": "proved",
   "theorems": [
    "C109_written"
   ],
   "note": "Test names of a package are told apart by package and name."
  },
  {
   "property": "C110",
   "status": "proved",
   "theorems": [
    "C110_percentages",
    "C110_range"
   ],
   "note": "Floating point is modelled by exact rationals; rounding for display is not modelled."
  },
  {
   "property": "C111",
   "status": "partial",
   "theorems": [
    "C111_exact",
    "C111_names_partial",
    "C111_local_names",
    "C111_local_error",
    "C111_same_name_refuted"
   ],
   "note": "Names of files of the module stay distinct. Refuted for a file of the module and a file outside of it. Proved with a local directory as well: which names are cut and when there is an error. Exactly when two short names coincide: C111_exact."
  },
  {
   "property": "C112",
   "status": "partial",
   "theorems": [
    "C112_exact",
    "C112_files_partial",
    "C112_no_file",
    "C112_plan_refuted",
    "C112_add_install_refuted",
    "C112_directory_refuted"
   ],
   "note": "Proved for install, add without --install, remove and clean, with files that can be opened. Refuted for plan, load, run and the subcommands of clean, which never write to a log file; for add --install, which overwrites its own records and writes others twice; and for files in a directory that does not exist. All log files of add --install: C112_exact."
  },
  {
   "property": "C113",
   "status": "partial",
   "theorems": [
    "C113_exact",
    "C113_level",
    "C113_flag",
    "C113_add_install",
    "C113_key_refuted"
   ],
   "note": "The levels and the flag are proved. Refuted for the configuration file: its level is not used. The second half of add --install is covered in full. The level of every command: C113_exact."
  },
  {
   "property": "C114",
   "status": "partial",
   "theorems": [
    "C114_order",
    "C114_again",
    "C114_lines_partial",
    "C114_prefix_refuted",
    "C114_exact"
   ],
   "note": "Order and repetition for all files. Which lines go: as in C62, for files in which lines that look like an entry are entries of Packages. C114_exact says which lines are removed from any file. Refuted: removing data removes data.table."
  },
  {
   "property": "C115",
   "status": "partial",
   "theorems": [
    "C115_all_partial",
    "C115_without_all",
    "C115_tarballs_refuted",
    "C115_exact"
   ],
   "note": "Proved without tarballs in the configuration and for a cache that exists. Refuted with tarballs: the plan made to find the databases unpacks them again. With tarballs, in all cases: C115_exact."
  },
  {
   "property": "C116",
   "status": "partial",
   "theorems": [
    "C116_unreadable",
    "C116_planned_partial",
    "C116_depends_refuted"
   ],
   "note": "Proved for Imports, LinkingTo and Suggests, from the text of the files. Refuted for Depends, as C69."
  },
  {
   "property": "C117",
   "status": "partial",
   "theorems": [
    "C117_exact",
    "C117_directory_partial",
    "C117_default",
    "C117_directory_refuted",
    "C117_tilde_refuted"
   ],
   "note": "For absolute names, names without a directory and no name. Refuted: with a relative name that has a directory R is run in another directory (sub/sub for sub/pkgr.yml), and a tilde that pkgr expands in the name of the file is not expanded here. Exactly when R is run beside the configuration file: C117_exact."
  },
  {
   "property": "C118",
   "status": "partial",
   "theorems": [
    "C118_packages_partial",
    "C118_libraries_partial",
    "C118_row_refuted",
    "C118_index_refuted",
    "C118_profile_refuted"
   ],
   "note": "For R printing one text in each row, all lists, interleavings and texts without quotes and line ends. Refuted: several libraries in one row become one entry, row numbers after a blank stay in the text, and a line written by a profile hides the versions and directories of all packages."
  },
  {
   "property": "C119",
   "status": "partial",
   "theorems": [
    "C119_exact",
    "C119_configured",
    "C119_all_partial",
    "C119_missing_refuted"
   ],
   "note": "Proved without --all, and with --all for every plan that could be made. Refuted: when some package is in no repository, --all loads nothing and says that all packages were loaded. For every plan: C119_exact."
  },
  {
   "property": "C120",
   "status": "partial",
   "theorems": [
    "C120_exact",
    "C120_message_partial",
    "C120_status_refuted"
   ],
   "note": "The message is right for all outcomes and interleavings and the status is 0 exactly when R could be run for every package. Refuted: the status is 0 although packages could not be loaded. For every plan and setting of threads: C120_exact."
  },
  {
   "property": "C121",
   "status": "partial",
   "theorems": [
    "C121_exact",
    "C121_sources_partial",
    "C121_sum_partial",
    "C121_name_refuted"
   ],
   "note": "The numbers of repositories and tarballs, and their sum, for all plans. Refuted for a repository called tarballs, whose packages are not counted. The sum in all cases, a repository named tarballs included: C121_exact."
  },
  {
   "property": "C122",
   "status": "partial",
   "theorems": [
    "C122_exact",
    "C122_required_partial",
    "C122_installed",
    "C122_twice_refuted"
   ],
   "note": "Installed packages in full. Required packages when no tarball is of a planned package; refuted otherwise: such a package is counted twice. The number announced in all cases: C122_exact."
  },
  {
   "property": "C123",
   "status": "partial",
   "theorems": [
    "C123_exact",
    "C123_updates_partial",
    "C123_no_update",
    "C123_unrelated_refuted"
   ],
   "note": "When all outdated packages are required. Refuted: an outdated package of the library that is not asked for is announced as an update and left as it is. What is announced in all cases: C123_exact."
  },
  {
   "property": "C124",
   "status": "partial",
   "theorems": [
    "C124_exact",
    "C124_lines_partial",
    "C124_tarball_refuted",
    "C124_hidden_refuted"
   ],
   "note": "Without tarballs: lines are right for all plans, and complete when outdated packages are planned. Refuted: tarballs are listed without a name or with the version of a repository, and the list is left out when an unrelated package is outdated. Exactly which lines are written: C124_exact."
  },
  {
   "property": "C125",
   "status": "partial",
   "theorems": [
    "C125_plan_ends",
    "C125_exact",
    "C125_plan_partial",
    "C125_plan_status",
    "C125_run_partial",
    "C125_clean_partial",
    "C125_strict_refuted",
    "C125_run_refuted",
    "C125_clean_refuted"
   ],
   "note": "Refuted: plan in strict mode without a library logs an error and ends with 0, run ends with 0 whatever becomes of the session, clean cache drops its errors. Plans that cannot be made are told apart by statuses 1 and 2. Exactly when the statuses are 0: C125_exact. The command plan always ends with a status: C125_plan_ends."
  },
  {
   "property": "C126",
   "status": "partial",
   "theorems": [
    "C126_add_exact",
    "C126_remove_exact",
    "C126_add_nothing",
    "C126_add_partial",
    "C126_add_unreadable",
    "C126_remove_partial",
    "C126_unreadable_refuted",
    "C126_disk_full_refuted"
   ],
   "note": "Proved with room on the disk, for remove with a file that can be read. Refuted: remove takes what it could read for the file and writes it back with the status 0; without room on the disk both leave a part of the file. All cases: C126_add_exact, C126_remove_exact."
  },
  {
   "property": "C127",
   "status": "partial",
   "theorems": [
    "C127_exact",
    "C127_names",
    "C127_user_partial",
    "C127_build_partial",
    "C127_clock_refuted",
    "C127_leftover_refuted"
   ],
   "note": "Proved for names that were not drawn before. Refuted: the generator is started with the clock at every call, so that equal readings give the same directory, and a directory of an earlier run is used as it is. Directories are never removed. What is in the directories given to R, in all cases: C127_exact."
  },
  {
   "property": "C128",
   "status": "proved",
   "theorems": [
    "C128_settings",
    "C128_no_update",
    "C128_strict"
   ],
   "note": "Reading the YAML file is a parameter: the settings start from the keys it contains. Composed with C38 and C39."
  },
  {
   "property": "C129",
   "status": "proved",
   "theorems": [
    "C129_place",
    "C129_paths",
    "C129_error"
   ],
   "note": "On Unix. LibPaths is not expanded; the program does not use it."
  },
  {
   "property": "C130",
   "status": "proved",
   "theorems": [
    "C130_stopped",
    "C130_wants",
    "C130_address",
    "C130_file",
    "C130_results",
    "C130_always",
    "C130_ends"
   ],
   "note": "DownloadPackages with the file system, in small steps. Assumes sensible names, repositories that are told apart by their names, and no local repository inside the cache. Why the program may be stopped: C130_stopped."
  },
  {
   "property": "C131",
   "status": "partial",
   "theorems": [
    "C131_only",
    "C131_stored",
    "C131_no_directory",
    "C131_found_again",
    "C131_part_refuted"
   ],
   "note": "Proved but for the last sentence, which is refuted: what a failed copy has written (the beginning of the binary, C131_only) stays in the cache and is taken for the binary by the next run (C131_part_refuted).  Without the directory for the version of R the copy cannot be made, and InstallPackagePlan does not return (C131_no_directory).  Finding it again: packages without tar.gz in their names (C50)."
  },
  {
   "property": "C132",
   "status": "partial",
   "theorems": [
    "C132_arguments",
    "C132_directories",
    "C132_load",
    "C132_libraries",
    "C132_site_refuted",
    "C132_variables",
    "C132_secrets",
    "C132_secrets_load_refuted",
    "C132_directory",
    "C132_arguments_exact"
   ],
   "note": "All uses of R in the code. Refuted in two places: tarballs and binaries of the cache are installed without R_LIBS_SITE (C132_site_refuted), and the sessions of load see the secrets of the caller (C132_secrets_load_refuted, which follows from what the help of load says)."
  },
  {
   "property": "C133",
   "status": "partial",
   "theorems": [
    "C133_once_partial",
    "C133_exact",
    "C133_development_refuted"
   ],
   "note": "Holds unless the version is read as 0.0.x, as for the development version of R (C133_development_refuted); how often R is run in all cases: C133_exact."
  },
  {
   "property": "C134",
   "status": "partial",
   "theorems": [
    "C134_exact",
    "C134_from",
    "C134_from_exact",
    "C134_once_partial",
    "C134_told",
    "C134_twice_refuted"
   ],
   "note": "Once for each package when the request names no package twice (C134_once_partial); in any case each is told and nothing else is (C134_told); a package named twice is told twice (C134_twice_refuted). How often each is told, in all cases: C134_exact."
  },
  {
   "property": "C135",
   "status": "proved",
   "theorems": [
    "C135_words",
    "C135_asked",
    "C135_lookup"
   ],
   "note": "Which of the words are suggested is decided by the library fuzzy, which is not modelled. A package that is only offered in another form is a word itself (C135_example)."
  },
  {
   "property": "C136",
   "status": "proved",
   "theorems": [
    "C136_readers",
    "C136_alone",
    "C136_noticed",
    "C136_in_turn",
    "C136_through",
    "C136_kept"
   ],
   "note": "sync.RWMutex is modelled as a flag and a number of readers, without its preference for writers, so more interleavings are covered than happen. Readers do not wait for each other: C136_readers."
  },
  {
   "property": "C137",
   "status": "partial",
   "theorems": [
    "C137_files_partial",
    "C137_outside",
    "C137_matrix",
    "C137_underscore_refuted"
   ],
   "note": "For commands without underscores in their names, as all of pkgr are; two commands share a file otherwise (C137_underscore_refuted). doc.GenMarkdownTree of cobra is modelled from its source; errors of writing are left out."
  },
  {
   "property": "C138",
   "status": "partial",
   "theorems": [
    "C138_made_partial",
    "C138_file_refuted",
    "C138_install_refuted",
    "C138_exact"
   ],
   "note": "Holds without files in the way. A file in place of the cache is not noticed (C138_file_refuted), and as pkgr install calls it, neither is a cache that cannot be made (C138_install_refuted). In all cases: C138_exact."
  },
  {
   "property": "C139",
   "status": "partial",
   "theorems": [
    "C139_exact",
    "C139_no_secure_exact",
    "C139_packages",
    "C139_indexes",
    "C139_partial",
    "C139_same_partial",
    "C139_redirect_refuted",
    "C139_cached_refuted",
    "C139_proxy_refuted"
   ],
   "note": "What is fetched in all cases: C139_exact, C139_no_secure_exact; package files and indexes: C139_packages, C139_indexes. Partial because a server with a checked certificate may redirect to http (C139_redirect_refuted), because files in the cache that were fetched with noSecure are used later (C139_cached_refuted), and because with noSecure the proxies of the environment are not used, so not the same is fetched (C139_proxy_refuted). The network is any relation; TLS itself is not modelled."
  },
  {
   "property": "C140",
   "status": "partial",
   "theorems": [
    "C140_exact",
    "C140_packages",
    "C140_partial",
    "C140_lost_refuted"
   ],
   "note": "What is left in all cases: C140_exact, C140_packages. Partial because an outdated package whose update fails is lost: its backup is deleted (C140_lost_refuted)."
  },
  {
   "property": "C141",
   "status": "partial",
   "theorems": [
    "C141_idle",
    "C141_plan",
    "C141_run_partial",
    "C141_version_refuted",
    "C141_tarball_refuted"
   ],
   "note": "Packages that are in the library are skipped by the installer (C141_idle) and are not outdated in the next plan (C141_plan); the whole run: C141_run_partial. Partial because a version without a separator is a panic in the second run (C141_version_refuted), and because packages from tarballs are installed in every run, and may be lost then (C141_tarball_refuted)."
  },
  {
   "property": "C142",
   "status": "partial",
   "theorems": [
    "C142_exact",
    "C142_partial",
    "C142_delivers_partial",
    "C142_agrees",
    "C142_killed_refuted",
    "C142_full_refuted",
    "C142_one_index_refuted",
    "C142_bad_refuted"
   ],
   "note": "What one use does in all cases: C142_exact; histories: C142_partial, C142_delivers_partial; agreement with the model of C19: C142_agrees. Partial because an index that could not be fetched is missing for an hour (C142_one_index_refuted), because uses fail for an hour after one was killed or the disk was full while the file was written (C142_killed_refuted, C142_full_refuted), and because something in the way of the file is a panic (C142_bad_refuted). encoding/gob is any format with texts that can be read and whose beginnings cannot."
  },
  {
   "property": "C143",
   "status": "partial",
   "theorems": [
    "C143_concurrent_partial",
    "C143_run_partial",
    "C143_unreadable_refuted"
   ],
   "note": "While the plan is being installed, as soon as a package is done: C143_concurrent_partial; at the end of a run, with tarballs: C143_run_partial. Partial because R must leave a DESCRIPTION that can be read: if not, the package is installed without a word (C143_unreadable_refuted)."
  },
  {
   "property": "C144",
   "status": "partial",
   "theorems": [
    "C144_files",
    "C144_changes",
    "C144_library",
    "C144_again",
    "C144_expired_refuted"
   ],
   "note": "What planning changes: C144_changes, C144_library; a second run of planInstall: C144_again (same kind of end, same plan up to order, same state; equal with the same order of map iterations). The two files of different databases must differ, and the cache must not be in the library. After the maximal age the plan may be another one: C144_expired_refuted. Databases are fetched one after the other in this model, which makes no difference when their files differ (C146_one_after_the_other). Which databases share a file: C144_files."
  },
  {
   "property": "C145",
   "status": "partial",
   "theorems": [
    "C145_graph",
    "C145_list",
    "C145_list_refuted",
    "C145_dir_name",
    "C145_dir_name_refuted",
    "C145_all_deps",
    "C145_megabytes",
    "C145_path"
   ],
   "note": "Partial because lists whose elements have bars can share a text (C145_list_refuted) and a single backslash is not taken off (C145_dir_name_refuted)."
  },
  {
   "property": "C146",
   "status": "partial",
   "theorems": [
    "C146_gone_refuted",
    "C146_apart",
    "C146_goes_on",
    "C146_young",
    "C146_one_after_the_other",
    "C146_early_refuted",
    "C146_mixed_refuted"
   ],
   "note": "Proved for goroutines with different files (C146_apart), also for all databases of a run (C146_one_after_the_other), and for shared files that are young enough (C146_young); C146_goes_on: no deadlock. Partial because with a shared file a run can read what another has written so far and fail (C146_early_refuted), and two runs that both succeed can leave a mixed file with which every run within the hour fails (C146_mixed_refuted). A file is read in one step; writing is in any pieces. A file that another run removes between looking and opening is an error, too (C146_gone_refuted)."
  },
  {
   "property": "C147",
   "status": "partial",
   "theorems": [
    "C147_apart",
    "C147_whole",
    "C147_goes_on",
    "C147_early_refuted",
    "C147_cut_refuted"
   ],
   "note": "Downloads for different files: C147_apart; for the same file: whole as soon as nobody is writing it, if the servers send the same body as a whole (C147_whole); no deadlock: C147_goes_on. Partial because a run takes a file that another is still writing for the package (C147_early_refuted), and because a download that breaks off spoils the file of one that has ended (C147_cut_refuted)."
  },
  {
   "property": "C148",
   "status": "partial",
   "theorems": [
    "C148_reads",
    "C148_one",
    "C148_utf8",
    "C148_text",
    "C148_deps",
    "C148_installed",
    "C148_load",
    "C148_bytes_refuted"
   ],
   "note": "Which texts are written as they are, and no HTML by inspect: C148_text. Read by a reader written after RFC 8259 (JsonSpec): every value comes back, with the replacement character for bytes that are not UTF-8 (C148_reads), and no text has two readings (C148_one); the records of inspect and the report of load: C148_deps, C148_installed, C148_load. Partial because names that are not UTF-8 are lost (C148_bytes_refuted)."
  },
  {
   "property": "C149",
   "status": "partial",
   "theorems": [
    "C149_apart",
    "C149_own",
    "C149_whole",
    "C149_bytes",
    "C149_goes_on",
    "C149_mixed_refuted",
    "C149_part_refuted"
   ],
   "note": "Binaries with different places: C149_apart; a run that builds installs what it has built: C149_own; builds that agree byte by byte: whole as soon as nobody is copying (C149_whole); otherwise each byte is from some build or zero (C149_bytes); no deadlock: C149_goes_on. Partial because builds of one package need not agree byte by byte, and two copies that both succeed can leave a file that is neither binary, which a third run installs (C149_mixed_refuted), and because a run installs a binary that another is still copying (C149_part_refuted). R reads a binary in one step."
  },
  {
   "property": "C150",
   "status": "partial",
   "theorems": [
    "C150_line",
    "C150_any",
    "C150_html",
    "C150_fields",
    "C150_file",
    "C150_each",
    "C150_lines",
    "C150_overwrite",
    "C150_lost_refuted",
    "C150_cut_refuted"
   ],
   "note": "No HTML in it: C150_html. One line that comes back, for texts that are UTF-8: C150_line; for any: C150_any; which fields are shown: C150_fields; a file that several processes append to: C150_file, C150_each; its lines are determined: C150_lines; a run that overwrites it: C150_overwrite. Partial because a field called like another one with the prefix of the formatter replaces it (C150_lost_refuted), and because after a part of a record (full disk) the next one cannot be read (C150_cut_refuted). A line is written at once."
  },
  {
   "property": "C151",
   "status": "partial",
   "theorems": [
    "C151_hidden",
    "C151_lines",
    "C151_given",
    "C151_settings_refuted",
    "C151_aws_refuted"
   ],
   "note": "C151_hidden, C151_lines, C151_given for the six names that pkgr calls sensitive, in any letter case. Partial because a token that pkgr.yml takes from the environment for a package is logged (C151_settings_refuted), and because AWS_SECRET_ACCESS_KEY, the name that AWS uses, is not among the six (C151_aws_refuted)."
  },
  {
   "property": "C152",
   "status": "partial",
   "theorems": [
    "C152_alone",
    "C152_undone",
    "C152_done",
    "C152_others",
    "C152_well",
    "C152_goes_on",
    "C152_lost_refuted",
    "C152_new_refuted",
    "C152_created_refuted"
   ],
   "note": "For runs about different packages and a library that is there: each run goes as it could alone (C152_alone), one with errors leaves its packages as they were (C152_undone), one without has installed them (C152_done). Nothing else changes (C152_others), nobody waits (C152_goes_on). Also for runs about the same packages, if all end without errors: C152_well. Partial because otherwise a run that fails takes away what another one has installed: the package and its old version (C152_lost_refuted), a new package (C152_new_refuted), or the library with packages that the other one did not share (C152_created_refuted). R's replacement of a folder is one step."
  },
  {
   "property": "C153",
   "status": "partial",
   "theorems": [
    "C153_read",
    "C153_golden",
    "C153_sorted",
    "C153_found",
    "C153_found_type",
    "C153_plan",
    "C153_generic",
    "C153_filter",
    "C153_lines",
    "C153_unrelated",
    "C153_other_refuted",
    "C153_golden_refuted",
    "C153_output_refuted"
   ],
   "note": "Each message is read once, with its fields: C153_read; the texts do not depend on the order: C153_golden, C153_sorted; a test finds what pkgr has told (C153_found, C153_found_type) and so what will be downloaded (C153_plan); other logs: C153_generic, C153_filter. Partial because a record in which the message occurs elsewhere, as in the output of R, is taken for one (C153_other_refuted), because texts depend on the order if messages differ (C153_golden_refuted), and because PkgrJsonLogOutput never finds anything (C153_output_refuted). The syntax of JSON is that of C148; sort.Slice may leave equal elements in any order."
  },
  {
   "property": "C154",
   "status": "partial",
   "theorems": [
    "C154_same",
    "C154_suggests",
    "C154_pins",
    "C154_read",
    "C154_null",
    "C154_other",
    "C154_map",
    "C154_case",
    "C154_twice",
    "C154_null_refuted",
    "C154_case_refuted",
    "C154_map_refuted",
    "C154_twice_refuted"
   ],
   "note": "If every element of the list is a map and every package has a map of settings, the written text is applied as the decoded customizations of C13, C30 and C73 (C154_same); with the documented keys, each package once, the settings are those written: C154_suggests, C154_pins. What can be read: C154_read. Something else than a map is a fatal error (C154_other). Partial because a package without settings is a panic or a fatal error (C154_null, C154_null_refuted), a key in another case is decoded but not used (C154_case, C154_case_refuted), a map of packages is a panic (C154_map, C154_map_refuted), and a repository in one of two entries of a package is a fatal error (C154_twice, C154_twice_refuted)."
  },
  {
   "property": "C155",
   "status": "partial",
   "theorems": [
    "C155_alone",
    "C155_complete",
    "C155_others",
    "C155_goes_on",
    "C155_ends",
    "C155_early_refuted",
    "C155_removed_refuted"
   ],
   "note": "Tarballs with different hashes: each ends as alone (C155_alone), complete (C155_complete), nothing else changes (C155_others), nobody waits (C155_goes_on) and all end (C155_ends). Partial because two runs with the same tarball share a directory: one may install from it before it is complete (C155_early_refuted) or may remove it while the other installs from it (C155_removed_refuted)."
  },
  {
   "property": "C156",
   "status": "partial",
   "theorems": [
    "C156_same",
    "C156_default",
    "C156_packages",
    "C156_renv_refuted",
    "C156_null_refuted",
    "C156_config_refuted"
   ],
   "note": "If the changed file is the one that was read, the library does not depend on where R is asked and the list of packages has no null item, both ways start the installation alike: C156_same; without --config: C156_default; the packages are those of the changed file: C156_packages. Partial because renv is asked in another directory (C156_renv_refuted), a null item is filled with what was read before (C156_null_refuted), and with a relative --config in another directory another file is changed and read (C156_config_refuted)."
  },
  {
   "property": "C157",
   "status": "partial",
   "theorems": [
    "C157_start",
    "C157_kept",
    "C157_same",
    "C157_others",
    "C157_lines",
    "C157_order_refuted",
    "C157_replaced_refuted"
   ],
   "note": "Proved for plans that stay the same, which is how the commands call GetAllPackages: C157_start, C157_kept, C157_same, C157_others, C157_lines. Partial because a list does not keep its order (C157_order_refuted), and would lose packages if the tarballs of the plan were replaced between two calls (C157_replaced_refuted)."
  },
  {
   "property": "C158",
   "status": "partial",
   "theorems": [
    "C158_meant",
    "C158_order",
    "C158_settings",
    "C158_sound",
    "C158_unknown",
    "C158_false_refuted",
    "C158_words_refuted",
    "C158_preview_refuted",
    "C158_help_refuted",
    "C158_before_refuted"
   ],
   "note": "Proved for lines whose flags in front of the command are flags of all commands or are written with an equals sign: C158_meant, C158_order, C158_settings, C158_unknown; for all lines, what is run has only flags of its own with readable values: C158_sound. Partial because a switch does not take the next argument as its value (C158_false_refuted), words without a use are ignored (C158_words_refuted), --preview has no effect (C158_preview_refuted), the command help needs a configuration (C158_help_refuted) and a flag of one command cannot stand in front of it (C158_before_refuted)."
  },
  {
   "property": "C159",
   "status": "partial",
   "theorems": [
    "C159_starts",
    "C159_no_update",
    "C159_strict",
    "C159_rollback",
    "C159_no_rollback",
    "C159_threads",
    "C159_false_refuted",
    "C159_preview_refuted"
   ],
   "note": "Composes the command line (C158) with the settings (C128) and the run: C159_starts, C159_no_update, C159_strict, C159_rollback, C159_no_rollback, C159_threads. Partial because --no-rollback false (two arguments) turns the rollback off and a failed run then loses a package (C159_false_refuted), and the hidden flag --preview changes the library all the same (C159_preview_refuted)."
  },
  {
   "property": "C160",
   "status": "partial",
   "theorems": [
    "C160_ends",
    "C160_no_error",
    "C160_copied",
    "C160_same",
    "C160_elsewhere",
    "C160_left_refuted",
    "C160_inside_refuted"
   ],
   "note": "Proved for sources and destinations of which neither is inside the other: C160_ends, C160_no_error, C160_copied, C160_same, C160_elsewhere. Partial because files that were in the destination stay there (C160_left_refuted) and a directory that is copied into itself grows without end (C160_inside_refuted). Permissions and links are left out; a directory is listed by any function that gives each of its names once."
  },
  {
   "property": "C161",
   "status": "partial",
   "theorems": [
    "C161_read",
    "C161_only",
    "C161_usage",
    "C161_checkmat",
    "C161_checkmat_only",
    "C161_fmttests",
    "C161_filecov",
    "C161_filecov_mod",
    "C161_filecov_error",
    "C161_docgen",
    "C161_behind_refuted",
    "C161_help_refuted",
    "C161_docgen_refuted"
   ],
   "note": "Proved for all arguments: what is read is exactly what the usage allows (C161_read, C161_only, C161_usage), and the programs do what C107 to C111 and C137 say with it (C161_checkmat, C161_checkmat_only, C161_fmttests, C161_filecov, C161_filecov_mod, C161_filecov_error, C161_docgen). Partial because flags behind a word are not read (C161_behind_refuted), -help writes the usage as an error message (C161_help_refuted) and docgen -h deletes the directory -h (C161_docgen_refuted). The texts of usage and of JSON are left out."
  },
  {
   "property": "C162",
   "status": "partial",
   "theorems": [
    "C162_configured",
    "C162_all",
    "C162_json",
    "C162_directory_partial",
    "C162_default",
    "C162_message",
    "C162_ends",
    "C162_show_deps",
    "C162_key_refuted",
    "C162_json_refuted",
    "C162_config_refuted"
   ],
   "note": "Proved for every line for load or plan, from the arguments to the report: C162_configured, C162_all, C162_json, C162_default, C162_message, C162_ends, C162_show_deps. C162_directory_partial is for absolute names and plain names of the file (others: C117). Partial because keys of the configuration file named all, json and config work like the flags (C162_key_refuted, C162_json_refuted, C162_config_refuted). The plan is an input here."
  },
  {
   "property": "C163",
   "status": "partial",
   "theorems": [
    "C163_add_partial",
    "C163_remove_partial",
    "C163_clean_nothing",
    "C163_clean_all_partial",
    "C163_cache_partial",
    "C163_pkgdbs_partial",
    "C163_both_refuted",
    "C163_other_file_refuted"
   ],
   "note": "C163_clean_nothing holds for every line. C163_add_partial and C163_remove_partial are for a configuration file named by an absolute or a plain name, or not named; for other names another file is edited (C163_other_file_refuted). C163_clean_all_partial, C163_cache_partial and C163_pkgdbs_partial are for configurations without tarballs (with tarballs: C66, C115). With both --src-only and --binaries-only nothing is removed and the command ends well (C163_both_refuted)."
  },
  {
   "property": "C164",
   "status": "partial",
   "theorems": [
    "C164_deps",
    "C164_reverse",
    "C164_tree_partial",
    "C164_nothing",
    "C164_installed",
    "C164_run",
    "C164_program_partial",
    "C164_pkg_partial",
    "C164_no_pkg",
    "C164_word_refuted",
    "C164_tree_refuted"
   ],
   "note": "Proved for every line: C164_deps, C164_reverse, C164_nothing, C164_installed, C164_run, C164_no_pkg. C164_tree_partial is without --reverse (C96_reverse_tree_refuted), C164_program_partial for an RPath that is absolute or missing (C89). C164_pkg_partial is for packages customized once and names of variables without blanks (C55, C87). A package named as a word of run is ignored (C164_word_refuted), and --tree or --reverse without --deps show nothing (C164_tree_refuted)."
  },
  {
   "property": "C165",
   "status": "partial",
   "theorems": [
    "C165_run",
    "C165_targets",
    "C165_setup",
    "C165_names_partial",
    "C165_directories_refuted",
    "C165_output_refuted",
    "C165_delete_refuted",
    "C165_delete",
    "C165_subtest_refuted"
   ],
   "note": "Proved: C165_run, C165_targets, C165_setup, C165_delete. Partial because five targets have no directory (C165_directories_refuted), a test that succeeds and writes FAIL: is taken for a failure (C165_output_refuted), a directory that is not empty is not deleted without an error (C165_delete_refuted), and names of tests of a test can be the same (C165_subtest_refuted); C165_names_partial is for ids without a bracket."
  },
  {
   "property": "C166",
   "status": "partial",
   "theorems": [
    "C166_installed",
    "C166_undone_partial",
    "C166_no_update",
    "C166_threads",
    "C166_missing",
    "C166_strict",
    "C166_empty_refuted"
   ],
   "note": "Proved: C166_installed, C166_no_update, C166_threads, C166_missing, C166_strict, for names that can be file names, directories apart from each other, downloads that have led to files (C98_refused_refuted tells what happens otherwise) and an R that does what it is told. C166_undone_partial needs what C33 and C100 need. An empty --library= hides the library of the file (C166_empty_refuted). Unpacking tarballs and reading databases come before the run that is modelled."
  },
  {
   "property": "C167",
   "status": "partial",
   "theorems": [
    "C167_ends",
    "C167_same",
    "C167_listed",
    "C167_kept",
    "C167_updated",
    "C167_numbers",
    "C167_strict_refuted"
   ],
   "note": "Proved: C167_ends, C167_same, C167_listed (without tarballs, whose lines are wrong: C124_tarball_refuted), C167_kept, C167_updated, C167_numbers (how many updates, sources, packages in the library and packages to install, where outdated packages that nothing requires are counted too, as for C28; and the library as it is written), under the hypotheses of C166. The two runs may traverse maps in different orders. Refuted: with --strict and without a library plan shows a plan and install does not start (C167_strict_refuted). Packages that are announced as updates although nothing requires them are left alone (C123_unrelated_refuted). Reading the databases and unpacking tarballs come before the runs that are modelled (C144)."
  }
 ]
}