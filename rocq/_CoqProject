-Q theories Verif
theories/model/Builds.v
theories/model/Calls.v
theories/model/Clean.v
theories/model/Cli.v
theories/model/Commands.v
theories/model/Config.v
theories/model/Control.v
theories/model/Copy.v
theories/model/Customs.v
theories/model/DbCache.v
theories/model/Desc.v
theories/model/Docs.v
theories/model/Download.v
theories/model/Env.v
theories/model/Extract.v
theories/model/Fetchers.v
theories/model/Fetching.v
theories/model/Flags.v
theories/model/Fs.v
theories/model/GoStr.v
theories/model/Graph.v
theories/model/Inspect.v
theories/model/Install.v
theories/model/InstallLine.v
theories/model/Json.v
theories/model/Lines.v
theories/model/Load.v
theories/model/LoadCmd.v
theories/model/LoadLine.v
theories/model/Logging.v
theories/model/Nexus.v
theories/model/Origins.v
theories/model/OsRelease.v
theories/model/Pacman.v
theories/model/Plan.v
theories/model/PlanLine.v
theories/model/Preview.v
theories/model/Records.v
theories/model/RepoDb.v
theories/model/Report.v
theories/model/Reread.v
theories/model/Rest.v
theories/model/Rollback.v
theories/model/Runs.v
theories/model/Sched.v
theories/model/Shared.v
theories/model/Sharing.v
theories/model/Slices.v
theories/model/Stamp.v
theories/model/Start.v
theories/model/Status.v
theories/model/Tarballs.v
theories/model/Temp.v
theories/model/TestLogs.v
theories/model/TestRun.v
theories/model/Together.v
theories/model/Tools.v
theories/model/Unpackers.v
theories/model/Urls.v
theories/model/Valtools.v
theories/model/Version.v
theories/model/ViewLine.v
theories/model/Web.v
theories/model/Yml.v
theories/proofs/ApartProofs.v
theories/proofs/BuildsProofs.v
theories/proofs/CacheProofs.v
theories/proofs/CallsProofs.v
theories/proofs/CleanProofs.v
theories/proofs/CliProofs.v
theories/proofs/CommandProofs.v
theories/proofs/ConfigProofs.v
theories/proofs/ControlProofs.v
theories/proofs/CopyProofs.v
theories/proofs/CustomProofs.v
theories/proofs/CustomsProofs.v
theories/proofs/DerivedProofs.v
theories/proofs/DocsProofs.v
theories/proofs/DownloadProofs.v
theories/proofs/EndProofs.v
theories/proofs/EnvProofs.v
theories/proofs/Exact5Proofs.v
theories/proofs/Exact6Proofs.v
theories/proofs/Exact7Proofs.v
theories/proofs/Exact8Proofs.v
theories/proofs/ExactProofs.v
theories/proofs/ExactProofs2.v
theories/proofs/ExampleChecks.v
theories/proofs/ExampleWorlds.v
theories/proofs/ExpandProofs.v
theories/proofs/ExtractProofs.v
theories/proofs/FetchProofs.v
theories/proofs/FetchersProofs.v
theories/proofs/FetchingProofs.v
theories/proofs/FlagProofs.v
theories/proofs/FsProofs.v
theories/proofs/GoStrLemmas.v
theories/proofs/GraphProofs.v
theories/proofs/InspectProofs.v
theories/proofs/InstallProofs.v
theories/proofs/JsonProofs.v
theories/proofs/JsonTextProofs.v
theories/proofs/LayerProofs.v
theories/proofs/LoadCmdProofs.v
theories/proofs/LoadProofs.v
theories/proofs/LogProofs.v
theories/proofs/OriginProofs.v
theories/proofs/OsReleaseProofs.v
theories/proofs/PlanProofs.v
theories/proofs/PlanProps.v
theories/proofs/PreviewProofs.v
theories/proofs/RecordsProofs.v
theories/proofs/RepoProofs.v
theories/proofs/ReportProofs.v
theories/proofs/RereadProofs.v
theories/proofs/Rollback2Proofs.v
theories/proofs/RollbackProofs.v
theories/proofs/RunLink.v
theories/proofs/RunProofs.v
theories/proofs/RunProps.v
theories/proofs/RunProps2.v
theories/proofs/RunsProofs.v
theories/proofs/SchedLink.v
theories/proofs/SchedProofs.v
theories/proofs/SchedProps.v
theories/proofs/SettingsProofs.v
theories/proofs/SharedProofs.v
theories/proofs/SharingProofs.v
theories/proofs/SlicesProofs.v
theories/proofs/StampProofs.v
theories/proofs/StampedProofs.v
theories/proofs/StartProofs.v
theories/proofs/StoreProofs.v
theories/proofs/TarballProofs.v
theories/proofs/TestLogsProofs.v
theories/proofs/TogetherEnd.v
theories/proofs/TogetherProofs.v
theories/proofs/ToolsProofs.v
theories/proofs/ToyR.v
theories/proofs/UnpackersProofs.v
theories/proofs/UrlProofs.v
theories/proofs/ValProofs.v
theories/proofs/VersionProofs.v
theories/proofs/WayProofs.v
theories/proofs/WebProofs.v
theories/proofs/WholeProofs.v
theories/proofs/YmlProofs.v
theories/props/P_Again.v
theories/props/P_Apart.v
theories/props/P_Builds.v
theories/props/P_Calls.v
theories/props/P_Clean.v
theories/props/P_Cli.v
theories/props/P_Cmd.v
theories/props/P_Config.v
theories/props/P_Control.v
theories/props/P_Copy.v
theories/props/P_Customs.v
theories/props/P_DbCache.v
theories/props/P_Docs.v
theories/props/P_Download.v
theories/props/P_Env.v
theories/props/P_Exact.v
theories/props/P_Exact10.v
theories/props/P_Exact11.v
theories/props/P_Exact12.v
theories/props/P_Exact13.v
theories/props/P_Exact14.v
theories/props/P_Exact15.v
theories/props/P_Exact16.v
theories/props/P_Exact2.v
theories/props/P_Exact3.v
theories/props/P_Exact4.v
theories/props/P_Exact5.v
theories/props/P_Exact6.v
theories/props/P_Exact7.v
theories/props/P_Exact8.v
theories/props/P_Exact9.v
theories/props/P_Extract.v
theories/props/P_Fetchers.v
theories/props/P_Fetching.v
theories/props/P_Flags.v
theories/props/P_Graph.v
theories/props/P_Helpers.v
theories/props/P_Inspect.v
theories/props/P_Install.v
theories/props/P_InstallLine.v
theories/props/P_Json.v
theories/props/P_Large.v
theories/props/P_Library.v
theories/props/P_Line.v
theories/props/P_Lines.v
theories/props/P_Load.v
theories/props/P_LoadCmd.v
theories/props/P_LoadLine.v
theories/props/P_Log.v
theories/props/P_NoRollback.v
theories/props/P_Origin.v
theories/props/P_PlanLine.v
theories/props/P_Preview.v
theories/props/P_Records.v
theories/props/P_Repo.v
theories/props/P_Report.v
theories/props/P_Reread.v
theories/props/P_Rest.v
theories/props/P_Runs.v
theories/props/P_Sched.v
theories/props/P_Shared.v
theories/props/P_Sharing.v
theories/props/P_Slices.v
theories/props/P_Stamp.v
theories/props/P_Stamped.v
theories/props/P_Start.v
theories/props/P_Status.v
theories/props/P_Store.v
theories/props/P_Tarball.v
theories/props/P_Temp.v
theories/props/P_TestLogs.v
theories/props/P_TestRun.v
theories/props/P_Together.v
theories/props/P_Tools.v
theories/props/P_Unpackers.v
theories/props/P_Url.v
theories/props/P_Val.v
theories/props/P_Version.v
theories/props/P_ViewLine.v
theories/props/P_Web.v
theories/props/P_Yml.v
theories/spec/AgainSpec.v
theories/spec/ApartSpec.v
theories/spec/BuildsSpec.v
theories/spec/CallsSpec.v
theories/spec/CleanSpec.v
theories/spec/CliSpec.v
theories/spec/ConfigSpec.v
theories/spec/ControlSpec.v
theories/spec/CopySpec.v
theories/spec/CustomsSpec.v
theories/spec/DbCacheSpec.v
theories/spec/DocsSpec.v
theories/spec/DownloadSpec.v
theories/spec/EndSpec.v
theories/spec/EnvSpec.v
theories/spec/Exact3Spec.v
theories/spec/Exact4Spec.v
theories/spec/Exact7Spec.v
theories/spec/Exact8Spec.v
theories/spec/ExactSpec.v
theories/spec/ExpandSpec.v
theories/spec/ExtractSpec.v
theories/spec/FetchSpec.v
theories/spec/FetchersSpec.v
theories/spec/FetchingSpec.v
theories/spec/FlagSpec.v
theories/spec/GraphSpec.v
theories/spec/InspectSpec.v
theories/spec/InstallLineSpec.v
theories/spec/InstallSpec.v
theories/spec/JsonSpec.v
theories/spec/LibSpec.v
theories/spec/LineSpec.v
theories/spec/LinesSpec.v
theories/spec/LoadCmdSpec.v
theories/spec/LoadLineSpec.v
theories/spec/LoadSpec.v
theories/spec/LogSpec.v
theories/spec/OriginSpec.v
theories/spec/OsReleaseSpec.v
theories/spec/PlanLineSpec.v
theories/spec/PlanSpec.v
theories/spec/PreviewSpec.v
theories/spec/RecordsSpec.v
theories/spec/RepoSpec.v
theories/spec/ReportSpec.v
theories/spec/RereadSpec.v
theories/spec/RollbackSpec.v
theories/spec/RunsSpec.v
theories/spec/SchedSpec.v
theories/spec/SharedSpec.v
theories/spec/SharingSpec.v
theories/spec/SlicesSpec.v
theories/spec/StampSpec.v
theories/spec/StampedSpec.v
theories/spec/StartSpec.v
theories/spec/StatusSpec.v
theories/spec/StoreSpec.v
theories/spec/StrSpec.v
theories/spec/TarballSpec.v
theories/spec/TempSpec.v
theories/spec/TestLogsSpec.v
theories/spec/TogetherSpec.v
theories/spec/ToolsSpec.v
theories/spec/UnpackersSpec.v
theories/spec/UrlSpec.v
theories/spec/ValSpec.v
theories/spec/VersionSpec.v
theories/spec/WebSpec.v
theories/spec/YmlSpec.v
