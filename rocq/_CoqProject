-Q theories Verif
theories/PyBase.v
theories/SolverModel.v
theories/SpecGraph.v
theories/InvertProofs.v
theories/DfsProofs.v
theories/SolverProofs.v
theories/PropertiesSolver.v
theories/InvokerModel.v
theories/SpecTrace.v
theories/InvokerProofs.v
theories/InvokerInv.v
theories/InvokerThms.v
theories/InvokerExec.v
theories/InvokerExamples.v
theories/PropertiesInvoker.v
theories/InvokerPath.v
theories/CoreModel.v
theories/SpecCore.v
theories/CoreProofs.v
theories/NeedProofs.v
theories/RuProofs.v
theories/CoreThms.v
theories/ExtProofs.v
theories/CoreExamples.v
theories/PropertiesCore.v
theories/PyPath.v
theories/MakeModel.v
theories/MakeEval.v
theories/SpecMake.v
theories/MakeProofs.v
theories/MakeFacts.v
theories/MakeBuild.v
theories/MakeStatus.v
theories/MakeThms.v
theories/MakeTimes.v
theories/MakeClean.v
theories/MakeClaims.v
theories/MakeExec.v
theories/MakeExamples.v
theories/PropertiesMake.v
theories/PathProofs.v
theories/UtilModel.v
theories/FormatModel.v
theories/SpecUtil.v
theories/UtilProofs.v
theories/PropertiesUtil.v
theories/RegModel.v
theories/SpecReg.v
theories/RegProofs.v
theories/RegScript.v
theories/RegBuild.v
theories/RegTotal.v
theories/RegCopy.v
theories/RegExamples.v
theories/PropertiesReg.v
theories/ProcessModel.v
theories/SpecProcess.v
theories/ProcessProofs.v
theories/Utf8Proofs.v
theories/ShellModel.v
theories/SpecShell.v
theories/ShellProofs.v
theories/PropertiesExec.v
theories/ModulesModel.v
theories/SpecModules.v
theories/ModulesProofs.v
theories/CollectProofs.v
theories/CollectTerm.v
theories/ModulesExamples.v
theories/PropertiesModules.v
theories/CxxModel.v
theories/SpecCxx.v
theories/CxxProofs.v
theories/CxxPaths.v
theories/CxxMakeProofs.v
theories/CxxExamples.v
theories/PropertiesCxx.v
theories/CliModel.v
theories/SpecCli.v
theories/CliProofs.v
theories/CliExamples.v
theories/PropertiesCli.v
theories/ScriptModel.v
theories/SpecScript.v
theories/ScriptProofs.v
theories/PropertiesScript.v
theories/LibsModel.v
theories/SpecLibs.v
theories/LibsProofs.v
theories/PropertiesLibs.v
theories/InstallModel.v
theories/SpecInstall.v
theories/InstallProofs.v
theories/PropertiesInstall.v
theories/SpecProject.v
theories/ProjectProofs.v
theories/BuildSafe.v
theories/ProjectBuild.v
theories/ProjectExamples.v
theories/ImportProofs.v
theories/PropertiesImport.v
theories/PropertiesProject.v
theories/SpecTrack.v
theories/TrackProofs.v
theories/SpecCxxTrack.v
theories/CxxTrack.v
theories/TrackExamples.v
theories/SpecCxxScript.v
theories/CxxItems.v
theories/PropertiesTrack.v
theories/IdleProofs.v
theories/CxxIdle.v
theories/IdleExamples.v
theories/PropertiesIdle.v
theories/SpecEdit.v
theories/EditProofs.v
theories/EditExamples.v
theories/PropertiesEdit.v
theories/ToolModel.v
theories/SpecTool.v
theories/ToolProofs.v
theories/PropertiesTool.v
theories/InfoModel.v
theories/SpecInfo.v
theories/InfoProofs.v
theories/PropertiesInfo.v
theories/JavaModel.v
theories/SpecJava.v
theories/JavaProofs.v
theories/JavaExamples.v
theories/PropertiesJava.v
theories/SpecPrograms.v
theories/TwiceProofs.v
theories/ProgramsModel.v
theories/ProgramsProofs.v
theories/ProgramsExamples.v
theories/PropertiesPrograms.v
theories/CommandModel.v
theories/SpecCommand.v
theories/CommandProofs.v
theories/CommandExamples.v
theories/PropertiesCommand.v
theories/InterruptModel.v
theories/InterruptProofs.v
theories/InterruptBuild.v
theories/InterruptExamples.v
theories/PropertiesInterrupt.v
theories/SpecCxxCommand.v
theories/CxxCommandProofs.v
theories/CxxCommandExamples.v
theories/PropertiesCxxCommand.v
theories/WalkModel.v
theories/SpecWalk.v
theories/WalkProofs.v
theories/PropertiesWalk.v
theories/SpecInstalled.v
theories/InstalledProofs.v
theories/InstalledExamples.v
theories/InstalledEdits.v
theories/PropertiesInstalled.v
theories/RepoTests.v
theories/SpecMakeCore.v
theories/MakeCoreProofs.v
theories/MakeCoreBuild.v
theories/MakeCoreExamples.v
theories/PropertiesMakeCore.v
theories/SpecRoutine.v
theories/RoutineProofs.v
theories/RoutineBuild.v
theories/RoutineExamples.v
theories/PropertiesRoutine.v
theories/SpecSession.v
theories/SessionProofs.v
theories/SessionExamples.v
theories/PropertiesSession.v
theories/CoreArgModel.v
theories/CoreArgProofs.v
theories/PropertiesCoreArg.v
theories/FineModel.v
theories/FineProofs.v
theories/SpecFine.v
theories/FineBuild.v
theories/FineExamples.v
theories/FineUndeclared.v
theories/SpecCxxFine.v
theories/CxxFine.v
theories/CxxFineExamples.v
theories/PropertiesFine.v
theories/SpecCrowd.v
theories/CrowdProofs.v
theories/CrowdBuild.v
theories/CrowdExamples.v
theories/PropertiesCrowd.v
theories/SpecElsewhere.v
theories/ElsewhereProofs.v
theories/ElsewhereBuild.v
theories/ElsewhereExamples.v
theories/PropertiesElsewhere.v
theories/DecorModel.v
theories/SpecDecor.v
theories/DecorProofs.v
theories/PropertiesDecor.v
theories/PackageModel.v
theories/PropertiesPackage.v
theories/SpecAround.v
theories/AroundProofs.v
theories/AroundExamples.v
theories/PropertiesAround.v
theories/SpecOrder.v
theories/OrderProofs.v
theories/PropertiesOrder.v
theories/SpecOptions.v
theories/OptionsProofs.v
theories/PropertiesOptions.v
theories/CollectTraceModel.v
theories/SpecCollectTrace.v
theories/CollectTraceProofs.v
theories/PropertiesCollectTrace.v
theories/CrossModel.v
theories/SpecCross.v
theories/PropertiesCross.v
theories/KindModel.v
theories/PropertiesKind.v
theories/PropertiesDepends.v
