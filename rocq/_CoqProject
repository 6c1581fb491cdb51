-Q theories Verif
theories/Model/Base.v
theories/Model/Solver.v
theories/Model/Value.v
theories/Model/PlanModel.v
theories/Spec/GraphSpec.v
theories/Spec/SqlSem.v
theories/Model/SqlAlgebra.v
theories/Model/PlanBuild.v
theories/Proofs/BaseFacts.v
theories/Proofs/GraphFacts.v
theories/Proofs/SolverTopo.v
theories/Proofs/SolverDfs.v
theories/Proofs/SolverOrder.v
theories/Proofs/StrOrder.v
theories/Proofs/SolverMain.v
theories/Proofs/SolverExamples.v
theories/Props/SolverProps.v
theories/Proofs/SimplifyFacts.v
theories/Proofs/BuildFacts.v
theories/Props/PlanModelProps.v
theories/Model/Names.v
theories/Model/Fnmatch.v
theories/Model/PyCompare.v
theories/Model/Metadata.v
theories/Model/Planner.v
theories/Spec/SchemaSpec.v
theories/Proofs/NameFacts.v
theories/Proofs/MetadataFacts.v
theories/Proofs/MetadataMain.v
theories/Props/MetadataProps.v
theories/Spec/PlannerSpec.v
theories/Proofs/PlannerEdit.v
theories/Proofs/PlannerGraph.v
theories/Proofs/PlannerTables.v
theories/Proofs/PlannerMain.v
theories/Proofs/PlannerSem.v
theories/Proofs/PlannerFinal.v
theories/Proofs/PlannerWrap.v
theories/Proofs/PlannerDet.v
theories/Proofs/PlannerExamples.v
theories/Props/PlannerProps.v
theories/Model/TempNames.v
theories/Spec/NameSpec.v
theories/Proofs/TempNamesFacts.v
theories/Props/TempNameProps.v
theories/Model/Multiply.v
theories/Spec/MultiplySpec.v
theories/Proofs/MultiplyFacts.v
theories/Proofs/MultiplyMain.v
theories/Props/MultiplyProps.v
theories/Model/Filters.v
theories/Model/Materialize.v
theories/Model/Dest.v
theories/Model/Output.v
theories/Model/Json.v
theories/Model/Sampler.v
theories/Model/Config.v
theories/Model/PlanIO.v
theories/Spec/SampleSpec.v
theories/Proofs/BuildRefs.v
theories/Proofs/MaterializeOrder.v
theories/Proofs/MaterializeRun.v
theories/Proofs/SemCong.v
theories/Proofs/SampleRun.v
theories/Proofs/CompactRun.v
theories/Proofs/SampleTotal.v
theories/Proofs/SampleFinal.v
theories/Proofs/PlanRun.v
theories/Proofs/SampleExamples.v
theories/Props/SampleProps.v
theories/Props/WholeProps.v
theories/Proofs/CompactColumns.v
theories/Spec/FilterSpec.v
theories/Proofs/FilterFacts.v
theories/Proofs/FilterMain.v
theories/Props/FilterProps.v
theories/Spec/OutputSpec.v
theories/Spec/RunSpec.v
theories/Spec/RerunSpec.v
theories/Proofs/OutputRows.v
theories/Proofs/OutputRun.v
theories/Proofs/OutputDb.v
theories/Proofs/OutputCreate.v
theories/Proofs/OutputCopy.v
theories/Proofs/OutputSample.v
theories/Proofs/OutputMain.v
theories/Proofs/OutputColumn.v
theories/Proofs/OutputMerge.v
theories/Proofs/OutputKeys.v
theories/Proofs/OutputEvents.v
theories/Spec/ConflictSpec.v
theories/Proofs/ConflictFacts.v
theories/Proofs/OutputMore.v
theories/Proofs/OutputRerun.v
theories/Proofs/OutputDirectory.v
theories/Proofs/OutputPrepare.v
theories/Proofs/OutputExamples.v
theories/Props/OutputProps.v
theories/Props/RunProps.v
theories/Spec/ConfigSpec.v
theories/Spec/PlanIOSpec.v
theories/Proofs/ConfigFacts.v
theories/Proofs/ConnectFacts.v
theories/Proofs/PlanIOFacts.v
theories/Proofs/PlanIOPlanner.v
theories/Props/ConfigProps.v
theories/Props/PlanIOProps.v
theories/Spec/WholeSpec.v
theories/Proofs/WholeRun.v
theories/Proofs/WholeFk.v
theories/Props/WholeRunProps.v
theories/Model/ConfigIO.v
theories/Model/Main.v
theories/Spec/CliSpec.v
theories/Spec/ProcessSpec.v
theories/Proofs/CliFacts.v
theories/Proofs/TwoSteps.v
theories/Proofs/SamePlan.v
theories/Proofs/ConfigLoad.v
theories/Proofs/CliEnv.v
theories/Props/CliProps.v
theories/Proofs/Processes.v
theories/Props/ProcessProps.v
theories/Spec/ConfigDocSpec.v
theories/Proofs/ConfigDoc.v
theories/Props/ConfigDocProps.v
theories/Spec/ConfigWaysSpec.v
theories/Proofs/ConfigWays.v
theories/Props/ConfigWaysProps.v
theories/Spec/CompactWholeSpec.v
theories/Spec/CompleteSpec.v
theories/Proofs/WholeCompact.v
theories/Props/CompactWholeProps.v
theories/Spec/CopiesSpec.v
theories/Proofs/CopiesInsert.v
theories/Proofs/WholeCopies.v
theories/Props/CopiesProps.v
theories/Proofs/Complete.v
theories/Proofs/CompleteRun.v
theories/Spec/FinishSpec.v
theories/Proofs/FinishRows.v
theories/Proofs/FinishStart.v
theories/Proofs/Finish.v
theories/Props/CompleteProps.v
theories/Props/FinishProps.v
theories/Spec/MomentsSpec.v
theories/Spec/SameSpec.v
theories/Spec/JsonSpec.v
theories/Proofs/JsonFacts.v
theories/Props/JsonProps.v
theories/Proofs/Lockstep.v
theories/Proofs/Moments.v
theories/Props/MomentsProps.v
theories/Spec/HiddenSpec.v
theories/Proofs/HiddenSem.v
theories/Proofs/HiddenRun.v
theories/Proofs/Hidden.v
theories/Proofs/HiddenPlan.v
theories/Props/HiddenProps.v
theories/Spec/RepeatSpec.v
theories/Proofs/RepeatRows.v
theories/Proofs/Repeat.v
theories/Props/RepeatProps.v
theories/Model/Live.v
theories/Spec/LiveSpec.v
theories/Proofs/LiveRun.v
theories/Proofs/LiveWhole.v
theories/Proofs/LiveFk.v
theories/Props/LiveProps.v
theories/Model/Isolation.v
theories/Proofs/IsolationFacts.v
theories/Props/IsolationProps.v
theories/Spec/WidenSpec.v
theories/Spec/ScalarSpec.v
theories/Proofs/Scalars.v
theories/Spec/PlanDocSpec.v
theories/Spec/ListingSpec.v
theories/Spec/ReadsSpec.v
theories/Spec/ReasonSpec.v
theories/Spec/PatternSpec.v
theories/Spec/ConditionSpec.v
theories/Spec/AgainSpec.v
theories/Proofs/Widen.v
theories/Proofs/Again.v
theories/Proofs/AgainRun.v
theories/Proofs/PlanDoc.v
theories/Proofs/FkOrder.v
theories/Proofs/PlannerSame.v
theories/Proofs/ReadsOnly.v
theories/Proofs/Reasons.v
theories/Proofs/ReasonsRun.v
theories/Proofs/PatternFacts.v
theories/Proofs/PatternTables.v
theories/Proofs/ConditionFacts.v
theories/Proofs/ConditionRun.v
theories/Props/WidenProps.v
theories/Props/AgainProps.v
theories/Props/PlanDocProps.v
theories/Props/ListingProps.v
theories/Props/ReadsProps.v
theories/Props/ReasonProps.v
theories/Props/ReasonRunProps.v
theories/Props/PatternProps.v
theories/Props/ConditionProps.v
theories/Spec/HistorySpec.v
theories/Proofs/History.v
theories/Props/HistoryProps.v
theories/Spec/SharedSpec.v
theories/Proofs/Shared.v
theories/Props/SharedProps.v
theories/Spec/RunKeysSpec.v
theories/Proofs/RunKeys.v
theories/Props/RunKeysProps.v
theories/Model/Args.v
theories/Spec/ArgsSpec.v
theories/Spec/KeepSpec.v
theories/Proofs/ArgsFacts.v
theories/Proofs/ArgsLine.v
theories/Proofs/ArgsParse.v
theories/Proofs/ArgsHelp.v
theories/Proofs/KeepRun.v
theories/Proofs/KeepMain.v
theories/Props/ArgsProps.v
