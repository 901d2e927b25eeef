-Q theories Verif
theories/PyStr.v
theories/PyStrFacts.v
theories/TokenizerModel.v
theories/TokenizerSpec.v
theories/TokenizerProofs.v
theories/TokenizerProps.v
theories/CaseRunModel.v
theories/ReaderProofs.v
theories/CaseRunSpec.v
theories/CaseRunProofs.v
theories/CaseRunFacts.v
theories/CaseRunLines.v
theories/CaseRunProps.v
theories/FsModel.v
theories/FsFacts.v
theories/ReportsModel.v
theories/ReportsSpec.v
theories/ReportsProofs.v
theories/ReportsProps.v
theories/ReviewModel.v
theories/ReviewSpec.v
theories/ReviewProofs.v
theories/ReviewLoop.v
theories/RunnerModel.v
theories/RunnerSpec.v
theories/RunnerProofs.v
theories/ReviewProps.v
theories/RunnerProps.v
theories/SelectModel.v
theories/SelectSpec.v
theories/SelectProofs.v
theories/SelectProps.v
theories/CacheModel.v
theories/CacheSpec.v
theories/CacheProofs.v
theories/CacheResults.v
theories/CacheIsolation.v
theories/CacheProps.v
theories/CacheNoneProps.v
theories/SchedModel.v
theories/SchedSpec.v
theories/SchedProofs.v
theories/SchedAccount.v
theories/SchedResults.v
theories/SchedValues.v
theories/SchedProps.v
theories/SchedExactProps.v
theories/SchedCrashModel.v
theories/SchedCrashProps.v
theories/EnvModel.v
theories/EnvProofs.v
theories/EnvProps.v
theories/SuiteModel.v
theories/SuiteProofs.v
theories/SuiteProps.v
theories/ConfigModel.v
theories/ConfigProofs.v
theories/ConfigProps.v
theories/ConfigExactProps.v
theories/FormatModel.v
theories/FormatProofs.v
theories/FormatProps.v
theories/LifeModel.v
theories/LifeProps.v
theories/FuncModel.v
theories/FuncProofs.v
theories/FuncProps.v
theories/HttpModel.v
theories/HttpProofs.v
theories/HttpHash.v
theories/HttpProps.v
theories/SectionModel.v
theories/SectionProofs.v
theories/SectionProps.v
theories/TsetProofs.v
theories/TsetProps.v
theories/MarksProps.v
theories/RepeatModel.v
theories/RepeatProofs.v
theories/RepeatProps.v
theories/RepeatExactProps.v
theories/CheckedModel.v
theories/CheckedProofs.v
theories/CheckedProps.v
theories/AnchorProofs.v
theories/AnchorProps.v
theories/RunCaseModel.v
theories/RunCaseSpec.v
theories/RunCaseProofs.v
theories/PointProofs.v
theories/RunCaseProps.v
theories/InterleaveModel.v
theories/InterleaveProofs.v
theories/ParModel.v
theories/ParSpec.v
theories/ParProofs.v
theories/ParProps.v
theories/TableProps.v
theories/ConsoleModel.v
theories/ConsoleProofs.v
theories/ConsoleSpec.v
theories/ConsoleProps.v
theories/CommandsModel.v
theories/CommandsSpec.v
theories/CommandsProofs.v
theories/CommandsProps.v
theories/InfoModel.v
theories/InfoProofs.v
theories/InfoProps.v
theories/JsonModel.v
theories/JsonSpec.v
theories/JsonProofs.v
theories/JsonFacts.v
theories/JsonFilesModel.v
theories/JsonProps.v
theories/JsonTextProps.v
theories/JsonReadProps.v
theories/TformatModel.v
theories/TformatProps.v
theories/BytesModel.v
theories/BytesFacts.v
theories/HttpFilesModel.v
theories/HttpFilesProofs.v
theories/HttpFilesProps.v
theories/HttpExactProps.v
theories/HttpxExactProps.v
theories/CrashModel.v
theories/CrashProps.v
theories/AcceptKillModel.v
theories/HttpListModel.v
theories/HttpListProofs.v
theories/HttpListProps.v
theories/ParConsoleModel.v
theories/ParConsoleProps.v
theories/HttpAsyncModel.v
theories/HttpAsyncProofs.v
theories/HttpAsyncProps.v
theories/DecorModel.v
theories/DecorProps.v
theories/FuncHeapModel.v
theories/FuncHeapProps.v
theories/CliModel.v
theories/CliProps.v
theories/ShellModel.v
theories/ShellProps.v
theories/TmpModel.v
theories/TmpProps.v
theories/ImageModel.v
theories/ImageProps.v
theories/EncodeModel.v
theories/EncodeProps.v
theories/BlocksModel.v
theories/BlocksProps.v
theories/HttpTalkProps.v
theories/HttpSessionModel.v
theories/HttpSessionProps.v
theories/HttpThreadsModel.v
theories/HttpThreadsSpec.v
theories/HttpThreadsProofs.v
theories/HttpThreadsProps.v
theories/HttpThreadsReplayProps.v
theories/ItModel.v
theories/ItProps.v
theories/StoreModel.v
theories/StoreProps.v
theories/AwaitModel.v
theories/AwaitProps.v
theories/HttpOrderProofs.v
theories/HttpOrderProps.v
theories/HttpTestModel.v
theories/HttpTestProofs.v
theories/HttpTestProps.v
theories/RecordProofs.v
theories/RecordProps.v
theories/FuncTestModel.v
theories/FuncTestProofs.v
theories/FuncTestProps.v
theories/FuncFailModel.v
theories/FailProps.v
theories/NestedProps.v
theories/OrderProps.v
theories/PartsProps.v
theories/SubsetProps.v
theories/AnyOrderProps.v
theories/FailFastProps.v
theories/ReviewTextProps.v
theories/EnvTestModel.v
theories/EnvTestProps.v
theories/MainModel.v
theories/MainProps.v
theories/ParMainModel.v
theories/ParMainProps.v
theories/ParRecordProps.v
theories/ParAskModel.v
theories/ParAskProofs.v
theories/ParAskProps.v
theories/ParStopProps.v
theories/ParResumeProofs.v
theories/ParResumeProps.v
theories/KillModel.v
theories/KillProofs.v
theories/KillProps.v
theories/AcceptKillProps.v
theories/AcceptRunModel.v
theories/AcceptRunProps.v
theories/ParKillModel.v
theories/ParKillProofs.v
theories/ParKillProps.v
theories/ParAskConsoleModel.v
theories/ParAskConsoleProps.v
theories/MixModel.v
theories/MixProofs.v
theories/MixProps.v
theories/ArgsModel.v
theories/ArgsSpec.v
theories/ArgsProofs.v
theories/ArgsProps.v
theories/ResourceModel.v
theories/ResourceProps.v
theories/CoverModel.v
theories/CoverProps.v
theories/CoverExactProps.v
theories/ChangedProps.v
theories/VocabProps.v
theories/SuiteExactProps.v
theories/ExactProps.v
theories/Exact2Props.v
theories/SaidProps.v
theories/CodecProps.v
theories/LegacyModel.v
theories/LegacyProps.v
theories/LegacyFileProps.v
