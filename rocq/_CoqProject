-Q theories Verif

theories/Py.v
theories/Codec.v
theories/PyTime.v
theories/Utils.v
theories/Sha256.v
theories/Header.v
theories/StringData.v
theories/Targets.v
theories/Info.v
theories/Extra.v
theories/LnkFile.v
theories/Json.v
theories/Report.v
theories/Lemmas.v
theories/Spec.v
theories/OutcomeProofs.v
theories/LayoutProofs.v
theories/CoreProofs.v
theories/SpecHeader.v
theories/SpecTime.v
theories/FormatProofs.v
theories/EncProofs.v
theories/HeaderProofs.v
theories/TimeProofs.v
theories/ApiProofs.v
theories/WarnProofs.v
theories/SpecText.v
theories/TextProofs.v
theories/ConstructProofs.v
theories/StringProofs.v
theories/SpecItems.v
theories/ItemProofs.v
theories/RoundProofs.v
theories/PropertiesCore.v
theories/HeaderFileProofs.v
theories/PropertiesHeader.v
theories/PropertiesText.v
theories/PropertiesItems.v
theories/SpecExtra.v
theories/ExtraProofs.v
theories/ExtraListProofs.v
theories/ExtraFileProofs.v
theories/PropertiesExtra.v
theories/SpecInfo.v
theories/InfoProofs.v
theories/InfoFileProofs.v
theories/PropertiesInfo.v
theories/SpecReport.v
theories/ShapeProofs.v
theories/ReportProofs.v
theories/JsonProofs.v
theories/SpecCommand.v
theories/CommandProofs.v
theories/MainProofs.v
theories/PropertiesReport.v
theories/SpecReadable.v
theories/ReadableProofs.v
theories/PropertiesReadable.v
theories/SpecLink.v
theories/LinkProofs.v
theories/PropertiesLink.v
theories/SpecPages.v
theories/PagesProofs.v
theories/PropertiesPages.v
theories/SpecSha.v
theories/ShaProofs.v
theories/DigestProofs.v
theories/PropertiesDigest.v
theories/Readable.v
theories/SpecIndent.v
theories/IndentProofs.v
theories/PropertiesIndent.v
theories/Heap.v
theories/SpecHistory.v
theories/HeapProofs.v
theories/HistoryProofs.v
theories/PropertiesHistory.v
theories/SpecSize.v
theories/SizeProofs.v
theories/GrowthProofs.v
theories/PropertiesSize.v
theories/SpecOutcome.v
theories/ExactProofs.v
theories/PropertiesOutcome.v
theories/SpecEntries.v
theories/EntryProofs.v
theories/SpecBlocks.v
theories/AnyBlockProofs.v
theories/SpecCube.v
theories/CubeProofs.v
theories/PropertiesCube.v
theories/TriedProofs.v
theories/SpecDouble.v
theories/DoubleProofs.v
theories/OrderProofs.v
theories/SpecWhole.v
theories/WholeProofs.v
theories/PropertiesWhole.v
theories/PropertiesDouble.v
theories/SpecFailure.v
theories/FailureProofs.v
theories/PropertiesFailure.v
theories/SpecUnknown.v
theories/UnknownProofs.v
theories/PropertiesUnknown.v
theories/SpecPrefix.v
theories/PrefixProofs.v
theories/PropertiesPrefix.v
theories/SpecJsonText.v
theories/JsonTextProofs.v
theories/PropertiesJsonText.v
theories/SpecRun.v
theories/ClassProofs.v
theories/RunProofs.v
theories/PropertiesRun.v
theories/Threads.v
theories/SpecThreads.v
theories/ThreadProofs.v
theories/ScheduleProofs.v
theories/PropertiesThreads.v
theories/Walk.v
theories/SpecWalk.v
theories/WalkItemProofs.v
theories/WalkBlockProofs.v
theories/WalkProofs.v
theories/PropertiesWalk.v
theories/SpecChars.v
theories/CharsProofs.v
theories/PropertiesChars.v
theories/Fields.v
theories/SpecFields.v
theories/FieldsProofs.v
theories/FieldsReportProofs.v
theories/PropertiesFields.v
theories/Args.v
theories/SpecArgs.v
theories/ArgsProofs.v
theories/SpecProgram.v
theories/ProgramProofs.v
theories/PropertiesArgs.v
theories/Pieces.v
theories/SpecPieces.v
theories/PiecesProofs.v
theories/PiecesBlockProofs.v
theories/PiecesRunProofs.v
theories/PropertiesPieces.v
theories/Again.v
theories/SpecTrace.v
theories/TraceProofs.v
theories/SpecAgain.v
theories/AgainProofs.v
theories/AgainBlockProofs.v
theories/AgainReportProofs.v
theories/AgainRunProofs.v
theories/PropertiesAgain.v
theories/PropertiesTrace.v
theories/Stdout.v
theories/SpecStdout.v
theories/StdoutProofs.v
theories/PropertiesStdout.v
theories/InReportProofs.v
theories/PropertiesInReport.v
theories/SpecBack.v
theories/BackProofs.v
theories/BackItemProofs.v
theories/BackInfoProofs.v
theories/PropertiesBack.v
theories/Call.v
theories/SpecCall.v
theories/CallProofs.v
theories/PropertiesCall.v
theories/SpecFlood.v
theories/FloodProofs.v
theories/FloodInitProofs.v
theories/PropertiesFlood.v
theories/SpecPatch.v
theories/PatchProofs.v
theories/PropertiesPatch.v
theories/SpecAdd.v
theories/AddProofs.v
theories/PropertiesAdd.v
theories/SpecSilence.v
theories/SilenceProofs.v
theories/PropertiesSilence.v
theories/SpecPrinted.v
theories/PrintedProofs.v
theories/PropertiesPrinted.v
theories/SpecSchema.v
theories/SchemaProofs.v
theories/SchemaUseProofs.v
theories/PropertiesSchema.v
