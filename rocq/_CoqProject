-Q theories Verif
theories/Base.v
theories/Vlq.v
theories/SpecVlq.v
theories/VlqProofs.v
theories/Strings.v
theories/Tables.v
theories/Event.v
theories/Marshal.v
theories/Parse.v
theories/Track.v
theories/File.v
theories/Validate.v
theories/SpecValidate.v
theories/ValidateProofs.v
theories/Transpose.v
theories/SpecKey.v
theories/SpecTranspose.v
theories/SpecEvent.v
theories/SpecFile.v
theories/SpecPacket.v
theories/SpecTrack.v
theories/SpecHistory.v
theories/SpecCrash.v
theories/SpecFramed.v
theories/ParseProofs.v
theories/EncodeProofs.v
theories/DecodeProofs.v
theories/FileProofs.v
theories/Manufacturer.v
theories/SpecSurvive.v
theories/EventProofs.v
theories/TrackProofs.v
theories/SpecDecimal.v
theories/DecimalProofs.v
theories/SpecNote.v
theories/NoteProofs.v
theories/HistoryProofs.v
theories/CrashProofs.v
theories/SpecDecoded.v
theories/DecodedProofs.v
theories/Samples.v
theories/LossSamples.v
theories/SampleProofs.v
theories/TransposeProofs.v
theories/TransposeFileProofs.v
theories/TransposeTwiceProofs.v
theories/Notes.v
theories/SpecNotes.v
theories/NotesProofs.v
theories/NotesTimeProofs.v
theories/Assemble.v
theories/Pipeline.v
theories/SpecAssemble.v
theories/AssembleProofs.v
theories/PipelineProofs.v
theories/Utf8.v
theories/Hex.v
theories/Disassemble.v
theories/Tsv.v
theories/SpecText.v
theories/SpecTable.v
theories/Utf8Proofs.v
theories/HexProofs.v
theories/TsvProofs.v
theories/DisassembleProofs.v
theories/Regex.v
theories/TextEvent.v
theories/TextAssemble.v
theories/SpecRead.v
theories/RegexProofs.v
theories/TextProofs.v
theories/TextReadProofs.v
theories/TextFileProofs.v
theories/NoteNameProofs.v
theories/ReadSamples.v
theories/ReassembleProofs.v
theories/TextCrashProofs.v
theories/ReassembleSamples.v
theories/Json.v
theories/SpecJson.v
theories/JsonProofs.v
theories/JsonFileProofs.v
theories/JsonCrashProofs.v
theories/JsonSamples.v
theories/PropVlq.v
theories/PropEvent.v
theories/PropTrack.v
theories/PropFile.v
theories/PropCrash.v
theories/PropValidate.v
theories/PropTranspose.v
theories/PropNotes.v
theories/PropAssemble.v
theories/PropTable.v
theories/PropText.v
theories/PropReassemble.v
theories/FeederProofs.v
theories/FeederSamples.v
theories/PropPipeline.v
theories/PropJson.v
theories/Unmarshal.v
theories/SpecUnmarshal.v
theories/UnmarshalProofs.v
theories/PropUnmarshal.v
theories/JsonText.v
theories/SpecJsonText.v
theories/JsonTextProofs.v
theories/JsonWriteProofs.v
theories/JsonExportProofs.v
theories/JsonReadProofs.v
theories/PropJsonText.v
theories/Csv.v
theories/SpecCsv.v
theories/CsvProofs.v
theories/PropCsv.v
theories/NotesPrint.v
theories/SpecDuration.v
theories/DurationProofs.v
theories/NotesPrintProofs.v
theories/PropNotesPrint.v
theories/Float.v
theories/SpecFloat.v
theories/FloatProofs.v
theories/NotesJson.v
theories/NotesJsonProofs.v
theories/PropNotesJson.v
theories/Flags.v
theories/Paths.v
theories/Help.v
theories/Cli.v
theories/SpecCli.v
theories/FlagProofs.v
theories/FlagConverse.v
theories/CliProofs.v
theories/CliTripProofs.v
theories/CliSplitProofs.v
theories/CliSamples.v
theories/PropCli.v
theories/Conf.v
theories/SpecConf.v
theories/ConfProofs.v
theories/ConfSamples.v
theories/PropConf.v
theories/SpecSays.v
theories/SaysProofs.v
theories/PropSays.v
theories/Memory.v
theories/SpecMemory.v
theories/MemoryProofs.v
theories/PropMemory.v
theories/SpecLine.v
theories/LineProofs.v
theories/LineReadProofs.v
theories/LineSamples.v
theories/PropLine.v
theories/SpecJsonEvent.v
theories/JsonEventProofs.v
theories/PropJsonEvent.v
theories/SpecSource.v
theories/SourceProofs.v
theories/SourceTextProofs.v
theories/SourceSamples.v
theories/PropSource.v
theories/Reference.v
theories/Conformance.v
theories/ConformanceEvents.v
theories/ConformanceLib.v
theories/Template.v
theories/TemplateLoad.v
theories/SpecTemplate.v
theories/TemplateProofs.v
theories/TemplateLoadProofs.v
theories/TemplateSamples.v
theories/PropTemplate.v
theories/SpecRun.v
theories/TsvBytesProofs.v
theories/RunProofs.v
theories/RunCommandProofs.v
theories/SpecRunTemplate.v
theories/RunTemplateProofs.v
theories/RunSamples.v
theories/PropRun.v
theories/SpecExport.v
theories/ExportProofs.v
theories/ListingProofs.v
theories/ExportSamples.v
theories/PropExport.v
theories/SpecSameNotes.v
theories/SameNotesProofs.v
theories/SpecSameReports.v
theories/SameReportsProofs.v
theories/SameSamples.v
theories/PropSameNotes.v
theories/SpecHelp.v
theories/HelpProofs.v
theories/HelpSamples.v
theories/PropHelp.v
theories/SpecRoutes.v
theories/SettledProofs.v
theories/RoutesProofs.v
theories/RoutesSamples.v
theories/PropRoutes.v
theories/SpecIdle.v
theories/IdleProofs.v
theories/IdleSamples.v
theories/PropIdle.v
theories/SpecSameJson.v
theories/SameJsonProofs.v
theories/SameJsonSamples.v
theories/PropSameJson.v
theories/SpecNames.v
theories/NamesProofs.v
theories/NamesNotesProofs.v
theories/NamesRunsProofs.v
theories/NamesConfProofs.v
theories/NamesSamples.v
theories/PropNames.v
theories/TransposeWork.v
theories/SpecTransposeWork.v
theories/TransposeWorkProofs.v
theories/PropTransposeWork.v
theories/SpecUserTemplate.v
theories/UserLexProofs.v
theories/UserParseProofs.v
theories/UserTemplateProofs.v
theories/SpecUserListing.v
theories/UserListingProofs.v
theories/UserTemplateSamples.v
theories/PropUserTemplate.v
theories/Log.v
theories/NotesLog.v
theories/SpecNotesLog.v
theories/NotesLogProofs.v
theories/NotesLevelProofs.v
theories/NotesLogSamples.v
theories/PropNotesLog.v
theories/ValidateText.v
theories/SpecValidateText.v
theories/ValidateTextProofs.v
theories/PropValidateText.v
theories/Stderr.v
theories/SpecStderr.v
theories/StderrProofs.v
theories/PropStderr.v
theories/SpecExit.v
theories/ExitProofs.v
theories/PropExit.v
theories/LibText.v
theories/SpecLibText.v
theories/LibTextProofs.v
theories/PropLibText.v
theories/SpecColumns.v
theories/ColumnsProofs.v
theories/ColumnsSamples.v
theories/PropColumns.v
theories/SpecJsonEnd.v
theories/JsonEndProofs.v
theories/JsonEndRunProofs.v
theories/PropJsonEnd.v
theories/SpecTextEnd.v
theories/TextShapeProofs.v
theories/TextLineProofs.v
theories/TextEndProofs.v
theories/TextEndRunProofs.v
theories/PropTextEnd.v
theories/SpecLayout.v
theories/LayoutProofs.v
theories/SpecFields.v
theories/FieldsProofs.v
theories/PropLayout.v
theories/Typed.v
theories/SpecTyped.v
theories/TypedProofs.v
theories/PropTyped.v
theories/SpecSameSong.v
theories/SameSongProofs.v
theories/SameSongSamples.v
theories/PropSameSong.v
theories/SpecRewritten.v
theories/RewrittenProofs.v
theories/RewrittenSamples.v
theories/RewrittenRoutes.v
theories/PropRewritten.v
theories/SpecChannels.v
theories/ChannelProofs.v
theories/ChannelUseProofs.v
theories/ChannelSamples.v
theories/PropChannels.v
theories/SpecPace.v
theories/PaceProofs.v
theories/PaceUseProofs.v
theories/PaceSamples.v
theories/PropPace.v
theories/Stdout.v
theories/SpecStdout.v
theories/StdoutProofs.v
theories/PropStdout.v
theories/SpecSilent.v
theories/SilentProofs.v
theories/PropSilent.v
theories/SpecHelpOwn.v
theories/HelpOwnProofs.v
theories/SpecNumbers.v
theories/NumbersProofs.v
theories/PropNumbers.v
theories/SpecSlower.v
theories/SlowerProofs.v
theories/PropSlower.v
theories/SpecTrackOrder.v
theories/TrackOrderProofs.v
theories/PropTrackOrder.v
theories/SpecDynamics.v
theories/DynamicsProofs.v
theories/PropDynamics.v
theories/SpecJoined.v
theories/JoinedProofs.v
theories/PropJoined.v
theories/SpecRest.v
theories/RestProofs.v
theories/RestSamples.v
theories/PropRest.v
theories/SpecDivided.v
theories/DividedProofs.v
theories/SpecDividedTime.v
theories/DividedTimeProofs.v
theories/DividedSamples.v
theories/PropDivided.v
theories/SpecRepeat.v
theories/RepeatProofs.v
theories/PropRepeat.v
theories/SpecScaled.v
theories/ScaledProofs.v
theories/PropScaled.v
theories/SpecKeyed.v
theories/KeyedProofs.v
theories/PropKeyed.v
theories/SpecMuted.v
theories/MutedProofs.v
theories/MutedTimeProofs.v
theories/MutedSamples.v
theories/PropMuted.v
theories/SpecPiped.v
theories/PipedProofs.v
theories/PropPiped.v
theories/SpecReleased.v
theories/ReleasedProofs.v
theories/PropReleased.v
