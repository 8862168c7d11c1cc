-Q theories Verif
theories/Base/Outcome.v
theories/Base/Util.v
theories/Model/AirtimeTracker.v
theories/Model/Clock.v
theories/Model/Commands.v
theories/Model/Descriptors.v
theories/Model/Documents.v
theories/Model/EitCollector.v
theories/Model/EitSection.v
theories/Model/EitpfCollector.v
theories/Model/FileSource.v
theories/Model/JsonText.v
theories/Model/Logo.v
theories/Model/Main.v
theories/Model/MetadataFilter.v
theories/Model/Options.v
theories/Model/Pcr.v
theories/Model/PcrSynchronizer.v
theories/Model/PesPrinter.v
theories/Model/PesText.v
theories/Model/PesWall.v
theories/Model/PosixFile.v
theories/Model/ProgramFilter.v
theories/Model/RecorderOption.v
theories/Model/RingFileSink.v
theories/Model/ServiceFilter.v
theories/Model/ServiceRecorder.v
theories/Model/ServiceScanner.v
theories/Model/Sink.v
theories/Model/StartSeeker.v
theories/Model/StdoutSink.v
theories/Model/Ts.v
theories/Proofs/BehindProofs.v
theories/Proofs/BroadcastProofs.v
theories/Proofs/CarouselProofs.v
theories/Proofs/ClockExact.v
theories/Proofs/ClockProofs.v
theories/Proofs/CommandProofs.v
theories/Proofs/ContinuityMain.v
theories/Proofs/ContinuityProgram.v
theories/Proofs/ContinuityProofs.v
theories/Proofs/CutMains.v
theories/Proofs/CutProofs.v
theories/Proofs/DescriptorProofs.v
theories/Proofs/DocumentsProofs.v
theories/Proofs/EitClaims.v
theories/Proofs/EitExact.v
theories/Proofs/EitMain.v
theories/Proofs/EitProofs.v
theories/Proofs/EitSectionProofs.v
theories/Proofs/EitTime.v
theories/Proofs/EventProofs.v
theories/Proofs/FeedProofs.v
theories/Proofs/FilterMain.v
theories/Proofs/FilterProofs.v
theories/Proofs/JsonTextProofs.v
theories/Proofs/LateProofs.v
theories/Proofs/LogoProofs.v
theories/Proofs/LogoRun.v
theories/Proofs/MainProofs.v
theories/Proofs/MomentProofs.v
theories/Proofs/NoiseProofs.v
theories/Proofs/OnAirProofs.v
theories/Proofs/OptionProofs.v
theories/Proofs/OthersJson.v
theories/Proofs/OthersProofs.v
theories/Proofs/PauseProofs.v
theories/Proofs/PcrProofs.v
theories/Proofs/PcrText.v
theories/Proofs/PesProofs.v
theories/Proofs/PesTextProofs.v
theories/Proofs/PesWallProofs.v
theories/Proofs/PfExact.v
theories/Proofs/PfProofs.v
theories/Proofs/PfRun.v
theories/Proofs/PipeJson.v
theories/Proofs/PipeOptions.v
theories/Proofs/PipeProgram.v
theories/Proofs/PipeProofs.v
theories/Proofs/PipeRecord.v
theories/Proofs/PipeSeek.v
theories/Proofs/PipelineMain.v
theories/Proofs/PipelineProofs.v
theories/Proofs/PlacedProofs.v
theories/Proofs/PlaybackProofs.v
theories/Proofs/PosixProofs.v
theories/Proofs/ProgramExact.v
theories/Proofs/ProgramMain.v
theories/Proofs/ProgramProofs.v
theories/Proofs/ReadProofs.v
theories/Proofs/RecorderJournal.v
theories/Proofs/RecorderMain.v
theories/Proofs/RecorderProofs.v
theories/Proofs/RecorderSafe.v
theories/Proofs/RingMain.v
theories/Proofs/RingProofs.v
theories/Proofs/ScanProofs.v
theories/Proofs/ScanSteady.v
theories/Proofs/ScheduleProofs.v
theories/Proofs/SeekAny.v
theories/Proofs/SeekBehindProofs.v
theories/Proofs/SeekProofs.v
theories/Proofs/SeekShowProofs.v
theories/Proofs/SelectProofs.v
theories/Proofs/SoonerProofs.v
theories/Proofs/SourceProofs.v
theories/Proofs/StdoutExact.v
theories/Proofs/StdoutProofs.v
theories/Proofs/SyncEnd.v
theories/Proofs/SyncExact.v
theories/Proofs/SyncInv.v
theories/Proofs/SyncProofs.v
theories/Proofs/TransProofs.v
theories/Proofs/TuneProofs.v
theories/Proofs/TurnProofs.v
theories/Proofs/TwiceProofs.v
theories/Proofs/WallMain.v
theories/Proofs/WallProofs.v
theories/Proofs/WirePmt.v
theories/Proofs/WireProofs.v
theories/Proofs/WireSeek.v
theories/Proofs/WireTime.v
theories/Props/BehindProps.v
theories/Props/BroadcastProps.v
theories/Props/CarouselProps.v
theories/Props/ClockProps.v
theories/Props/CommandProps.v
theories/Props/ContinuityProps.v
theories/Props/CutProps.v
theories/Props/DescriptorProps.v
theories/Props/EitProps.v
theories/Props/EventProps.v
theories/Props/FilterProps.v
theories/Props/JsonProps.v
theories/Props/JsonTextProps.v
theories/Props/LateProps.v
theories/Props/LogoProps.v
theories/Props/MainProps.v
theories/Props/MomentProps.v
theories/Props/NoiseProps.v
theories/Props/OnAirProps.v
theories/Props/OptionProps.v
theories/Props/OthersJsonProps.v
theories/Props/OthersProps.v
theories/Props/PauseProps.v
theories/Props/PcrProps.v
theories/Props/PesProps.v
theories/Props/PesTextProps.v
theories/Props/PfProps.v
theories/Props/PipeProps.v
theories/Props/PipelineProps.v
theories/Props/PlaybackProps.v
theories/Props/PosixProps.v
theories/Props/ProgramProps.v
theories/Props/ReadProps.v
theories/Props/RecorderProps.v
theories/Props/ResumeProps.v
theories/Props/RingProps.v
theories/Props/ScanProps.v
theories/Props/ScheduleProps.v
theories/Props/SeekBehindProps.v
theories/Props/SeekProps.v
theories/Props/SeekShowProps.v
theories/Props/SelectProps.v
theories/Props/SoonerProps.v
theories/Props/SourceProps.v
theories/Props/StdoutProps.v
theories/Props/SteadyProps.v
theories/Props/SyncProps.v
theories/Props/TurnProps.v
theories/Props/TwiceProps.v
theories/Props/WallProps.v
theories/Props/WireBehindProps.v
theories/Props/WireProps.v
theories/Props/WireTimeProps.v
theories/Spec/BehindSpec.v
theories/Spec/BroadcastSpec.v
theories/Spec/CarouselSpec.v
theories/Spec/ClockSpec.v
theories/Spec/ContinuitySpec.v
theories/Spec/CutSpec.v
theories/Spec/DescriptorSpec.v
theories/Spec/DocSpec.v
theories/Spec/DocumentsSpec.v
theories/Spec/EitSpec.v
theories/Spec/EventSpec.v
theories/Spec/FeedSpec.v
theories/Spec/FileSpec.v
theories/Spec/FilterSpec.v
theories/Spec/JournalSpec.v
theories/Spec/JsonSpec.v
theories/Spec/LateSpec.v
theories/Spec/LogoSpec.v
theories/Spec/MainSpec.v
theories/Spec/MomentSpec.v
theories/Spec/NoiseSpec.v
theories/Spec/OnAirSpec.v
theories/Spec/OptionSpec.v
theories/Spec/OthersSpec.v
theories/Spec/PauseSpec.v
theories/Spec/PcrSpec.v
theories/Spec/PesSpec.v
theories/Spec/PesTextSpec.v
theories/Spec/PfSpec.v
theories/Spec/PipeSpec.v
theories/Spec/PipelineSpec.v
theories/Spec/PngSpec.v
theories/Spec/ProgramSpec.v
theories/Spec/ReadSpec.v
theories/Spec/RecorderSpec.v
theories/Spec/ScanSpec.v
theories/Spec/ScheduleSpec.v
theories/Spec/SeekBehindSpec.v
theories/Spec/SeekShowSpec.v
theories/Spec/SeekSpec.v
theories/Spec/SelectSpec.v
theories/Spec/SoonerSpec.v
theories/Spec/SourceSpec.v
theories/Spec/StdoutSpec.v
theories/Spec/SyncSpec.v
theories/Spec/TransSpec.v
theories/Spec/TuneSpec.v
theories/Spec/TwiceSpec.v
theories/Spec/WallSpec.v
theories/Spec/WireSpec.v
theories/Spec/WireTimeSpec.v
theories/Tests/AirtimeTrackerTest.v
theories/Tests/BaseTest.v
theories/Tests/CliTest.v
theories/Tests/EitpfCollectorTest.v
theories/Tests/PacketSourceTest.v
theories/Tests/PcrSynchronizerTest.v
theories/Tests/ProgramFilterTest.v
theories/Tests/RingFileSinkTest.v
theories/Tests/ServiceFilterTest.v
theories/Tests/ServiceRecorderTest.v
theories/Tests/ServiceScannerTest.v
theories/Tests/StartSeekerTest.v
theories/Tests/TestBase.v
