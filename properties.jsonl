{"id": "C01", "title": "PCR comparison follows the real order of the clock", "statement": "If two 27 MHz instants are less than half of the 33-bit PCR cycle apart, comparing their (wrapped) PCR values yields the sign of their real difference, whichever of the two has already wrapped around.", "quantifier": "all pairs of real instants closer than half a PCR cycle", "why_tests_cant": "The domain has about 2^84 pairs and the failure needs a wrap between the two values, which happens once in 26.5 hours.", "anchors": ["src/tsduck_helper.hh: ComparePcr", "src/program_filter.hh: WaitReady, DoStreaming", "src/start_seeker.hh: Seek"]}
{"id": "C02", "title": "Unix time and JST conversions are inverse", "statement": "Converting a Unix time in milliseconds to JST broadcast time and back (and the other way around) is the identity, and the conversion is a constant shift of the Unix epoch plus nine hours.", "quantifier": "all 64-bit times for which the sum does not overflow", "why_tests_cant": "The claim is about every 64-bit time; a test samples a few dates and cannot exclude an off-by-one in the shift or an overflow elsewhere.", "anchors": ["src/tsduck_helper.hh: ConvertUnixTimeToJstTime, ConvertJstTimeToUnixTime"]}
{"id": "C03", "title": "Time to PCR conversion is exact modulo the PCR cycle", "statement": "Converting a broadcast time to a PCR through a clock reference (PCR, time) gives a valid PCR congruent to PCR + 27000*(time - reference time) modulo the PCR cycle, for times before and after the reference; the conversion only leaves the defined range of 64-bit arithmetic when the time difference is larger than about 10,800 years, in which case the behaviour is undefined.", "quantifier": "all clock references and all times", "why_tests_cant": "Unbounded domain, and the normalisation loop runs a data-dependent number of times; tests try a handful of references and never the edges of the 64-bit range.", "anchors": ["src/base.hh: ClockBaseline::TimeToPcr", "src/program_filter.hh: ConvertTimeToPcr"]}
{"id": "C04", "title": "The stream clock tracks real time between synchronisations", "statement": "After the clock was synchronised by a TOT at time T, and then receives PCRs whose successive increments are below one second, the current time is T plus the elapsed PCR ticks in whole milliseconds, including across a PCR wrap.", "quantifier": "all PCR sequences after a synchronisation", "why_tests_cant": "Histories of PCRs and TOTs have unbounded length and the 26.5-hour wrap can fall at any point of them; a test replays one short history.", "anchors": ["src/base.hh: Clock::UpdatePcr, Clock::Now, ClockBaseline::PcrToTime"]}
{"id": "C05", "title": "Isolated PCR glitches do not disturb the clock", "statement": "When a ready clock receives up to four consecutive PCRs that jump by a second or more, the current time does not change; the fifth consecutive one makes the clock not ready, and only a fresh PCR and a fresh TOT make it ready again.", "quantifier": "all histories of PID changes, TOT times and PCR values", "why_tests_cant": "The glitch counter and the flags depend on the whole history (resynchronisations, PID changes, earlier glitches); tests try one burst from one state.", "anchors": ["src/base.hh: Clock::UpdatePcr, Clock::Invalidate"]}
{"id": "C06", "title": "Clock readiness means both a PCR and a TOT were seen", "statement": "A default-constructed clock reports ready exactly when, since the last PID change or invalidation, at least one PCR and at least one TOT were received; no sequence of operations with valid PCRs trips an internal assertion.", "quantifier": "all operation sequences", "why_tests_cant": "Operation sequences are unbounded; an assertion can fail only in a state reached by a particular order of PID changes, TOTs and PCRs.", "anchors": ["src/base.hh: Clock, ClockBaseline"]}
{"id": "C07", "title": "Packet feeding protocol", "statement": "Whatever the source delivers and the sink answers, the sink sees Start first; then, only if Start succeeded, a prefix of the source packets in order, ending at the first refused packet; then End exactly once; and the process exit code is the sink's. If Start fails the exit code is 1 and neither packets nor End are delivered.", "quantifier": "all packet sequences and all sink behaviours", "why_tests_cant": "Quantifies over every behaviour of the sink, including refusals and exit codes at every moment; tests use a few mocks.", "anchors": ["src/packet_source.hh: PacketSource::FeedPackets"]}
{"id": "C08", "title": "The packet source is independent of read chunking", "statement": "The packets read from a file or pipe depend only on its byte contents, never on how read() splits the bytes into chunks.", "quantifier": "all byte streams and all splits into reads of 1..16384 bytes", "why_tests_cant": "The number of ways to split a stream into reads is exponential in its length; a test tries one or two splits.", "anchors": ["src/packet_source.hh: FileSource"]}
{"id": "C09", "title": "Aligned input is passed on completely", "statement": "An input made of complete 188-byte packets that each begin with the sync byte, followed by fewer than 188 trailing bytes, is delivered as exactly those packets in order, nothing lost, added or reordered.", "quantifier": "all packet lists, all trailing fragments, all read splits", "why_tests_cant": "Unbounded length and every read split; the internal buffer is compacted at offsets that only long inputs with particular splits reach.", "anchors": ["src/packet_source.hh: FileSource::GetNextPacket, FillBuffer"]}
{"id": "C10", "title": "Resynchronisation is bounded and validated", "statement": "Every delivered packet is 188 bytes and starts with the sync byte. When the sync byte is missing, the source skips to the earliest position less than 376 bytes ahead at which four sync bytes follow each other at packet distance, and stops for good if there is none or fewer than 940 bytes remain.", "quantifier": "all byte streams and all read splits", "why_tests_cant": "Ranges over all byte streams, including false sync bytes inside packets; test streams contain a few hand-made corruptions.", "anchors": ["src/packet_source.hh: FileSource::Resync, ValidateResync"]}
{"id": "C11", "title": "The packet source never leaves its buffer", "statement": "For every byte stream and every sequence of read results the source performs no out-of-bounds access, never reads after end of file and never fails an internal assertion.", "quantifier": "all byte streams and all read results", "why_tests_cant": "Offsets into the buffer depend on the whole history of reads; an out-of-bounds access at one rare offset goes unnoticed without it being hit.", "anchors": ["src/packet_source.hh: FileSource"]}
{"id": "C12", "title": "Standard output carries exactly the accepted packets", "statement": "If no write fails, then after End the bytes written to standard output are exactly the concatenation of the packets in order, however the kernel splits the writes.", "quantifier": "all packet sequences and all partial-write schedules", "why_tests_cant": "The kernel may split writes in exponentially many ways; tests write to a mock that takes everything.", "anchors": ["src/packet_sink.hh: StdoutSink"]}
{"id": "C13", "title": "A failed write never corrupts the output stream", "statement": "At every moment, whatever writes fail or are partial, the bytes that reached standard output are a prefix of the concatenation of the packets.", "quantifier": "all packet sequences and all schedules of partial and failing writes", "why_tests_cant": "Needs a write that fails at a particular point after a short write, followed by one that succeeds; fault schedules cannot be enumerated.", "anchors": ["src/packet_sink.hh: StdoutSink::Flush, End", "src/packet_source.hh: FeedPackets"]}
{"id": "C14", "title": "Output failures are reported in the exit code", "statement": "If some packet could not be written to standard output, the process exits with a non-zero code.", "quantifier": "all packet sequences and write schedules", "why_tests_cant": "Needs fault injection at every write of every run.", "anchors": ["src/packet_sink.hh: StdoutSink::End, PacketSink::GetExitCode"]}
{"id": "C15", "title": "The ring file holds the latest bytes of the stream", "statement": "While no file operation fails, the record file is a circular log: byte i of the accepted stream, once its 8 KiB block is complete, is stored at offset (start + i) modulo the ring size, and stays there until the stream has advanced by a whole ring.", "quantifier": "all packet sequences, all valid ring geometries and start positions, all partial-write schedules", "why_tests_cant": "Unbounded histories and all geometries; wrap-around, short writes and block boundaries interact at offsets that depend on all of them.", "anchors": ["src/ring_file_sink.hh: RingFileSink::HandlePacket, FillBuffer, Flush"]}
{"id": "C16", "title": "Chunk notifications come at each chunk boundary, after the data is durable", "statement": "The observer is notified once for every completed chunk, in order, with the end offset of that chunk, and at that moment all bytes of the chunk have been written and synced, so a crash at any later point does not lose them before the chunk is overwritten.", "quantifier": "all packet sequences, ring geometries, start positions, write schedules and crash points", "why_tests_cant": "Durability is about every crash point; a test cannot crash the machine after each operation of each run.", "anchors": ["src/ring_file_sink.hh: RingFileSink::Flush"]}
{"id": "C17", "title": "Ring positions stay inside the ring", "statement": "For every valid geometry and start position and every packet sequence no internal assertion of the ring sink fails, the reported position stays in [0, ring size), and the file never grows beyond the ring size.", "quantifier": "all packet sequences and geometries", "why_tests_cant": "Unbounded histories over all geometries up to 2^62 bytes; no test writes so much.", "anchors": ["src/ring_file_sink.hh: RingFileSink"]}
{"id": "C18", "title": "Any storage error stops the recording and is reported", "statement": "If a write, sync, truncate or seek fails, the packet that triggered it is refused, the sink reports itself broken with exit code 1, and no chunk notification is issued for a chunk that was not synced; conversely the sink is broken only after such an error.", "quantifier": "all schedules of storage errors", "why_tests_cant": "Ranges over every schedule of storage errors; a test injects one error at one place.", "anchors": ["src/ring_file_sink.hh: RingFileSink::HandlePacket, GetExitCode, IsBroken"]}
{"id": "C19", "title": "Accepted recorder options are safe", "statement": "Whenever record-service accepts its chunk size, number of chunks and start position, the ring sink's construction and positioning assertions hold and the ring size does not overflow.", "quantifier": "all option values", "why_tests_cant": "All 64-bit option values; the overflow and divisibility conditions interact.", "anchors": ["src/main.cc: LoadOption(ServiceRecorderOption)", "src/ring_file_sink.hh: RingFileSink, SetPosition", "src/service_recorder.hh: Start"]}
{"id": "C20", "title": "filter-service forwards exactly the packets of the service", "statement": "A packet is forwarded if and only if its PID is, according to the tables received so far, one of: PAT, CAT, NIT, SDT, EIT, RST, TOT, BIT, CDT and the service's PMT (once a PAT listing the service was seen), the PCR, ECM and stream PIDs of the service's latest PMT, or an EMM PID of the latest CAT.", "quantifier": "all packet and table histories", "why_tests_cant": "Which PIDs pass depends on all tables received so far, in order; tests replay a few table sequences.", "anchors": ["src/service_filter.hh: ServiceFilter::HandlePacket, CheckFilterForDrop, HandlePat, HandleCat, HandlePmt"]}
{"id": "C21", "title": "filter-service rewrites only the PAT and keeps the order", "statement": "The forwarded sequence is the input with some packets removed, each PAT packet being replaced by a PAT packet that lists only the selected service with the PMT PID of the latest PAT, and all other packets unchanged.", "quantifier": "all packet and table histories and sink behaviours", "why_tests_cant": "The output is related to the whole input; a test compares a few packets of one stream.", "anchors": ["src/service_filter.hh: ServiceFilter::HandlePacket, HandlePat"]}
{"id": "C22", "title": "filter-service stops on a missing service or at the time limit", "statement": "The filter stops exactly when a valid PAT without the service arrives (exit code 1 if the sink succeeded), when a TOT at or after the time limit arrives, or when the sink refuses a packet; after that nothing is forwarded.", "quantifier": "all packet and table histories", "why_tests_cant": "Any table history may precede the stop, and the sink may refuse at any packet.", "anchors": ["src/service_filter.hh: ServiceFilter::HandlePat, CheckTimeLimit, GetExitCode"]}
{"id": "C23", "title": "filter-service survives every stream", "statement": "No sequence of packets and tables makes the service filter abort or throw.", "quantifier": "all packet and table histories", "why_tests_cant": "An abort needs unusual table contents at a particular moment; test streams are well-behaved broadcasts.", "anchors": ["src/service_filter.hh: ServiceFilter::HandlePacket, CheckTimeLimit"]}
{"id": "C24", "title": "filter-program outputs nothing of the program outside its window", "statement": "Apart from PAT packets sent ahead when pre-streaming, no packet is output before a PCR at or after the start and before the end of the window (both converted to PCR through the clock); output ends with the last packet before the first PCR at or after the end.", "quantifier": "all packet and table histories, options and sinks", "why_tests_cant": "The window is derived from tables and clocks received in any order and the PCR wraps once in 26.5 hours; test streams last minutes.", "anchors": ["src/program_filter.hh: ProgramFilter::WaitReady, DoStreaming"]}
{"id": "C25", "title": "filter-program output starts with PAT, PMT and PCR", "statement": "When streaming starts, the packets output are the latest PAT (unless pre-streaming already sent it), one full cycle of the rewritten PMT, and then the packet with the PCR.", "quantifier": "all histories", "why_tests_cant": "The first packets depend on which PAT and PMT were seen last before the start, in any history.", "anchors": ["src/program_filter.hh: ProgramFilter::WaitReady"]}
{"id": "C26", "title": "filter-program exit code tells whether the program started", "statement": "The exit code is 222 if and only if the filter gave up while still waiting (the event vanished from the EIT or the time limit passed); otherwise it is the sink's exit code.", "quantifier": "all histories", "why_tests_cant": "The reason for stopping depends on the whole history, including ties between several reasons in one packet.", "anchors": ["src/program_filter.hh: ProgramFilter::GetExitCode"]}
{"id": "C27", "title": "filter-program removes unwanted streams consistently", "statement": "A video (audio) stream is removed exactly when video (audio) tags were asked for and it does not carry one of them; a removed stream disappears from the output PMT and no packet of its PID is output under that PMT; the rest of the PMT and all other packets are kept.", "quantifier": "all PMTs, tag options and histories", "why_tests_cant": "All PMTs with any number of streams and descriptors, all tag sets, and PMT changes in the middle of the output.", "anchors": ["src/program_filter.hh: ProgramFilter::HandlePmt, DoStreaming"]}
{"id": "C28", "title": "filter-program's window follows the stream clock after a PCR PID change", "statement": "After the PCR PID changes, the start and end PCRs are recomputed from a PCR and a TOT that were current at the same moment (the last PCR before or the first after the TOT).", "quantifier": "all histories", "why_tests_cant": "Needs a particular interleaving of PMT change, EIT, TOT and PCR.", "anchors": ["src/program_filter.hh: ProgramFilter::HandlePmt, UpdateClockPcr, UpdateClockTime, UpdatePcrRange"]}
{"id": "C29", "title": "filter-program survives every stream that passes filter-service", "statement": "No sequence of packets and tables makes the program filter abort.", "quantifier": "all packet and table histories", "why_tests_cant": "Needs a PMT PID change or an out-of-range value at a particular moment.", "anchors": ["src/program_filter.hh: ProgramFilter::WaitReady, DoStreaming, HandlePat"]}
{"id": "C30", "title": "seek-start loses at most the part before the transition", "statement": "The output of seek-start is either the whole input, or one PAT packet followed by the input from the packet that starts the first PMT with changed video/audio streams; once it started streaming it never drops a packet.", "quantifier": "all packet and table histories", "why_tests_cant": "What is output depends on every PAT, PMT and PCR among the packets held back, for every history.", "anchors": ["src/start_seeker.hh: StartSeeker::Seek, End"]}
{"id": "C31", "title": "seek-start respects its packet limit", "statement": "At most max-packets packets are held back, and when only --max-packets is given the transition is searched for among that many packets.", "quantifier": "all histories and options", "why_tests_cant": "Depends on the combination of options and on PCRs in the stream; tests give both limits together.", "anchors": ["src/start_seeker.hh: StartSeeker::Seek", "src/main.cc: LoadOption(StartSeekerOption)"]}
{"id": "C32", "title": "seek-start survives every stream", "statement": "No sequence of packets and tables makes seek-start abort.", "quantifier": "all histories", "why_tests_cant": "Needs a PAT without the service at some point of an arbitrary history.", "anchors": ["src/start_seeker.hh: StartSeeker::HandlePat", "src/main.cc: MakePacketSink"]}
{"id": "C33", "title": "record-service messages are well-formed", "statement": "The messages of a recording are: one start; then, once recording, chunk, event-start, event-update, event-end; and one stop last. Event-start and event-end strictly alternate beginning with event-start, and an event-update occurs only between them and carries the event id of the running event.", "quantifier": "all packet and table histories", "why_tests_cant": "The order of messages depends on event changes, end times, chunk ends and errors in any interleaving.", "anchors": ["src/service_recorder.hh: ServiceRecorder"]}
{"id": "C34", "title": "record-service chunk positions walk the ring", "statement": "The first chunk message carries the start position; each later one carries the previous position plus the chunk size modulo the ring size, and it is sent right after the sink reported the end of that chunk.", "quantifier": "all histories and geometries", "why_tests_cant": "Positions after any number of turns of the ring, for all geometries; tests stop after a few chunks.", "anchors": ["src/service_recorder.hh: ServiceRecorder::OnEndOfChunk, OnPreparing"]}
{"id": "C35", "title": "record-service event records are contiguous", "statement": "Each event-start carries the same timestamp and file position as the event-end before it (or as the first chunk message), so the event records partition the recording.", "quantifier": "all histories", "why_tests_cant": "Boundaries are carried through gaps between events of any length and number.", "anchors": ["src/service_recorder.hh: ServiceRecorder::OnPreparing, OnRecording, UpdateEventBoundary"]}
{"id": "C36", "title": "record-service records every packet once ready", "statement": "No packet is handed to the ring before the clock is ready and an event is known; from the packet after that on, every packet is handed to the ring in order until the ring refuses one.", "quantifier": "all histories", "why_tests_cant": "Ranges over all histories before the clock is ready and the event known, and over all file errors after.", "anchors": ["src/service_recorder.hh: ServiceRecorder::HandlePacket, OnPreparing, OnRecording"]}
{"id": "C37", "title": "collect-eits never loses a section it has not output", "statement": "A valid schedule EIT section of a selected service is output if no section of the same service, table and section number was output before.", "quantifier": "all section histories", "why_tests_cant": "Whether a section counts as collected depends on all sections of the same service before; tests replay one carousel.", "anchors": ["src/eit_collector.hh: EitCollector::handleSection, CollectProgress::CheckCollected"]}
{"id": "C38", "title": "collect-eits outputs new versions", "statement": "When a section arrives with a version different from the one last output for the same service, table and section number, it is output again.", "quantifier": "all section histories", "why_tests_cant": "Version changes can meet any state of collection.", "anchors": ["src/eit_collector.hh: TableProgress::CheckCollected, Update"]}
{"id": "C39", "title": "collect-eits does not repeat sections", "statement": "A section is not output twice in a row with the same version for the same service, table and section number.", "quantifier": "all section histories", "why_tests_cant": "Repetition depends on versions and last-section numbers of all earlier sections of the table group.", "anchors": ["src/eit_collector.hh: TableProgress::CheckCollected, Update"]}
{"id": "C40", "title": "collect-eits completion is sound", "statement": "When collection ends because everything was collected, then for each service seen and each table announced for it, every section number announced was output or lies in a time segment that had passed.", "quantifier": "all section histories", "why_tests_cant": "Ends of collection are reached by unboundedly many histories; a wrong end loses part of a programme guide silently.", "anchors": ["src/eit_collector.hh: TableProgress::IsCompleted, TableGroupProgress, ServiceProgress, CollectProgress"]}
{"id": "C41", "title": "collect-eits timeout is measured in stream time since the last output", "statement": "Collection times out exactly when the latest TOT is at least the time limit after the TOT in force at the last output (or the first TOT); a positive limit never fires before a TOT; streaming mode never ends by itself.", "quantifier": "all histories", "why_tests_cant": "Any order of TOTs, sections and packets; tests set one timeout in one order.", "anchors": ["src/eit_collector.hh: EitCollector::HandlePacket, CheckTimeout, HandleTot"]}
{"id": "C42", "title": "collect-eits outputs only selected services and schedule tables", "statement": "Every output section is a valid section with table id 0x50-0x6F, whose service is in the include list (if not empty) and not in the exclude list, and the document carries the identifiers of that very section.", "quantifier": "all histories and options", "why_tests_cant": "All histories with all include and exclude lists.", "anchors": ["src/eit_collector.hh: EitCollector::handleSection"]}
{"id": "C43", "title": "collect-eitpf outputs a section exactly when its version changes", "statement": "A present/following section of a selected service is output exactly when no section of that service and kind was received before or the previous one had a different version, and its kind is selected.", "quantifier": "all histories and options", "why_tests_cant": "Depends on the latest version received for each service and kind, over unbounded histories.", "anchors": ["src/eitpf_collector.hh: EitpfCollector::handleSection"]}
{"id": "C44", "title": "collect-eitpf ends once every service has a matching pair", "statement": "Without streaming, collection ends exactly when every listed service has been received in the selected kinds with present and following of the same version; it never throws.", "quantifier": "all histories and options", "why_tests_cant": "Ends depend on the set of services and versions seen in any order; the failing cases need equal numbers of different services.", "anchors": ["src/eitpf_collector.hh: EitpfCollector::Done"]}
{"id": "C45", "title": "Event parsing stays inside the section", "statement": "Decoding the events of any EIT section reads only bytes of that section; if all length fields are consistent, the decoded list is exactly the encoded list of events.", "quantifier": "all byte strings", "why_tests_cant": "All byte strings, including inconsistent lengths an attacker can broadcast; tests parse well-formed sections.", "anchors": ["src/tsduck_helper.hh: MakeEventsJsonValue, EitSection"]}
{"id": "C46", "title": "Service identity keys do not collide", "statement": "Two sections have the same service key if and only if they have the same network id, transport stream id and service id.", "quantifier": "all 16-bit triples", "why_tests_cant": "2^96 pairs of keys.", "anchors": ["src/tsduck_helper.hh: EitSection::service_triple"]}
{"id": "C47", "title": "sync-clocks reports PCRs that were really received", "statement": "Each reported clock names the PCR PID of the service's PMT (of the current PAT) and a PCR value carried by a packet on that PID after a TOT was received.", "quantifier": "all histories", "why_tests_cant": "PATs, SDTs, PMTs and PCRs may come in any order and change at any time.", "anchors": ["src/pcr_synchronizer.hh: PcrSynchronizer"]}
{"id": "C48", "title": "sync-clocks pairs each PCR with the TOT in force when it was received", "statement": "For each reported service the reported time is the time of the latest TOT received before the reported PCR.", "quantifier": "all histories", "why_tests_cant": "Needs a TOT between two PCRs of different services.", "anchors": ["src/pcr_synchronizer.hh: PcrSynchronizer::HandleTime, HandlePacket"]}
{"id": "C49", "title": "sync-clocks finishes when all services delivered a PCR", "statement": "Once the PMT of every selected audio/video service, a TOT and a PCR of every PCR PID were received, sync-clocks stops with exit code 0, even if the SDT is updated meanwhile.", "quantifier": "all histories", "why_tests_cant": "Liveness: no finite run shows that it would not have gone on forever; the failure needs a repeated SDT.", "anchors": ["src/pcr_synchronizer.hh: PcrSynchronizer::HandleSdt, HandlePmt, HandlePacket"]}
{"id": "C50", "title": "scan-services reports exactly the selected audio/video services", "statement": "When a PAT, an SDT and a NIT were received, scan-services outputs one document listing, in ascending service id order and without duplicates, exactly the services present in both PAT and SDT whose type is audio/video and which pass the include and exclude lists, with exit code 0; otherwise it outputs nothing and exits 1.", "quantifier": "all histories and options", "why_tests_cant": "Tables may come in any order, several times, with different contents, before the result is output.", "anchors": ["src/service_scanner.hh: ServiceScanner"]}
{"id": "C51", "title": "track-airtime outputs the tracked event and stops when it disappears", "statement": "Each output is the tracked event as found among the first two events of an EIT p/f of the tracked service; tracking stops exactly at the first such EIT that does not contain it.", "quantifier": "all histories", "why_tests_cant": "Any sequence of EITs with the event present, following or absent, over all services.", "anchors": ["src/airtime_tracker.hh: AirtimeTracker"]}
{"id": "C52", "title": "filter-program-metadata outputs every EIT p/f of the service", "statement": "filter-program-metadata writes exactly one document, in order, for each valid EIT p/f of the selected service (of any service if the sid is 0) that has at least one event; the document has the service triple and all events of that EIT in order; it never ends before its input does and exits 0.", "quantifier": "all packet sequences and service ids", "why_tests_cant": "All packet sequences; a dropped or duplicated document shows only on some of them.", "anchors": ["src/program_metadata_filter.hh: ProgramMetadataFilter"]}
{"id": "C53", "title": "Logo PNG rewriting inserts a valid palette", "statement": "For every logo PNG longer than 33 bytes the palette and transparency chunks are inserted right after the IHDR chunk and nothing else changes, so a well-formed chunk sequence stays well-formed with exactly those two chunks added and valid CRCs.", "quantifier": "all PNG byte strings", "why_tests_cant": "All byte strings, and CRC validity of the inserted chunks; tests look at one logo.", "anchors": ["src/logo_collector.hh: InsertPngChunks"]}
{"id": "C54", "title": "Service id lists select what was asked", "statement": "Every decimal service id in 0..65535 given to --sids/--xsids is a member of the resulting set, nothing else is, and a non-empty list never selects everything.", "quantifier": "all option strings", "why_tests_cant": "All strings; the failing ones (hexadecimal, out of range) are not in the tests.", "anchors": ["src/base.hh: SidSet::Add", "src/main.cc: LoadSidSet"]}
{"id": "C55", "title": "PCR text form is fixed width and order preserving", "statement": "The printed form of a valid PCR has 14 characters, determines the PCR, and its textual order is the PCR order.", "quantifier": "all valid PCRs", "why_tests_cant": "2.5e12 values and all pairs of them.", "anchors": ["src/tsduck_helper.hh: FormatPcr"]}
{"id": "C56", "title": "print-pes timestamps match the stream clock", "statement": "print-pes never aborts on a PTS or DTS, and the time printed for a PCR, PTS or DTS is the clock reference time plus the difference to the reference PCR.", "quantifier": "all histories", "why_tests_cant": "All histories of clocks and time stamps; the wrap happens once in 26.5 hours.", "anchors": ["src/pes_printer.hh: PesPrinter"]}
{"id": "C57", "title": "The clock falls back to the wall clock", "statement": "While the stream clock is not ready, the current time it reports is the last TOT time plus the wall-clock time elapsed since that TOT, whatever PCRs and PID changes followed it. Before any TOT has been received it reports the wall clock itself.", "quantifier": "all histories of PID changes, TOTs and PCRs", "why_tests_cant": "Unbounded histories of PID changes, lost synchronisations and TOTs.", "anchors": ["src/base.hh: Clock::Now, Clock::UpdateTime"]}
{"id": "C58", "title": "Component tags are accepted exactly in 0..255", "statement": "A list of audio or video tags is accepted exactly if every element is a number in 0..255; the resulting set has exactly these numbers.", "quantifier": "all lists of option strings", "why_tests_cant": "All lists of strings; tests try a few.", "anchors": ["src/main.cc: LoadComponentTags"]}
{"id": "C59", "title": "collect-eits ends exactly when nothing is missing or the time is up", "statement": "Without --streaming the collector stops with a packet exactly if the time limit is reached or, judged at the last section output, nothing is missing: in each half of the tables of each service, since it names its present last table, every section number was output, or is denied by an output section of its table, or lies in passed hours. It handles every packet before that one and none after it.", "quantifier": "all packet sequences and options", "why_tests_cant": "Whether collection stops depends on the whole history of sections and times of all services; no finite set of recordings shows that it never goes on forever with everything collected, nor stops early.", "anchors": ["src/eit_collector.hh: EitCollector::HandlePacket, CollectProgress::Update, TableProgress::Update, UpdateUnused"]}
{"id": "C60", "title": "Every record-service message is right about event, time and position", "statement": "The messages of a recording are: start; at the first packet with a ready clock and a known event, a chunk message with the time and the start position, and an event-start unless the event is over; then, packet by packet, event-end and event-start when an EIT names another event (here and now, or from the last boundary if no event was running), event-end with the event's end time once that time has come; at each completed chunk an event-update of the running event and a chunk message with the time and the position after the chunk; stop. Each event message carries the identifiers and the present event of the latest EIT of the service, Unix time stamps are the stream clock's time, and positions are the bytes recorded so far modulo the ring size. Unless a file operation fails, the input determines all messages.", "quantifier": "all options with a valid geometry, packet sequences, wall clocks and results of file operations", "why_tests_cant": "A message depends on the whole history: which tables were heard, what the clock was told, how much was recorded. Recordings of test streams show a few hours with one event change each; wrong boundaries or positions appear only in particular interleavings of event changes, chunk ends, and ring wrap-arounds.", "anchors": ["src/service_recorder.hh: ServiceRecorder::HandlePacket, OnPreparing, OnRecording, OnEndOfChunk, SendEventMessage, SendChunkMessage"]}
{"id": "C61", "title": "filter-service end to end: from the bytes of the file to the bytes on stdout", "statement": "For any splitting of the input into reads and of the output into writes, filter-service --sid S writes exactly the packets that the service filter lets through for service S mod 65536 out of the packets found in the input's bytes, and exits with the filter's code; every output packet with a PID other than 0 is an input packet byte for byte, in order, and whole. The same reduction of the input file to its packets holds for every command.", "quantifier": "all inputs, read and write splittings without write errors, and behaviours of the section demultiplexer", "why_tests_cant": "The claim joins the source, the filter and the sink: exponentially many splittings times all table histories. Tests of single classes use mocks in place of the others.", "anchors": ["src/main.cc: main, MakePacketSource, MakePacketSink, LoadOption(ServiceFilterOption)", "src/packet_source.hh: FileSource, PacketSource::FeedPackets", "src/packet_sink.hh: StdoutSink", "src/service_filter.hh: ServiceFilter"]}
{"id": "C62", "title": "filter-program end to end", "statement": "For any splitting into reads and writes, filter-program writes exactly what the program filter makes of the service filter's output and exits with 222 if it gave up before it began, with the service filter's code otherwise. With values in range, one PMT PID for the service and no PID that upsets the service filter it does not abort, even when a PAT drops the service.", "quantifier": "all inputs and options in range, read and write splittings without write errors", "why_tests_cant": "Two filters in sequence, each with state that depends on the whole history; a test of one filter cannot show that the other never feeds it a fatal packet.", "anchors": ["src/main.cc: MakePacketSink, LoadOption(ProgramFilterOption)", "src/program_filter.hh: ProgramFilter", "src/service_filter.hh: ServiceFilter"]}
{"id": "C63", "title": "record-service end to end", "statement": "record-service behind its service filter behaves as the recorder fed with the filtered packets, so that all claims on records and messages hold of the command; its exit code is the recorder's, or 1 if the service vanished. With values in range it comes to its end whatever the file operations return, even when a PAT drops the service.", "quantifier": "all inputs, read splittings, wall clocks, ring geometries and results of file operations", "why_tests_cant": "The recorder aborts on a PAT without the service; that such a PAT never gets past the service filter is a fact about all histories.", "anchors": ["src/main.cc: MakePacketSink", "src/service_recorder.hh: ServiceRecorder", "src/service_filter.hh: ServiceFilter"]}
{"id": "C64", "title": "seek-start end to end", "statement": "On an orderly input seek-start writes, for any splitting into reads and writes, either all packets of the input, or one PAT packet and then all packets from the start of the first changed PMT on, byte for byte, and exits with 0.", "quantifier": "all orderly inputs and options, read and write splittings without write errors", "why_tests_cant": "Joins the source, the seeker and the sink; see C30.", "anchors": ["src/main.cc: MakePacketSink, LoadOption(StartSeekerOption)", "src/start_seeker.hh: StartSeeker", "src/packet_sink.hh: StdoutSink"]}
{"id": "C65", "title": "Options select what they say", "statement": "collect-eits looks at exactly the schedule sections of the selected services, of this stream's tables unless --only-others and of other streams' tables unless --only-actual is given, with a time limit of 30 s unless given; collect-eitpf outputs present sections unless --following and following sections unless --present is given; filter-program's ids count modulo 65536 and its times are Unix times; --sid of filter-service counts modulo 65536.", "quantifier": "all option values and all sections", "why_tests_cant": "All combinations of options with all sections; a swapped flag shows only on streams with both kinds of tables.", "anchors": ["src/main.cc: LoadOption(EitCollectorOption), LoadOption(EitpfCollectorOption), LoadOption(ProgramFilterOption), LoadOption(ServiceFilterOption)", "src/eit_collector.hh: EitCollector::handleSection", "src/eitpf_collector.hh: EitpfCollector"]}
{"id": "C66", "title": "Logos get the ARIB fixed colours", "statement": "The palette and alpha values that collect-logos inserts are the 129 common fixed colours of ARIB logos: every combination of the levels 0, 85, 170 and 255, opaque and half transparent, and one transparent entry, in their standard order.", "quantifier": "all logos", "why_tests_cant": "A palette of 129 entries looks right on any logo that does not use the wrong ones; a test compares the output with the same constant.", "anchors": ["src/logo_collector.hh: InsertPngChunks (kChunks)"]}
{"id": "C67", "title": "Extended event items are put together from their fragments", "statement": "However the items of an event (description and text) are broken into fragments over extended event descriptors, mixed with other descriptors, MakeExtendedEventJsonValue lists the items whole and in order, and it reads no byte outside the descriptors.", "quantifier": "all lists of descriptors and all bytes", "why_tests_cant": "The ways to break items into fragments are exponential in their length, and inconsistent length bytes come from the broadcaster; no test calls the function with more than a sample.", "anchors": ["src/tsduck_helper.hh: MakeExtendedEventJsonValue(ts::DescriptorList)"]}
{"id": "C68", "title": "The JSON of an event describes its descriptors", "statement": "The descriptors array of an event has, in order, one object for each short event, component, content, audio component, series and event group descriptor that can be parsed, with the values of its fields under the right names, and nothing else; in collect-eits and collect-eitpf the extended event follows if there is one, in record-service and filter-program-metadata it is never there.", "quantifier": "all lists of descriptors and all field values", "why_tests_cant": "A field under the wrong name or a swapped pair of fields shows only with particular values; tests compare a few events.", "anchors": ["src/tsduck_helper.hh: MakeJsonValue (all descriptor overloads), MakeEventsJsonValue"]}
{"id": "C69", "title": "A recorded event can be read back from the file by the messages alone", "statement": "From the messages of record-service alone, the chunk messages and the positions of an event's event-start and event-end, the place of the event in the recording can be computed; whatever part of it lies between the oldest byte the ring still holds and the last complete chunk is on disk, also after a crash, and reading the ring from the start position to the end position gives exactly the packets recorded between the two.", "quantifier": "all streams, all chunk sizes and numbers of chunks, all numbers of turns of the ring, a crash at any time", "why_tests_cant": "The ring turns any number of times and a crash can come between any two writes; a test sees only a file written to its end.", "anchors": ["src/service_recorder.hh: ServiceRecorder (SendChunkMessage, SendEventMessage)", "src/ring_file_sink.hh: RingFileSink"]}
{"id": "C70", "title": "On a steady broadcast collect-eits outputs every section once and stops in time", "statement": "While the schedule tables do not change, however often and in whatever order their sections are repeated and mixed with other sections, collect-eits outputs each section asked for exactly once, where it came first, and nothing else; without --streaming it never reads on after a packet with which everything has come of every service of which anything has come, and it stops before that only when the missing sections are about past hours or the time limit has passed without anything new.", "quantifier": "all broadcasts, all orders and numbers of repetitions, all options", "why_tests_cant": "Orders and repetitions are unbounded; tests replay a handful of sections in order.", "anchors": ["src/eit_collector.hh: EitCollector (HandlePacket, handleSection), CollectProgress, SegmentProgress"]}
{"id": "C71", "title": "collect-eits waits for everything it was asked for", "statement": "When collect-eits ends before the end of the input and before the time limit, it has output every section of the broadcast that was asked for, apart from those about past hours.", "quantifier": "all steady broadcasts whose sections tell the truth, all options", "why_tests_cant": "Whether something is missing depends on the order in which services come; a test sees one order.", "anchors": ["src/eit_collector.hh: EitCollector (CheckCompleted), CollectProgress::IsCompleted"]}
{"id": "C72", "title": "filter-program outputs exactly what is on air between start and end", "statement": "If the clock given to filter-program is right (however old, the PCR may have wrapped round since), the tables are normal, and the PCRs examined are within 13 hours of the start and end of the program and the first ones at or after them are in the same turn of the PCR, then the output is the latest PAT, the PMT, and every packet from the first PCR at or after the start (less the margin) up to the first PCR at or after the end (plus the margin), less the streams not wanted and with the PMT replaced; the exit status is that of the sink.", "quantifier": "all broadcasts, all times, all PCR offsets, all sinks that accept what they get", "why_tests_cant": "Time, PCR offset and the age of the clock are unbounded; tests use a clock of a fixed moment and a few packets.", "anchors": ["src/program_filter.hh: ProgramFilter (WaitReady, DoStreaming, HandlePat, HandlePmt, HandleEit, ConvertUnixTimeToPcr)", "src/base.hh: ComparePcr"]}
{"id": "C73", "title": "A recording can be resumed any number of times", "statement": "When record-service is run again and again on the same file with the same chunks, each run being ended or crashing at any moment and the next being given the position of the last chunk message as --start-pos: that position is always accepted, it is where the bytes reported so far end, counted round the ring from the very first position, and of all the bytes reported complete in all runs the file holds, right before that position, the last ones, as many as the ring has room for less one chunk, in order and across the ends of runs.", "quantifier": "all numbers of runs, all streams, all chunk sizes and numbers of chunks, a crash at any time of any run", "why_tests_cant": "The number of runs and the place of each crash are unbounded, and what must survive was written by earlier runs; a test starts with an empty file.", "anchors": ["src/service_recorder.hh: ServiceRecorder (SendChunkMessage)", "src/ring_file_sink.hh: RingFileSink", "src/main.cc: LoadRecorderOption, RecordService"]}
{"id": "C74", "title": "An input file that cannot be opened or read is reported", "statement": "If the input file cannot be opened, or reading it fails, the command ends with a non-zero exit code.", "quantifier": "all commands, all files, a read error at any place", "why_tests_cant": "The error can come after any number of reads and in any command; tests read whole files or none.", "anchors": ["src/main.cc: PosixFile (Read, constructor), MakePacketSource", "src/packet_source.hh: FileSource (FillBuffer), PacketSource (FeedPackets)"]}
{"id": "C75", "title": "A recording file that cannot be used is reported", "statement": "If the file given to record-service with --file cannot be opened, or is the standard output, then no chunk is reported complete and the command ends with a non-zero exit code; it does not abort.", "quantifier": "all streams, all chunk sizes and start positions, all file names", "why_tests_cant": "The recording goes on in memory for a while, and how long depends on the stream; tests use a mocked file that opens.", "anchors": ["src/main.cc: PosixFile, LoadOption(ServiceRecorderOption), MakePacketSink", "src/ring_file_sink.hh: RingFileSink (Flush, SetPosition)", "src/service_recorder.hh: ServiceRecorder (Start, GetExitCode)"]}
{"id": "C76", "title": "The JSON commands do what is claimed of them, from the options and the bytes of the file to the output", "statement": "scan-services, sync-clocks, collect-eits, filter-program-metadata, track-airtime and print-pes, run on a file with any bytes and given ids as decimal numerals in the options, end and output exactly the documents that the tables in the packets of the file call for, for exactly the services asked for: --sids (all if not given) less --xsids, --sid and --eid modulo 65536, where filter-program-metadata takes a --sid that is a multiple of 65536 for none.", "quantifier": "all files, all ways the file is read in pieces, all option values, everything TSDuck may make of the packets", "why_tests_cant": "The commands are tested without main, with option structures filled in by hand and with packets made one by one.", "anchors": ["src/main.cc: main, MakePacketSink, LoadOption, LoadSidSet", "src/packet_source.hh: FileSource", "src/service_scanner.hh", "src/pcr_synchronizer.hh", "src/eit_collector.hh", "src/program_metadata_filter.hh", "src/airtime_tracker.hh", "src/pes_printer.hh"]}
{"id": "C77", "title": "collect-eitpf outputs every change once and stops when it has what was asked for", "statement": "On a whole stream collect-eitpf outputs, in order, exactly those present and following sections asked for whose version differs from that of the section of the same service and kind before; with --streaming it reads to the end, otherwise it stops with the first packet with which every service listed is complete and not before, provided that each service id listed is broadcast on one transport stream and at least one is listed.", "quantifier": "all streams of well-formed sections, all options, all ways the file is read in pieces", "why_tests_cant": "Versions may change any number of times in any order among services; the tests stop after two sections.", "anchors": ["src/eitpf_collector.hh: EitpfCollector", "src/main.cc: LoadOption(EitpfCollectorOption), MakePacketSink"]}
{"id": "C78", "title": "Other services in the stream do not matter", "statement": "Packets on PIDs that neither are SI PIDs nor are named for the service (by the PAT, its PMT or the CAT) may be inserted into a stream, removed from it or changed, at any places, without any change in what filter-service, filter-program and record-service output or record, in how they end or in their exit code.", "quantifier": "all pairs of streams that agree on the PIDs of the service, all ways the files are read in pieces, all options, all results of writing", "why_tests_cant": "The packets of other services may carry anything, including tables, and may be interleaved in any way; a test has one interleaving.", "anchors": ["src/service_filter.hh: ServiceFilter", "src/program_filter.hh: ProgramFilter", "src/service_recorder.hh: ServiceRecorder", "src/main.cc: main, MakePacketSink"]}
{"id": "C79", "title": "On a steady broadcast scan-services finds the services, whatever the order of the tables", "statement": "If the PAT, the SDT and the NIT are broadcast and do not change, then scan-services ends with exit code 0 and outputs one document, which lists exactly the audio and video services selected; the document depends on the three tables and the options only, not on the order or number of the packets they come in.", "quantifier": "all tables, all streams that carry them in any interleaving with anything else, all options, all ways the file is read in pieces", "why_tests_cant": "The tables may come in any order any number of times, and a PAT may move the NIT and so discard one that was received; tests feed one order.", "anchors": ["src/service_scanner.hh: ServiceScanner", "src/main.cc: LoadOption(ServiceScannerOption), MakePacketSink"]}
{"id": "C80", "title": "Filtering a filtered stream again changes nothing", "statement": "A second filter for the same service, placed between filter-service and whatever takes its output (standard output, the program filter, a recorder), changes neither the packets that arrive there, nor the exit code, nor how the command ends.", "quantifier": "all streams, all services and time limits, all sinks behind the filter", "why_tests_cant": "The second filter learns the PIDs from generated PATs and from the packets the first one lets pass, with changes of PAT, PMT and CAT at any time; tests run one filter.", "anchors": ["src/service_filter.hh: ServiceFilter"]}
{"id": "C81", "title": "Cutting the input short only cuts the output short", "statement": "If the bytes a command reads are a prefix of the bytes another run of the same command reads, then what the first run puts out is a prefix of what the second puts out: for filter-service and filter-program the bytes on standard output (however write() divides them), for record-service the messages and file operations up to the final stop message, and for scan-services, sync-clocks, collect-eits, collect-eitpf, filter-program-metadata, track-airtime, print-pes and collect-logos (if LibISDB reports no logo when it is closed) the JSON documents or lines. So a broken tuner, a full pipe or a killed producer never makes a command say something that a longer input would have taken back. seek-start is the one exception, by design: it writes the packets it held back when the input ends but drops the first of them when it finds the transition.", "quantifier": "all pairs of byte streams one of which is a prefix of the other, however read() divides them and write() takes them, at any byte position (also inside a packet or while resynchronising), all options, both runs ending normally", "why_tests_cant": "A test fixes one stream and one place to cut it; the claim compares two runs for every stream and every cut.", "anchors": ["src/file.hh", "src/packet_source.hh", "src/service_filter.hh", "src/program_filter.hh", "src/service_recorder.hh", "src/service_scanner.hh", "src/pcr_synchronizer.hh", "src/eit_collector.hh", "src/eitpf_collector.hh", "src/program_metadata_filter.hh", "src/airtime_tracker.hh", "src/pes_printer.hh"]}
{"id": "C82", "title": "collect-logos writes every visible logo once, as a data URL that can be read back", "statement": "collect-logos hands the packets of its input to LibISDB, all of them or those up to the first one it refuses. For each logo of more than 93 bytes that LibISDB reports, while it takes packets or while it is closed, exactly one document is written, in the order of the reports; smaller (transparent) logos are left out. The document has the type, id, version and network id of the logo, its services if there are any, and the PNG with the palette inserted as a data URL whose Base 64 text stands for exactly these bytes. The exit code is 0 and nothing aborts.", "quantifier": "all byte streams in all divisions into reads, all ways LibISDB may turn packets into logos or refuse packets, all logo contents", "why_tests_cant": "The logos LibISDB reports and the moments it reports them are unbounded; a test has no broadcast logos at all.", "anchors": ["src/logo_collector.hh", "src/main.cc", "src/packet_source.hh", "src/file.hh"]}
{"id": "C83", "title": "The text of print-pes is in columns and can be read back", "statement": "Every line print-pes writes has three columns separated by bars: 23 characters for the time (blank if there is none), 14 for the PCR as base and extension (blank if the line is about a table), and the message, whose numbers are decimal or upper-case hexadecimal with the documented minimum width and name the PID, service, version, stream type, event and stream kind concerned. One line of text is written for each line of C56, in order. Different lists of lines have different texts, so that a script can recover from the text exactly what was printed.", "quantifier": "all byte streams whose tables have fields of at most 16 bits and times TSDuck delivers, all divisions into reads, all ways of writing times that have 23 characters and are not ambiguous", "why_tests_cant": "The claim is about all lists of lines and compares any two of them; a test compares one output with one expected text.", "anchors": ["src/pes_printer.hh", "src/tsduck_helper.hh: FormatPcr", "src/main.cc"]}
{"id": "C84", "title": "The text of a JSON document can be read back", "statement": "Each line a command writes is one JSON text (RFC 8259), and reading it gives exactly the document: the same members, the same numbers, and strings with the same bytes, whatever quotation marks, backslashes, control characters or line feeds occur in broadcast names and texts. No document spreads over two lines and no line holds two.", "quantifier": "for all documents of any nesting, all integers and all strings of bytes, and all decodings of ARIB strings", "why_tests_cant": "tests compare a few documents; a reader of JSON lines relies on every document a broadcaster can cause, including those whose texts hold the characters that JSON treats specially", "anchors": ["src/jsonl_sink.hh:25-31", "src/jsonl_source.hh:18-21"]}
{"id": "C85", "title": "The documents have the form that the help texts describe", "statement": "A program that reads the output of a command as JSON lines finds, in each document, the members that the help text of the command names, each with the value meant for it and none twice: scan-services, sync-clocks, collect-eits, collect-eitpf, collect-logos, filter-program-metadata, record-service and track-airtime.", "quantifier": "for all documents the commands can write, all names and texts, and all parsers of descriptors", "why_tests_cant": "tests compare whole texts for single documents; that optional members are absent or present as described, that nothing is doubled and that values are not exchanged has to hold of all documents", "anchors": ["src/main.cc:128-153", "src/main.cc:182-206", "src/main.cc:270-316", "src/main.cc:399-422", "src/main.cc:607-621", "src/main.cc:663-735", "src/main.cc:780-791", "src/tsduck_helper.hh:471-485", "src/tsduck_helper.hh:578-621", "src/service_recorder.hh:334-431", "src/logo_collector.hh:223-250", "src/service_scanner.hh:196-210", "src/pcr_synchronizer.hh:43-61"]}
{"id": "C86", "title": "No gaps within a PID: nothing is dropped in the middle of a stream that is kept", "statement": "A receiver counts the packets of each PID and takes a gap for a transmission error. As long as the tables keep saying the same about a PID (all PMTs of the service name it or none does, likewise the CATs, and the PMT PID does not change), the packets of that PID in the output of filter-service are one uninterrupted part of those in the input, byte for byte: packets may be missing before the first or after the last, never in between. The same holds for what record-service gives to its file, for filter-program with every PID that is neither the PMT PID nor that of a removed stream, and for seek-start with every PID but 0. The packets of PID 0 (and with filter-program those of the PMT PID) all come from the packetizer that numbers them, the PMT packets in turn, so that no packet of a PMT is left out unless a new PMT begins.", "quantifier": "All files, however damaged, all services, options and PIDs meeting the stated conditions; filter-service also in front of sinks that refuse or fail.", "why_tests_cant": "Tests compare short streams in which every packet of a PID is kept or every one is dropped. Whether some order of tables and packets opens a gap depends on all interleavings.", "anchors": ["src/service_filter.hh:74-102", "src/program_filter.hh:88-239", "src/service_recorder.hh:81-130", "src/start_seeker.hh:53-150"]}
{"id": "C87", "title": "mirakc-arib as a whole: every command line is refused at once or accepted, and ends with one of its exit codes", "statement": "From the parsed command line to the exit code and standard output: (1) every run on a finite input comes to an outcome. (2) A command line is refused (by an exception or abort, whatever the input, nothing being output) if an id of --sids or --xsids does not begin with a number in the range of int, a tag of --audio-tags or --video-tags is not a number in 0..255, both --only-actual and --only-others are given, or the chunks of record-service are not sound; every other command line is accepted: on an empty input it ends regularly. (3) A run that ends regularly ends with 0 or 1, filter-program also with 222, and those commands that report nothing by their exit code only with 0. (4) seek-start without limits prints its help and ends with 1. (5) The input counts only through its packets: neither where it is read from, nor how read() splits it, nor what lies between the packets. (6) What a JSON command writes to a working standard output can be read back line by line, and the lines are the documents of the help texts.", "quantifier": "All twelve commands with all values of their options, all results of the system calls, all inputs, all behaviours of the libraries (TSDuck, LibISDB, ARIB strings) behind the interfaces of the model.", "why_tests_cant": "Tests of the commands run whole processes on a few captured files with usual options; they cover neither the combinations of options nor the results of system calls.", "anchors": ["src/main.cc:1050-1449", "src/jsonl_sink.hh:20-32", "src/packet_source.hh", "src/file.hh"]}
{"id": "C88", "title": "A document that does not get out is reported", "statement": "If std::cout cannot take all of a JSON document, then the command ends with an exit code other than 0.", "quantifier": "All commands that output JSON, all inputs and options, all results of the flushes of std::cout.", "why_tests_cant": "Tests never let the standard output fail; and that nothing at all of the run depends on such failures is a claim on all runs.", "anchors": ["src/jsonl_sink.hh:24-31", "src/main.cc:1296-1390"]}
{"id": "C89", "title": "Packets on other PIDs do not matter to the JSON commands", "statement": "Packets on PIDs that a command does not have to hear may be inserted into a stream, removed from it or changed, at any places, without any change in the exit code and the documents of scan-services (PIDs of PAT, SDT, NIT), sync-clocks (PAT, SDT, TOT, the PMTs and their PCRs), track-airtime, filter-program-metadata and collect-eitpf (EIT) and collect-eits (EIT, TOT).", "quantifier": "All pairs of files that agree on those PIDs, all ways the files are read in pieces, all options.", "why_tests_cant": "The other packets may carry anything, including tables, and may be interleaved in any way; a test has one interleaving.", "anchors": ["src/service_scanner.hh: ServiceScanner", "src/pcr_synchronizer.hh: PcrSynchronizer", "src/airtime_tracker.hh: AirtimeTracker", "src/program_metadata_filter.hh: ProgramMetadataFilter", "src/eit_collector.hh: EitCollector", "src/eitpf_collector.hh: EitpfCollector"]}
{"id": "C90", "title": "From the command line to the standard output", "statement": "For each of the twelve commands: given a command line that is accepted, an input file however it is read in pieces, and a standard output that can be written, the process ends with the exit code, and with exactly the bytes on its standard output, that the description of the command says: the packets of the filtered service, of the program, or from the sought start on; or lines of JSON, one for each document of the service list, the clocks, the EIT sections, the logos, the events, the airtimes or the recording messages, each of the form in the help text; or the lines of print-pes.", "quantifier": "All command lines that are accepted, all files, all ways they are read in pieces, all behaviours of the libraries within the stated ranges.", "why_tests_cant": "The whole chain - options, file, packets, tables, documents, text - has to hold for every file and command line at once; tests of the parts use mock sinks and never see the standard output.", "anchors": ["src/main.cc: main", "src/jsonl_sink.hh: StdoutJsonlSink", "src/packet_sink.hh: StdoutSink"]}
{"id": "C91", "title": "Nothing is held back while a live input pauses", "statement": "While the next read of the input has not returned, everything that follows from the packets received so far is already out, whatever the read will return. The source hands on every packet of the bytes read before it reads again. filter-service and filter-program then hold back less than 16384 bytes (the output buffer) of what they would write if the input ended here; seek-start in addition the packets it keeps while it searches, fewer than --max-packets; record-service has made all file operations and sent all messages but the stop message; collect-eits, collect-eitpf, track-airtime and filter-program-metadata have written all documents. A command that does not get there has ended by itself, because its sink refused to go on.", "quantifier": "All inputs, all ways they are read in pieces, all points at which the input may pause, all continuations, all write results without errors.", "why_tests_cant": "A test feeds a whole file from a mock and looks at the output after the end; whether something is out while the input is silent depends on the point of the pause and must not depend on what comes later.", "anchors": ["src/packet_source.hh: FileSource::GetNextPacket, FillBuffer, PacketSource::FeedPackets", "src/packet_sink.hh: StdoutSink", "src/start_seeker.hh: StartSeeker", "src/service_recorder.hh: ServiceRecorder"]}
{"id": "C92", "title": "A selection of services only selects", "statement": "With --streaming, `collect-eits --sids/--xsids` and `collect-eitpf --sids` write exactly what the same command without a selection writes, with the lines about other services left out, in the same order and with the same exit code. scan-services with a selection ends after the same packet and with the same exit code as without, and its list is the full list with the other services left out. Without --streaming the runs of collect-eits may end at different times; then one of the two lists starts with the other. More generally services do not affect each other: the documents of a set of services are determined by the sections of these services and the time tables, whatever the sections of other services are.", "quantifier": "All inputs, all selections, all libraries' readings of the bytes, provided the run without a selection does not crash; all sets of services.", "why_tests_cant": "It compares two runs on every input; the collector keeps all services in one map keyed by a packed integer and has flags common to all services, so a test on a few streams does not exclude that one service disturbs another.", "anchors": ["src/eit_collector.hh: EitCollector::handleSection, CollectProgress", "src/eitpf_collector.hh: EitpfCollector::handleSection", "src/service_scanner.hh: ServiceScanner::CollectServices", "src/tsduck_helper.hh: EitSection::service_triple"]}
{"id": "C93", "title": "The clock of the machine is not in the output", "statement": "No command but record-service lets the wall clock of the machine show: its exit code and standard output are the same at any time of day and however the clock of the machine jumps. record-service records the same: on the same input its exit code, every call on the file (what is written where, each rewind and flush) and the positions of the chunk messages are the same with any two wall clocks. If the stream clock (PCR and TOT), once recording has started, stays ready, then everything it writes is the same, all messages with their times included. If the stream clock is lost on the way, the times in the messages are those of the wall clock until it is back.", "quantifier": "All inputs, all pairs of sequences of wall clock readings, all libraries' readings of the bytes, all ring geometries that are accepted.", "why_tests_cant": "It compares two runs on every input. The wall clock is read through a clock object that switches between the two clocks by itself, so a test shows only that on its stream the right one was read.", "anchors": ["src/service_recorder.hh: ServiceRecorder::OnPreparing, OnRecording, HandlePacket, SendChunkMessage", "src/base.hh: Clock::Now, Clock::IsReady", "src/pes_printer.hh: PesPrinter::HandleTot", "src/main.cc: main"]}
{"id": "C94", "title": "filter-service in front of a command changes nothing", "statement": "Piping a stream through `filter-service --sid=S` first and giving its output to filter-service, filter-program or record-service with the same service gives what the command gives on the stream itself: the same bytes on the standard output, and for record-service the same calls on the file with the same bytes and the same messages with the same times and positions, in the same order; it also fails in the same way if it fails. A second filter-service ends with exit code 0 and sends exactly what it got. The exit code of the command by itself is that of the last process of the pipe, or, if that is 0, possibly that of the filter-service in front (1 when the service is missing from a PAT: the second process never gets such a PAT). How the pipe cuts the data into reads does not matter.", "quantifier": "All inputs on which filter-service does not abort, all services, all options of the second command, all ways in which the pipe splits the data, all results of the calls on the recording file; streams in which no CAT comes before the first PAT that lists the service, no table of another kind comes on PID 0 and no PMT PID of the service is that of the PAT, CAT, TOT or null packets; the second process hears what a demultiplexer behind the filter in the first process would hear.", "why_tests_cant": "It compares a pipe of two processes with one process on every input; a unit test runs one object at a time. Whether the second filter drops, delays or rewrites anything depends on the whole history of tables before each packet.", "anchors": ["src/service_filter.hh: ServiceFilter::HandlePacket, CheckFilterForDrop, HandlePat", "src/program_filter.hh: ProgramFilter::HandlePacket", "src/service_recorder.hh: ServiceRecorder::HandlePacket", "src/packet_source.hh: FileSource::GetNextPacket", "src/packet_sink.hh: StdoutSink", "src/main.cc: main"]}
{"id": "C95", "title": "Event information passes filter-service unchanged", "statement": "Behind `filter-service --sid=S` in a pipe, track-airtime, filter-program-metadata, collect-eits and collect-eitpf print what they print, and end as they end, when they are given the original stream from the first PAT that lists S up to the first PAT that does not. In that part all packets on the PIDs of service information other than the PAT (CAT, NIT, SDT, EIT, RST, TOT, BIT, CDT) get through unchanged, in order and without gaps; filter-service ends with exit code 1 if a PAT without S comes, and with 0 otherwise. If all PATs list S and the first one comes before the first packets of the EIT and the TOT, the pipe is as good as the command alone on the whole stream.", "quantifier": "All inputs on which filter-service does not abort, all services, all options of the second command (collect-eits with a time limit other than 0, collect-eitpf with --streaming or with services to wait for), all ways in which the pipe splits the data; streams in which no CAT comes before the first PAT that lists the service, no table of another kind comes on PID 0 and no PMT PID of the service is that of the PAT, CAT, TOT or null packets; demultiplexers that keep the PIDs apart.", "why_tests_cant": "It compares a pipe of two processes with one process on every input. That no EIT packet is lost depends on the whole history of PATs, PMTs and CATs before it, and that the second process does not notice the missing packets of other PIDs depends on all of its code.", "anchors": ["src/service_filter.hh: ServiceFilter::HandlePacket, CheckFilterForDrop, HandlePat", "src/airtime_tracker.hh: AirtimeTracker::HandlePacket", "src/program_metadata_filter.hh: ProgramMetadataFilter::HandlePacket", "src/eit_collector.hh: EitCollector::HandlePacket", "src/eitpf_collector.hh: EitpfCollector::HandlePacket", "src/main.cc: main"]}
{"id": "C96", "title": "An option that ends a command sooner only cuts its output short", "statement": "On the same input, collect-eits with a shorter --time-limit or without --streaming prints a first part of what it prints with a longer limit or with --streaming, and collect-eitpf without --streaming prints a first part of what it prints with it, both with the same exit code. filter-program with an earlier --wait-until writes a first part of the bytes it writes with a later one. Among the options that select what is printed, --present and --following of collect-eitpf print a first part of the lines of that kind printed without the option, and all of them with --streaming; --actual and --others of collect-eits with --streaming print exactly those lines printed without the option which are about services of that kind, if no service is announced as both.", "quantifier": "All inputs, service selections, time limits (negative ones too), all pairs of values of --wait-until, all libraries behind the section interface; runs that do not abort.", "why_tests_cant": "It compares two runs with different options on every input. The runs share no state and one of them goes on where the other one stops, so the claim is about all ways in which the remaining input can change what was already decided.", "anchors": ["src/eit_collector.hh: EitCollector::HandleSection, CheckTimeout, IsCompleted, CheckOption", "src/eitpf_collector.hh: EitpfCollector::HandleSection, IsCompleted", "src/program_filter.hh: ProgramFilter::HandlePacket, CheckTimeLimit", "src/main.cc: LoadOption"]}
{"id": "C97", "title": "Bytes between the packets cost nothing but themselves", "statement": "If there are bytes in the input that belong to no packet, less than 376 of them at a time and not looking like packets, every command does exactly what it does with the packets alone, provided that at least four packets (five, if the bytes are fewer than a packet) follow them. So a packet that lost its sync byte costs that packet only. If bytes get lost from a packet or get into it, the first 188 bytes from its sync byte count as a packet and what is left over counts as such bytes. If fewer than 940 bytes are left from the start of the noise to the end of the input, or no packets begin within 376 bytes, then every command does what it does when the input ends before the noise.", "quantifier": "All commands and options, all positions, numbers and lengths of the pieces of noise within these bounds, all ways in which read() splits the input, all libraries and environments.", "why_tests_cant": "It compares two runs on different inputs, for every damage of every stream; the bounds 376 and 940 come from how far the code looks ahead, and noise at the edge of the buffer takes another path than noise in its middle.", "anchors": ["src/packet_source.hh: FileSource::GetNextPacket, FillBuffer, Resync", "src/main.cc: main"]}
{"id": "C98", "title": "The clock given to filter-program may be read at any moment", "statement": "filter-program writes the same bytes and ends in the same way with --clock-pcr and --clock-time that were read any time earlier or later, as long as they belong together: adding D milliseconds to the time and D milliseconds to the PCR (which wraps round) changes nothing. If only the time is D milliseconds fast, the command does exactly what it does with the right time, --start-margin longer by D and --end-margin shorter by D, as long as the service keeps its PCR PID.", "quantifier": "All inputs with PCRs and tables in range, all clocks, all differences D (positive and negative) that keep the options within 278 years, all other options, all libraries.", "why_tests_cant": "It compares two runs with different options on every input, for all of the 2^33*300 values of the PCR; a test can only take a few pairs of clocks.", "anchors": ["src/program_filter.hh: ProgramFilter::UpdateClockPcr, UpdateClockTime, UpdatePcrRange, ConvertTimeToPcr", "src/tsduck_helper.hh: ConvertUnixTimeToJstTime", "src/main.cc: LoadOption, main"]}
{"id": "C99", "title": "Programs that follow each other share the stream without gap or overlap", "statement": "Let two filter-programs, with the same PCR PID, read the same stream for two programs of a service. If the second program starts (with its margin) no later than the first one ends (with its margin), every packet from the start of the first output to the end of the second is in the part of one of them: nothing is lost in between. If it starts no earlier, no packet is in the parts of both. If it starts exactly when the first one ends, the packet at which the first output ends is the first one of the second output.", "quantifier": "All streams and options that meet the conditions of C72 for both programs (normal tables, right clock, PCRs less than half a turn from start and end).", "why_tests_cant": "It relates two processes that see each packet at times of their own; whether a packet falls between them depends on both comparisons with a wrapping PCR being exact complements, at every value.", "anchors": ["src/program_filter.hh: ProgramFilter::WaitReady, DoStreaming, UpdatePcrRange"]}
{"id": "C100", "title": "filter-program writes exactly the program, from a whole transport stream", "statement": "mirakc-arib filter-program, given a transport stream with any number of services in which the PAT, the CAT and the PMT of the service do not change, the event is announced before it begins and the clock is right, exits with 0 and writes these bytes and no others: the latest PAT packet before the program (all PAT packets since the first PAT, with --pre-streaming), the PMT reduced to the wanted streams, the first packet with a PCR in the time of the program, and every later packet until the first PCR at or after the end that belongs to the service or to the service information, with PAT packets replaced by PATs of this service alone, PMT packets by the reduced PMT, and packets of unwanted streams left out. Nothing of other services, no null packets and nothing after the end are written.", "quantifier": "All libraries, all ways in which read() and write() split their data, all options in range, all streams of this kind (Spec/BroadcastSpec.v): any packets of any other PIDs with any contents, in any number and order, PCRs with any wrap-around and less than half a turn from the start and the end.", "why_tests_cant": "The output depends on two filters in sequence with demultiplexers of their own, one of which listens to what the other has rewritten; tests run each filter alone on short hand-made streams.", "anchors": ["src/main.cc: main", "src/service_filter.hh: ServiceFilter::HandlePacket, HandlePat, HandlePmt, HandleCat", "src/program_filter.hh: ProgramFilter::HandlePacket, WaitReady, DoStreaming"]}
{"id": "C101", "title": "How far off a program is recorded with the clock of sync-clocks", "statement": "If the audio and video services of a stream have one PCR PID, the clock that mirakc-arib sync-clocks prints is the time of a TOT together with the first PCR after that TOT. So it is late by what the TOT is late plus the time to that PCR, and never early. filter-program with this clock (--clock-pid, --clock-pcr, --clock-time) writes the program from the first PCR at or after its start plus that lateness (less the start margin) to the first PCR at or after its end plus that lateness: nothing of the end is missed, and nothing of the start if --start-margin is at least the lateness.", "quantifier": "All streams with one PCR PID in which TOTs come at most E ticks late and PCRs at most G ticks after a TOT, for all E and G; all options, libraries and environments; for filter-program all streams as in C100.", "why_tests_cant": "It is about two commands run one after the other, with times; each of them alone is tested with fixed values that fit together.", "anchors": ["src/pcr_synchronizer.hh: PcrSynchronizer::HandlePacket, HandlePmt, HandleTot, End", "src/program_filter.hh: ProgramFilter::UpdateClockPcr, UpdateClockTime, WaitReady, DoStreaming", "src/main.cc: main"]}
{"id": "C102", "title": "Behind filter-service seek-start cannot abort", "statement": "seek-start aborts when a PAT does not list its service (C32); the source says that filter-service ensures this does not happen. It does: mirakc-arib filter-service --sid=S | mirakc-arib seek-start --sid=S ends with exit code 0 in the second process and writes either all packets that filter-service sent, or one PAT packet and then everything from the start of the first PMT with other video or audio streams on, byte for byte, even if the service disappears from the PAT or the input alone makes seek-start abort.", "quantifier": "All inputs on which filter-service does not abort, all services and limits, all ways in which the pipe splits the data; streams in which no CAT comes before the first PAT that lists the service, no table of another kind comes on PID 0, no PMT PID of the service is that of the PAT, CAT, TOT or null packets, and PCRs are below 2^33 * 300; the demultiplexer of the second process hears the stream that filter-service sends.", "why_tests_cant": "The assertion guards against streams that the tests of seek-start never feed; whether the command in front keeps them away is a question about two processes and all streams.", "anchors": ["src/start_seeker.hh: StartSeeker::HandlePat, HandlePmt, Seek, SendPackets", "src/service_filter.hh: ServiceFilter::HandlePacket, HandlePat", "src/main.cc: main"]}
{"id": "C103", "title": "record-service cuts a recording at the boundaries of the broadcaster's schedule", "statement": "Given a schedule of programs, one following the other, and EITs that name the present program (late or early, but each in turn and before it ends), record-service reports exactly one event-start and one event-end per program, in order. The boundary between two programs is at the first packet received at or after the scheduled time or with an EIT that names the next program, whichever comes first; its time stamp is the scheduled time, or the time of that packet if the EIT comes with it. Unless an EIT comes early, what is recorded before the boundary are exactly the packets received before the scheduled time.", "quantifier": "All schedules, all inputs on which recording starts, all chunk and ring sizes and start positions, as long as the clock does not go back, the EITs keep to the schedule and no file operation fails.", "why_tests_cant": "The boundaries are made in different branches depending on whether the EIT or the end time comes first and whether an event is running; a whole schedule runs through all their combinations.", "anchors": ["src/service_recorder.hh: ServiceRecorder::OnPreparing, OnRecording, UpdateEventBoundary, SendEventStartMessage, SendEventEndMessage", "src/main.cc: main"]}
{"id": "C104", "title": "A program on the schedule can be read back from the recording, complete and with nothing else", "statement": "If the EITs of a broadcast keep to a schedule and no program is announced before it starts, then for every program that starts and ends during a recording the event-start and event-end messages of record-service name two positions in the file, and the bytes between them are exactly those of the packets received while the program was on air. This holds at any moment, also after a crash, from when the chunk with the end of the program is complete until the ring comes round to its start.", "quantifier": "All schedules, inputs, chunk and ring sizes and start positions as in C103; all programs that start and end during the recording; all moments of a crash and everything the disk may then hold.", "why_tests_cant": "It joins the times of the stream clock, the positions in the messages and the bytes on the disk, for every place in the ring a program may lie, including where it wraps.", "anchors": ["src/service_recorder.hh: ServiceRecorder::OnRecording, OnEndOfChunk", "src/ring_file_sink.hh: RingFileSink::HandlePacket, Flush", "src/base.hh: Clock::Now"]}
{"id": "C105", "title": "seek-start cuts at the first change of the service's streams within its limits, and passes everything otherwise", "statement": "Let a service keep its PMT PID and send PMTs with the same video, audio and PCR streams until one comes with other video or audio streams. If before it fewer than --max-packets packets have come, and no PCR of the service is --max-duration or more after an earlier one, then seek-start writes the first packet of the latest PAT and everything from the first packet of the new PMT on. If there is no such change, or a limit is reached before it, then it writes the input unchanged, and holds back no packet beyond the limit. The duration is counted in PCRs of the service only: if none comes and only --max-duration is given, everything is held back until the input ends.", "quantifier": "All inputs in order (C30), all services, options, PMTs and positions of the change, all ways in which input and output are split; durations up to half a PCR cycle; for the limit by duration, PCRs that do not wrap between.", "why_tests_cant": "Whether the change or one of the limits comes first depends on the PCRs and the positions of all packets before; tests use streams of a handful of packets.", "anchors": ["src/start_seeker.hh: StartSeeker::Seek, HandlePat, HandlePmt", "src/main.cc: LoadOption(StartSeekerOption)"]}
{"id": "C106", "title": "On the bytes of a transport stream: filter-service writes intact PATs of the service, and commands behind it read the same as without the pipe", "statement": "On the bytes of a transport stream whose PSI sections fit into one packet each, read as ISO/IEC 13818-1 says: every packet that filter-service writes is a packet of the input, byte for byte, or a packet on PID 0 that is read as one intact PAT with the service alone (and the NIT entries), with the transport stream id, version and PMT PID of the latest PAT in the input that lists the service. A PAT, PMT or EIT p/f that fits into one packet is read back from its bytes as it was written, on the PID it was written for, and so is every PCR, PTS and DTS. filter-service, filter-program and record-service that read this output from a pipe do what they do on the input itself (C94), with no assumption about demultiplexers. Likewise track-airtime, filter-program-metadata, collect-eits and collect-eitpf print what they print of the part of the input in which the service is listed (C95), and seek-start ends with exit code 0 and writes all it got or one PAT packet and everything from a later packet on (C102).", "quantifier": "All inputs of bytes, all service ids, all ways in which input and output are split, all options of the second command; PID 0 carries only PATs and no PMT PID of the service is 0, 1, 0x14 or 0x1FFF (C80); for the pipe, no CAT before the first PAT with the service; for seek-start, PCRs within the cycle.", "why_tests_cant": "A test checks the bytes of a few packets; that a PAT can be read back for every id, version and PID, and that the second process sees what the first one would, are statements about all of them.", "anchors": ["src/service_filter.hh: ServiceFilter::HandlePacket, HandlePat", "src/main.cc: FilterService", "src/packet_source.hh: PacketSource::FeedPackets"]}
