# Design

Subject: the C++ code in `/repo/src` (mirakc-arib). Prover: Rocq/Coq 8.16.1, standard library only.
Properties are listed in `properties.jsonl` (C01 ...), their status in `MANIFEST.json`, attempts to break the theorems in
`seeded/LOG.jsonl`.

## Layout

`rocq/theories/`
- `Base/`    outcome type, sorted maps, 64-bit helpers, list lemmas
- `Model/`   one file per C++ class; definitions only, each citing file and lines
- `Spec/`    the specifications the theorems are stated against; they talk about inputs, outputs, histories of tables and
             bytes, not about the members of the classes
- `Proofs/`  lemmas
- `Props/`   the theorems: statement, `exact lemma`, `Print Assumptions`, and `Example`s that meet the hypotheses
- `Tests/`   the unit tests of `/repo/test` and the exit statuses of `test/cli_tests.sh`, run on the model

A theorem is named after its property (`C20_forwards_exactly`). `..._refuted` proves by a witness that the claim as stated in
English is false of the code; `..._partial` is what is proved instead of the full claim. The status of a property with a
refutation is "partial", however sharp the positive theorem is.

## How the code is modelled

* **Outcomes.** A step returns `Ok v` or `Fail f` with `f` one of `AssertFail` (MIRAKC_ARIB_ASSERT, which aborts),
  `Uncaught` (a C++ exception nobody catches) or `Undefined` (undefined behaviour: out-of-bounds access, signed overflow,
  use of an uninitialised value, an endless loop). The three are never confused with a normal result.
* **Numbers.** `Z` throughout. Where C++ arithmetic can overflow or be cut on reachable values, the check or cut (`i64`,
  `u64`, `u16`...) is explicit.
* **Bytes.** The packet source, standard-output sink, ring sink, event parser and PNG code are modelled on byte lists.
* **Operating system.** Results of `read`, `write`, `fsync`, `ftruncate`, `lseek` are oracle lists, readings of the wall
  clock an oracle function; theorems quantify over them. Durability: a crash keeps synced bytes and may replace any others.
* **TSDuck.** Not in the checkout. A packet is a record with its PID, flags, PCR, PTS, DTS and, per demultiplexer, the list of
  tables (or sections) that the demultiplexer would complete on that packet. A demultiplexer is its set of enabled PIDs: a
  packet delivers its tables only if its PID is enabled when it is fed. Theorems quantify over all annotations, so they hold
  for whatever TSDuck assembles, provided it delivers tables only from enabled PIDs. `CyclingPacketizer` is modelled as cycling
  over the packets of the last table added; that it numbers its packets consecutively is assumed where C86 speaks of gaps. `DecodeMJD` is an oracle whose values are dates (`sane_mjd`).
* **Sinks.** Filters are parameterised by the downstream sink (a record of functions over an arbitrary state), so theorems
  hold for all sinks.
* **JSON.** Documents are datatypes. Documents.v gives them their member names, JsonText.v their text; of rapidjson's `Writer` it
  assumes what the documentation says (no white space, the usual escapes, other bytes copied). Names of services and decoded
  ARIB strings are oracles.
* **Logging.** Log lines are not output, but their arguments are evaluated, so an assertion in an argument (`FormatPcr`) and
  an overflow in one are modelled. The build with `MIRAKC_ARIB_DISABLE_LOGGING` is not.

## Properties

For each: what is modelled, how it is proved, and the result. The statement is in `properties.jsonl`.

**C01 PCR comparison follows the real order of the clock** (partial). `ComparePcr` on Z, with the PCR of a real tick count `pcr_at`. Arithmetic: exact result for all pairs of instants closer than half a cycle, and a witness for the wrong sign. Refuted in full: when the later operand has wrapped and is on the left, the result has the wrong sign. The partial theorem gives the exact result for all close pairs.
Theorems: `C01_compare_order_refuted`, `C01_compare_order_partial`.

**C02 Unix time and JST conversions are inverse** (proved). The two conversion functions with 64-bit checks. Arithmetic. Wherever neither conversion overflows int64.
Theorems: `C02_unix_jst_inverse`, `C02_jst_unix_inverse`, `C02_unix_jst_shift`, `C02_jst_unix_shift`.

**C03 Time to PCR conversion is exact modulo the PCR cycle** (proved). `TimeToPcr` with its normalising loop and 64-bit checks. Loop invariant, congruence modulo the cycle. The bound in the hypothesis is the int64 range; beyond it the model reports undefined behaviour.
Theorems: `C03_time_to_pcr`, `C03_time_to_pcr_overflow`.

**C04 The stream clock tracks real time between synchronisations** (partial). `Clock` as a state machine over SetPid, UpdateTime, UpdatePcr; streams of genuine PCRs, TOTs and glitches along a real tick counter. Invariant by induction over the stream; C04_exact by an invariant on the wraps counted. Proved up to the second wrap after the last TOT; beyond it the statement is false (refuted). C04_exact is the exact time for any number of wraps: all wraps after the first are lost.
Theorems: `C04_clock_tracks_partial`, `C04_exact`, `C04_clock_tracks_refuted`.

**C05 Isolated PCR glitches do not disturb the clock** (partial). As C04. Invariant counting glitches; witness for the counter that is not reset. `C05_exact`: induction over the history with the inductive count `burst`, equal to the 8-bit counter modulo 256. Fifth glitch and recovery proved; tolerance of four glitches holds after a genuine PCR (C04 theorem) but is refuted right after a resynchronisation because the counter is not reset. C05_exact gives the exact rule for every history: a ready clock is lost iff the PCR is a glitch and its number since the latest genuine PCR of a ready clock, modulo 256, exceeds four.
Theorems: `C05_fifth_glitch`, `C05_fresh_pcr_and_tot_needed`, `C05_four_glitches_refuted`, `C05_exact`, `C05_burst`.

**C06 Clock readiness means both a PCR and a TOT were seen** (proved). As C04. Invariant by induction over arbitrary operation lists. All operation sequences with valid PCRs.
Theorems: `C06_readiness`, `C06_seen_unique`.

**C07 Packet feeding protocol** (proved). `FeedPackets` over an arbitrary source and an arbitrary sink. Induction over the packets; the protocol is read off the log of calls. Any source and any sink.
Theorems: `C07_feed_protocol`, `C07_feed_returns`.

**C08 The packet source is independent of read chunking** (proved). `FileSource` with buffer, positions and a list of read results, refined to a parser `packets_of` of the whole byte stream that knows nothing of reads. Any byte stream and any split into reads; a read error is treated by the code like the end of the stream and so is it in the statement.
Theorems: `C08_chunking_irrelevant`, `C08_source_is_packets_of`.

**C09 Aligned input is passed on completely** (proved). As C08, on aligned input; stated about FeedPackets over the source. 
Theorems: `C09_aligned_input_complete`.

**C10 Resynchronisation is bounded and validated** (proved). The parser `packets_of` is the claim; stated about what the source delivers. The source is characterised as a parser of the whole byte stream; resynchronisation needs five sync bytes 188 bytes apart.
Theorems: `C10_resync`, `C10_packet_shape`.

**C11 The packet source never leaves its buffer** (proved). As C08: invariant of buffer offsets; every run returns `Ok`. No out-of-bounds access, no assertion failure, for any bytes and any read results.
Theorems: `C11_source_safe`.

**C12 Standard output carries exactly the accepted packets** (proved). `StdoutSink` with a list of write results. Invariant: written bytes followed by the buffer are the stream. Any split into short writes, no errors.
Theorems: `C12_stdout_exact`, `C12_copy`.

**C13 A failed write never corrupts the output stream** (partial). As C12 with failing writes. `C13_exact`: the run refines the block-wise relation `copies` on the bytes (`StdoutSpec`). Refuted in full: after a write that took part of the block and one that failed, End writes the block again. Proved: a prefix before End, and after End with writes that take all or fail. C13_exact gives the exact output for every sequence of write results (copies, deterministic).
Theorems: `C13_no_corruption_refuted`, `C13_prefix_before_end_partial`, `C13_after_end_partial`, `C13_atomic_writes_partial`, `C13_exact`, `C13_exact_deterministic`.

**C14 Output failures are reported in the exit code** (partial). As C13; `consumed` says which packets were handed over. `C14_exact` from `copies`. Refuted: the exit code is 0 whatever happens. C14_exact: it is always 0, and nothing is missing unless a write failed; C14_stops_partial: feeding stops at the first failing write.
Theorems: `C14_failure_reported_refuted`, `C14_stops_partial`, `C14_exact`.

**C15 The ring file holds the latest bytes of the stream** (proved). `RingFileSink` over a file with volatile and durable contents and failing operations. Invariant over event traces (`canon`), replayed on the file. All geometries accepted by the constructor, all start positions, all short-write schedules.
Theorems: `C15_ring_holds_latest`, `C15_complete_blocks_written`.

**C16 Chunk notifications come at each chunk boundary, after the data is durable** (proved). As C15; `after_crash` is what may be on disk. Durability is stated against a file model where a crash may lose any unsynced write.
Theorems: `C16_announced_in_order`, `C16_every_chunk_announced`, `C16_announced_durable`.

**C17 Ring positions stay inside the ring** (proved). As C15. 
Theorems: `C17_no_assertion_fails`, `C17_position`, `C17_file_length`.

**C18 Any storage error stops the recording and is reported** (proved). As C15; failures are events of the trace. 
Theorems: `C18_errors_reported`.

**C19 Accepted recorder options are safe** (proved). Option checks of main.cc and the constructor. Arithmetic. 
Theorems: `C19_accepted_options_safe`.

**C20 filter-service forwards exactly the packets of the service** (proved). `ServiceFilter` over an arbitrary sink, refined to a specification of the PID set as a function of the tables heard so far (`FilterSpec`). Over any downstream sink; tables are heard only on enabled PIDs, whatever TSDuck assembles.
Theorems: `C20_forwards_exactly`, `C20_spec_deterministic`.

**C21 filter-service rewrites only the PAT and keeps the order** (proved). As C20. 
Theorems: `C21_rewrites_only_pat`.

**C22 filter-service stops on a missing service or at the time limit** (proved). As C20. 
Theorems: `C22_stops_exactly`, `C22_nothing_after`.

**C23 filter-service survives every stream** (partial). As C20; three witnesses, and freedom from aborts for streams that avoid them. The exact rule compares, packet by packet, the verdict of the step with `upset`. Refuted in full by three kinds of streams (PCR PID 0x1FFF, CA PID 0, stray TOT). Proved for all streams whose tables avoid them. C23_exact says for every stream exactly when it fails, in front of a sink that takes everything.
Theorems: `C23_survives_refuted`, `C23_emm_pid_zero_refuted`, `C23_stray_tot_refuted`, `C23_survives_partial`, `C23_exact`.

**C24 filter-program outputs nothing of the program outside its window** (partial). `ProgramFilter` over an arbitrary sink, refined to a specification over histories (`ProgramSpec`); corollaries about window, silence, end. Refinement, silence before the beginning, beginning inside the window and the end are proved for all histories and sinks, with the code's PCR comparison; refuted in full: an end (or start) just before the PCR wraps is missed.
Theorems: `C24_refines`, `C24_spec_deterministic`, `C24_quiet_before`, `C24_begins_in_window`, `C24_halts_only_at_end`, `C24_halts_at_end`, `C24_end_at_wrap_refuted`.

**C25 filter-program output starts with PAT, PMT and PCR** (proved). As C24, on the output of the step that starts streaming. 
Theorems: `C25_starts_with_pat_pmt_pcr`.

**C26 filter-program exit code tells whether the program started** (proved). As C24. Exit codes for any input: C26_exit_code, and as part of C24_refines.
Theorems: `C26_gives_up_at_once`, `C26_exit_code`, `C26_gave_up_halted`.

**C27 filter-program removes unwanted streams consistently** (partial). As C24; the output PMT and the set of dropped PIDs as functions of the latest PMT. Refuted for a removed stream that carries the PCR; proved for all other packets and for the output PMT. C27_exact is the exact rule, packet by packet.
Theorems: `C27_output_pmt`, `C27_removed_pids`, `C27_packets_partial`, `C27_exact`, `C27_pcr_stream_refuted`.

**C28 filter-program's window follows the stream clock after a PCR PID change** (partial). As C24; the pairs (PCR, TOT) as functions of the history. Refuted: PCRs are ignored while the event is unknown but the TOT is not. Proved: the pairing among the PCRs examined, and which PCRs are examined.
Theorems: `C28_clock_pair_partial`, `C28_examined_partial`, `C28_late_eit_refuted`.

**C29 filter-program survives every stream that passes filter-service** (partial). As C24; witnesses and freedom from aborts otherwise. The exact rule (ProgramExact.v): a run fails iff it reaches a packet whose step fails, and a step fails iff `bad_pat` or `troubled`. Refuted by PMT PID changes and by PCRs beyond the cycle; proved for streams with one PMT PID and values in range. C29_exact says for every stream of values in range exactly when it fails, in front of a sink that takes everything.
Theorems: `C29_pmt_pid_change_refuted`, `C29_pmt_pid_change_waiting_refuted`, `C29_invalid_pcr_refuted`, `C29_survives_partial`, `C29_exact`.

**C30 seek-start loses at most the part before the transition** (partial). `StartSeeker` over an arbitrary sink. Invariant relating the held packets to the input; the cut is defined on the input (`SeekSpec`). `C30_exact` follows the same invariant in front of any sink, batch by batch. The exact output is proved for every orderly input (demux facts, usable PATs list the service, PCRs in range) in front of a sink that accepts everything; false for a sink that refuses a packet (C30_refusing_sink_refuted): the refusal is ignored. C30_exact gives the exact rule in front of any sink, refusing or failing: it gets the packets in batches, each until it refuses.
Theorems: `C30_output_partial`, `C30_output_lossless`, `C30_cut`, `C30_spec_deterministic`, `C30_streaming_hands_all`, `C30_refusing_sink_refuted`, `C30_exact`.

**C31 seek-start respects its packet limit** (partial). As C30; `C31_exact` by induction over the rules of `seek`. The limit on held packets is proved for every sink and input; the second part is false: with --max-packets alone the search ends at the second PCR (C31_packets_only_refuted). C31_exact and C31_search_end list every way the search can end.
Theorems: `C31_limit`, `C31_packets_only_refuted`, `C31_exact`, `C31_search_end`.

**C32 seek-start survives every stream** (partial). As C30; `C32_exact` from the disjunctive invariant (either the run goes on, or `loses` has happened). False: a PAT without the service aborts (C32_refuted). Survival is proved for orderly input, and C32_exact says exactly when it fails: iff a PAT without the service is heard while there is no change.
Theorems: `C32_refuted`, `C32_survives_partial`, `C32_exact`.

**C33 record-service messages are well-formed** (proved). `ServiceRecorder` in front of the ring. An automaton accepts the messages; invariant of the trace. Every run that does not abort (C36_no_abort: none does on sound input), with any results of file operations.
Theorems: `C33_grammar`, `C33_event_order`.

**C34 record-service chunk positions walk the ring** (proved). As C33 with C16. Positions, count and the answer to each report of the ring, for all valid geometries.
Theorems: `C34_positions`, `C34_count`.

**C35 record-service event records are contiguous** (proved). As C33. Every run that does not abort.
Theorems: `C35_contiguous`.

**C36 record-service records every packet once ready** (proved). As C33; which packets are recorded is defined on the input (`record`). The recorded packets are exactly those of a specification in terms of the tables heard; runs on sound input do not abort.
Theorems: `C36_records`, `C36_spec_deterministic`, `C36_no_abort`.

**C37 collect-eits never loses a section it has not output** (partial). `EitCollector` with its progress classes, refined to an exact rule on the history of sections (`EitSpec`). Proved in full when only one of the two kinds of tables (this transport stream, other transport streams) is selected (C37_one_kind), and for both when tables are told apart by the last four bits of their id (C37_partial). The claim fails when both kinds are selected (C37_refuted). C37_exact is the exact rule for output.
Theorems: `C37_exact`, `C37_partial`, `C37_one_kind`, `C37_refuted`, `C37_indices`.

**C38 collect-eits outputs new versions** (partial). As C37. Proved for a section that is not the last one of its segment and whose position was last covered by another version (C38_partial). Fails for the last section of a segment (C38_refuted). C37_exact is the exact rule.
Theorems: `C38_partial`, `C38_refuted`.

**C39 collect-eits does not repeat sections** (partial). As C37. Proved while the output sections of the table keep their version and those of the half keep their last table (C39_partial). Fails when two segments carry different versions (C39_refuted). C37_exact is the exact rule.
Theorems: `C39_partial`, `C39_refuted`.

**C40 collect-eits completion is sound** (partial). As C37; invariant relating progress bits to the output history. Proved with sections excused by any output section of the table that denies them (C40_partial). Fails if the denial was taken back by a later section (C40_refuted). C59 is the exact rule.
Theorems: `C40_partial`, `C40_refuted`.

**C41 collect-eits timeout is measured in stream time since the last output** (proved). As C37, with the TOTs of the history. For every packet, for whole runs, without a TOT, and in streaming mode.
Theorems: `C41_timeout`, `C41_limit`, `C41_defined`, `C41_no_tot`, `C41_streaming`, `C41_run`.

**C42 collect-eits outputs only selected services and schedule tables** (proved). As C37. The documents of the output correspond one to one, in order, to delivered sections that were asked for.
Theorems: `C42_output`.

**C43 collect-eitpf outputs a section exactly when its version changes** (proved). `EitpfCollector`, refined to a rule on the history of sections (`PfSpec`). Exact for every section and every history. A section with a length field that is too large leads to undefined behaviour, see C45.
Theorems: `C43_output`.

**C44 collect-eitpf ends once every service has a matching pair** (partial). As C43. The exact rule (PfExact.v) reads the tables of the model off the history (`arrived`, `compared`). Proved if each listed service id belongs to one service and the list is not empty (C44_partial). Without the first the program can throw (C44_throw_refuted) or end too early (C44_end_refuted); without the second it ends at once or never (C44_empty_refuted). C44_exact gives the rule the program follows for all options and streams, the throw included; C44_exact_deterministic says that it leaves no choice.
Theorems: `C44_partial`, `C44_streaming`, `C44_exact`, `C44_exact_deterministic`, `C44_throw_refuted`, `C44_end_refuted`, `C44_empty_refuted`.

**C45 Event parsing stays inside the section** (partial). `MakeEventsJsonValue` and `EitSection` on bytes; an encoder of events as specification. Round trip, and the exact condition for undefined behaviour. Proved: a consistent section yields exactly its events, and undefined behaviour occurs exactly for inconsistent ones. The claim that no byte outside the section is read is false (C45_refuted).
Theorems: `C45_roundtrip`, `C45_partial`, `C45_refuted`.

**C46 Service identity keys do not collide** (proved). `service_triple` on 16-bit numbers. Arithmetic on bits. For all 16-bit triples and all sections.
Theorems: `C46_key`, `C46_triples`.

**C47 sync-clocks reports PCRs that were really received** (proved). `PcrSynchronizer`. Invariant over histories (`SyncSpec`). All histories in which SDTs come on PID 0x11, TOTs on PID 0x14 and no PAT puts a PMT on the PID of PAT, SDT or TOT. C47_complete adds that no service is left out if there was one SDT since the PAT. C47_returns: it returns if all PCRs are in range; a PCR beyond the range aborts it.
Theorems: `C47_returns`, `C47_genuine`, `C47_complete`.

**C48 sync-clocks pairs each PCR with the TOT in force when it was received** (partial). As C47. Proved: the time is that of the latest TOT, which is right for every PCR that no TOT follows (C48_partial), and always right if there is one PCR PID (C48_single_partial). False in general (C48_refuted).
Theorems: `C48_partial`, `C48_single_partial`, `C48_refuted`.

**C49 sync-clocks finishes when all services delivered a PCR** (partial). As C47, with a progress argument. The exact rule by two invariants: what has been heard since the first PAT, and a count of PMTs that can only grow once an SDT came too often. Proved for one SDT between the latest PAT and the PMTs, and distinct PMT PIDs (C49_partial). With the SDT received twice it never ends (C49_refuted). Exact rule on a steady broadcast (tables that do not change, every service with its own PMT PID): exit code 0 if and only if no second SDT arrives before all PMTs and a TOT and the PCRs follow in order (C49_exact, C49_services); otherwise it is stuck whatever follows (C49_stuck_refuted).
Theorems: `C49_partial`, `C49_refuted`, `C49_exact`, `C49_services`, `C49_stuck_refuted`.

**C50 scan-services reports exactly the selected audio/video services** (proved). `ServiceScanner`, refined to a specification of the result from the tables heard (`ScanSpec`). All histories and options. scan-services always returns (C50_returns), and its output and exit code are those of the specification (C50_scan).
Theorems: `C50_returns`, `C50_scan`.

**C51 track-airtime outputs the tracked event and stops when it disappears** (proved). `AirtimeTracker`, as C50. All histories whose event times are dates TSDuck can deliver and whose durations fit (sane_eits).
Theorems: `C51_airtime`.

**C52 filter-program-metadata outputs every EIT p/f of the service** (proved). `ProgramMetadataFilter`. Induction over the packets. All histories with sane event times. Descriptors and the JSON text of the events are in C68 and C85.
Theorems: `C52_metadata`.

**C53 Logo PNG rewriting inserts a valid palette** (proved). `InsertPngChunks` on bytes, with CRC-32. A PNG chunk parser as specification. All byte strings; the inserted chunks entry by entry. C53_logos: the documents for any list of logos. The download of the logo data (LibISDB) is not modelled.
Theorems: `C53_png`, `C53_insert`, `C53_logos`.

**C54 Service id lists select what was asked** (partial). `SidSet::Add` with `std::stoi` on strings. Proved for lists of decimal numerals up to 65535 (C54_partial), and what any list does (C54_exact). The full claim is false: hexadecimal numbers are dropped, which can leave an empty set that selects everything (C54_hex_refuted), and numbers out of range select other services (C54_range_refuted).
Theorems: `C54_partial`, `C54_exact`, `C54_hex_refuted`, `C54_range_refuted`.

**C55 PCR text form is fixed width and order preserving** (proved). `FormatPcr` on digits. Arithmetic. All PCRs.
Theorems: `C55_pcr_text`, `C55_pcr_text_order`, `C55_pcr_text_invalid`.

**C56 print-pes timestamps match the stream clock** (partial). `PesPrinter` over the clock of C04. Lines as data; invariant for the clock references. No abort on valid PTS, DTS and PCRs (C56_returns); all lines exactly (C56_lines); every time is the latest TOT plus the difference to a PCR of that PID (C56_reference), exact along admissible streams within one PCR cycle (C56_time_partial). Across a PCR wrap before the next TOT the printed time is 26.5 hours off (C56_wrap_refuted).
Theorems: `C56_returns`, `C56_lines`, `C56_reference`, `C56_time_partial`, `C56_wrap_refuted`.

**C57 The clock falls back to the wall clock** (proved). As C04. All histories, with a TOT (C57_wall_clock) or without (C57_before_tot); times bounded by 2^61 ms so that int64 sums are defined.
Theorems: `C57_wall_clock`, `C57_before_tot`.

**C58 Component tags are accepted exactly in 0..255** (proved). `LoadComponentTags` on strings. All lists of strings.
Theorems: `C58_tags`.

**C59 collect-eits ends exactly when nothing is missing or the time is up** (proved). As C37; a history of outputs and TOTs and a condition on it (`finished`), equivalent to the collector's flag. Exact: the completion flag of the model is equivalent to the independent history condition; both directions, for one packet and for whole runs.
Theorems: `C59_end`, `C59_run`.

**C60 Every record-service message is right about event, time and position** (proved). As C33; the journal (`JournalSpec`) gives every message as a function of the tables heard, the clock and the bytes recorded. Full refinement: the messages are those of a journal defined on the input (JournalSpec); packets are assumed to be 188 bytes.
Theorems: `C60_messages`, `C60_spec_deterministic`.

**C61 filter-service end to end: from the bytes of the file to the bytes on stdout** (proved). `Commands.v`: main, MakePacketSource, MakePacketSink; TSDuck is any function from the bytes seen to a packet. The file's packets are fed to the sink (C08-C10), the filter in front of any sink equals the sink fed with the filtered list, stdout takes everything (C12). Any demultiplexer behaviour (a function of the bytes seen), any read splitting, any write splitting without errors. Bytes theorem assumes that TSDuck keeps the bytes and reads the PID from the header.
Theorems: `C61_any_command`, `C61_filter_service`, `C61_bytes`.

**C62 filter-program end to end** (proved). As C61, with `ProgramFilter` between filter and stdout; for survival, the PATs that leave the service filter list the service. Full refinement of the command; survival under the stated conditions on PIDs and ranges (C23 and C29 have the counterexamples without them).
Theorems: `C62_filter_program`, `C62_survives`.

**C63 record-service end to end** (proved). As C61, with `ServiceRecorder` behind the filter. Reduces the command to the recorder's runs, on which C33-C36 and C60 are stated.
Theorems: `C63_record_service`, `C63_no_abort`.

**C64 seek-start end to end** (proved). As C61, with `StartSeeker`; the theorem of C30 needs only a sink that accepts what comes from its present state on. On orderly input, as C30.
Theorems: `C64_seek_start`, `C64_bytes`.

**C65 Options select what they say** (proved). The `LoadOption` functions on parsed values, composed with the models of the collectors. docopt itself is not modelled: the options are the values it has parsed.
Theorems: `C65_sid_wraps`, `C65_collect_eits`, `C65_collect_eitpfs`, `C65_filter_program`.

**C66 Logos get the ARIB fixed colours** (partial). `kChunks` byte by byte against a palette generated by rule (`PngSpec.arib_palette`). False as stated: four entries repeat magenta and white (C66_palette_refuted). All other entries and all alpha values are right (C66_palette_partial).
Theorems: `C66_palette_refuted`, `C66_palette_partial`.

**C67 Extended event items are put together from their fragments** (partial). `MakeExtendedEventJsonValue` on the memory of the descriptors; an encoder of fragments as specification. Induction over the fragments. Items are put together for every fragmentation (C67_items); no byte outside is read if length_of_items stays inside the descriptor (C67_safe_partial). Otherwise it always reads outside (C67_overread_refuted).
Theorems: `C67_items`, `C67_object`, `C67_safe_partial`, `C67_overread_refuted`.

**C68 The JSON of an event describes its descriptors** (proved). All descriptor `MakeJsonValue` functions over the values of LibISDB's getters; the specification looks members up by name. Over any parser of the descriptor bytes (LibISDB) and any decoder of ARIB strings.
Theorems: `C68_descriptors`, `C68_no_extended`, `C68_eits`.

**C69 A recorded event can be read back from the file by the messages alone** (proved). `ReadSpec`: what a reader computes from the messages. An invariant ties messages, positions and the recording; combined with C12-C16 on what is on disk after a crash. Positions, the window that is safely on disk, and the bytes read back, computed from the messages; every ring size, every crash point.
Theorems: `C69_places`, `C69_window`, `C69_readback`.

**C70 On a steady broadcast collect-eits outputs every section once and stops in time** (proved). `CarouselSpec`: steady broadcasts, first appearances, completeness of what came. From the exact condition of C37 and the exact end of C59, by induction over the deliveries. Each section once at its first appearance; the run is total; two-sided bound on where it ends.
Theorems: `C70_once`, `C70_run`.

**C71 collect-eits waits for everything it was asked for** (partial). Holds for every half of the tables of a service of which something came. Refuted in general: services of which nothing has come yet are not waited for, even if they are given with `--sids`. Refuted for services of which nothing has come yet; proved for every half of the tables of a service of which something has come.
Theorems: `C71_partial`, `C71_refuted`.

**C72 filter-program outputs exactly what is on air between start and end** (proved). `OnAirSpec`: packets with times, PCRs linear in time modulo the cycle. From the refinement of C24: invariants for the waiting and for the streaming phase, and `reached` of two PCRs against the order of the times. 
Theorems: `C72_window`.

**C73 A recording can be resumed any number of times** (proved). `timeline` (in ResumeProps): any number of runs, each cut off at any point of its trace. Invariant: where the bytes kept so far lie in the file, and that the next start position continues them; each run writes at most one chunk more than it reports and touches nothing else (over the canonical ring traces of C16). 
Theorems: `C73_position`, `C73_resumed`.

**C74 An input file that cannot be opened or read is reported** (partial). `PosixFile` in front of `FileSource` (Model/PosixFile.v). By C08 the source depends only on the bytes before the first error; C74_read_error_exact and C74_unopened_exact hold for every sink, hence for every command. False: exit code 0 after a read error (C74_reported_refuted). The exact rule, for every command: a read error is taken for the end of the file, a file that cannot be opened for an empty one.
Theorems: `C74_reported_refuted`, `C74_read_error_exact`, `C74_unopened_exact`.

**C75 A recording file that cannot be used is reported** (partial). `PosixFile` behind the recorder of C63: on a negative descriptor every call fails; on the standard output Sync, Trunc and Seek abort. Induction over the packets for a ring whose next call fails; every announcement is preceded by a Sync. False below 8 KiB (C75_reported_refuted) and for an empty file name, which aborts (C75_no_name_refuted). C75_unopened_partial is the rest: nothing written, nothing announced, non-zero exit code.
Theorems: `C75_reported_refuted`, `C75_unopened_partial`, `C75_no_name_refuted`.

**C76 The JSON commands do what is claimed of them, from the options and the bytes of the file to the output** (proved). Commands.v: the option strings go through LoadSidSet/LoadOption, the bytes through FileSource to the sink of the command. C61_any_command (for any type of packet) reduces the run to the packets of the file; then C50, C47, C52, C51, C70, C56 apply. The ids selected are stated on the numbers whose numerals were given. For sync-clocks, filter-program-metadata, track-airtime and print-pes times and PCRs are in the ranges of the tables; for collect-eits the carousel is steady (C70).
Theorems: `C76_scan_services`, `C76_sync_clocks`, `C76_metadata`, `C76_airtime`, `C76_collect_eits`, `C76_print_pes`.

**C77 collect-eitpf outputs every change once and stops when it has what was asked for** (proved). Induction over the packets (PfRun.v) with C43 for each section and the end rule of C44; `news` is the list of the sections that differ from the one before. C77_collect_eitpfs is the same from the options and the bytes of the file. Sections are consistent (C45 tells what happens otherwise).
Theorems: `C77_run`, `C77_collect_eitpfs`.

**C78 Other services in the stream do not matter** (proved). A two-run argument: the invariant `apart` says that every PID the filter listens to, passes or has in its demultiplexer belongs to `own`, a set closed under what the tables name for the service. A packet on another PID then changes nothing and goes nowhere; packets on PIDs of `own` are the same in both runs. For the bytes, `per_pid` says that what TSDuck makes of a packet depends on earlier packets of its PID only. C78_others_do_not_matter holds for any sink behind the service filter; the others go from the bytes of two files to output, recording and exit code. Assumes that TSDuck's demultiplexer handles each PID by itself (per_pid).
Theorems: `C78_others_do_not_matter`, `C78_filter_service`, `C78_filter_program`, `C78_record_service`.

**C79 On a steady broadcast scan-services finds the services, whatever the order of the tables** (proved). Invariant over the packets (ScanSteady.v): each table held is the one broadcast, unless a NIT was taken before a PAT that moves the NIT; the demultiplexer listens where it has to. Tables once held stay (a PAT that moves the NIT drops it, the next one comes back). With C50 this gives the document; the list is determined because it is sorted and its elements are. C79_steady for every interleaving in which an SDT and then a NIT follow a PAT; C79_same_list: the output depends on the tables only; C79_scan_services from options and bytes of the file.
Theorems: `C79_steady`, `C79_same_list`, `C79_scan_services`.

**C80 Filtering a filtered stream again changes nothing** (partial). Simulation between one filter and two (TwiceProofs.v): the states of both filters agree but for the order of the PIDs in the demultiplexers; every PID a filter listens to is one it passes, so the second filter hears what the first hears; the PAT it generates from a generated PAT is that PAT. Refuted in full: EMM packets announced by a CAT before the first PAT are dropped by the second filter (C80_cat_refuted). Proved for streams in which no CAT comes before the first PAT, for every sink (C80_twice_partial); assumes that both demultiplexers complete the same tables.
Theorems: `C80_twice_partial`, `C80_cat_refuted`.

**C81 Cutting the input short only cuts the output short** (proved). Spec/CutSpec.v defines `cut_short` on the results of read. Proofs/CutProofs.v: the packets of a prefix are a prefix of the packets (`packets_cut`, by induction over `packets_of`; the delicate case is a resynchronisation whose window reaches beyond the cut), each sink only ever appends to its output (`grows`), and the last call at the end of the input adds something only in a state in which the longer run has stopped too (`calm`). Two runs with different results of write() are compared by a simulation (`twin`). Proofs/CutMains.v puts this together for each main function. The hypotheses say that both runs ended normally; C23, C24 and the other claims say when they do. One theorem per command; C81_packets for the packet cutter (including resynchronisation); C81_seek_start_differs shows the exception.
Theorems: `C81_packets`, `C81_filter_service`, `C81_filter_program`, `C81_record_service`, `C81_scan_services`, `C81_sync_clocks`, `C81_collect_eits`, `C81_collect_eitpfs`, `C81_metadata`, `C81_track_airtime`, `C81_print_pes`, `C81_collect_logos`, `C81_seek_start_differs`.

**C82 collect-logos writes every visible logo once, as a data URL that can be read back** (proved). LibISDB is an arbitrary function from the packets so far and the next packet to the logos reported and whether it accepts the packet. The loop of the packet source is handled by C08/C09; the logos by induction over the packets taken (`taken` in Spec/LogoSpec.v). Base 64 is specified by bits: the text is the bit string of the bytes, cut into sixes, padded. From the results of read() to the documents, for any behaviour of LibISDB (C82_collect_logos). Base 64 as in RFC 4648: every byte string has a text (C82_data_complete) and no two have the same (C82_data_once). LibISDB itself and the JSON text are not modelled.
Theorems: `C82_collect_logos`, `C82_data_once`, `C82_data_complete`.

**C83 The text of print-pes is in columns and can be read back** (proved). `pp_text` follows the calls of fmt::print. Spec/PesTextSpec.v says what a numeral is (`numeral`: its value and its leading zeros) and what each line says. Unambiguity: the columns have fixed widths, and numerals have no digits in common with what follows them (`cut_at`). C83_print_pes composes C76 with the fact that all lines printed are in range (`printed_printable`). The columns and messages (C83_columns), the whole run from the results of read() (C83_print_pes), and unambiguity (C83_read_back). How TSDuck writes a time is a parameter: any function giving 23 characters, without line feed or leading blank, different for different times.
Theorems: `C83_columns`, `C83_read_back`, `C83_print_pes`.

**C84 The text of a JSON document can be read back** (proved). Model/JsonText.v writes a document (numbers, escapes, arrays, objects, one line each). Spec/JsonSpec.v is a separate reader of JSON texts by recursive descent; examples show that it accepts other layouts and rejects malformed texts. Reading after writing is proved by induction over documents, with lemmas for strings (character by character), numbers (digits) and lists of elements and members; no line feed can occur inside a line because every control character is escaped. rapidjson's Writer is modelled from its documentation; UTF-8 validity of strings is not claimed
Theorems: `C84_document`, `C84_lines`.

**C85 The documents have the form that the help texts describe** (partial). Model/Documents.v builds the documents of each command with the member names of the code. Spec/DocumentsSpec.v states the formats of the help texts by member name. The theorems speak about the text written: reading it as JSON lines gives values of these formats, in which no object has a member twice. Samples of the help texts are examples. proved for all commands but for the last message of record-service: documented as end, sent as stop (C85_end_refuted). The help of scan-services also says that logoId is always -1 and lists six service types; both are false (C85_logo_id_refuted, C85_types_refuted)
Theorems: `C85_scan_services`, `C85_sync_clocks`, `C85_track_airtime`, `C85_collect_eits`, `C85_filter_program_metadata`, `C85_collect_logos`, `C85_record_service_partial`, `C85_end_refuted`, `C85_types_refuted`, `C85_logo_id_refuted`.

**C86 No gaps within a PID: nothing is dropped in the middle of a stream that is kept** (proved). Induction over the runs of C20 and C24 with the sets of PIDs that the tables name; for the PMT PID, over the number of the next PMT packet. Then composed with C61 - C64 from the file to standard output. Continuity counters themselves are not modelled: what is proved is that raw packets come without gaps and that all others are made by the packetizers, which TSDuck lets number their packets consecutively. For seek-start PID 0 is left out: the one PAT packet it puts in front may be followed by a gap.
Theorems: `C86_filter_service`, `C86_any_sink`, `C86_filter_program`, `C86_record_service`, `C86_seek_start`.

**C87 mirakc-arib as a whole: every command line is refused at once or accepted, and ends with one of its exit codes** (proved). Composition of the models of the commands. Ending: the source delivers at most as many packets as there are bytes. Refusal and acceptance: case analysis of the options, with C54 for numbers and C15 for the chunks. Input: C08. Output: C85 line by line, with an invariant that logos consist of bytes. The command line is taken as parsed by docopt. Times of filter-program are taken to be below 2^60 ms in absolute value. For record-service, acceptance and the form of the output are stated for --file other than the empty string (with it, packets go between the messages).
Theorems: `C87_ends`, `C87_refused`, `C87_accepted`, `C87_exit_codes`, `C87_seek_start_help`, `C87_input`, `C87_json`.

**C88 A document that does not get out is reported** (partial). The state of the commands does not depend on std::cout (C87's model of main); induction over the lines for the prefix. False (finding 26): StdoutJsonlSink::HandleDocument always returns true and nobody looks at the state of std::cout. Refuted by scan-services, whose document is lost while it ends with 0. What holds, for every JSON command: the exit code and the calls on the recording file are the same as with a working standard output, and what gets out is a prefix of what would have got out; with an empty --file the packets of record-service all get out whatever becomes of the messages (C88_recording_partial).
Theorems: `C88_recording_partial`, `C88_unnoticed_partial`, `C88_reported_refuted`.

**C89 Packets on other PIDs do not matter to the JSON commands** (partial). For each sink an invariant: it has not come to an end and listens only to PIDs of the set; a packet on another PID then leaves the state as it is. Induction over the two interleaved streams, then over the whole run of main. Proved for scan-services, sync-clocks, track-airtime and filter-program-metadata in full; for collect-eits with a positive time limit or --streaming, for collect-eitpf with --sids (and not both --present and --following) or --streaming. Without --sids collect-eitpf ends at the first packet if that packet is on another PID, and so does collect-eits with --time-limit=0: both refuted (finding 27).
Theorems: `C89_scan_services`, `C89_sync_clocks`, `C89_track_airtime`, `C89_program_metadata`, `C89_collect_eits_partial`, `C89_collect_eitpfs_partial`, `C89_collect_eitpfs_refuted`, `C89_collect_eits_refuted`.

**C90 From the command line to the standard output** (proved). The theorems about each sink on a file, the theorem on the options and the theorem on the text of the documents, put together over the model of main; for record-service an invariant of the recorder and the ring: positions are unsigned 64-bit numbers and the events come from the EITs of the input. One theorem per command. The conditions of the parts (C61 - C64, C76, C77, C82, C83) stay; that the positions and times in the messages of record-service are in range, a hypothesis of C85, is proved here. C90_record_stdout covers record-service with an empty --file, where packets and messages share the standard output.
Theorems: `C90_filter_service`, `C90_filter_program`, `C90_seek_start`, `C90_scan_services`, `C90_sync_clocks`, `C90_collect_eits`, `C90_collect_eitpf`, `C90_collect_logos`, `C90_metadata`, `C90_track_airtime`, `C90_record_service`, `C90_print_pes`, `C90_record_stdout`.

**C91 Nothing is held back while a live input pauses** (proved). Simulation: a GetNextPacket that delivers a packet does the same with more read results to come, so that the run on the reads so far is the beginning of the run on any longer input; invariants of the sinks behind (the buffer of StdoutSink is never full after a packet, StartSeeker keeps nothing once it streams). scan-services and sync-clocks report at the end, by design. print-pes is left out: fmt::print goes through the buffer of stdio, which is not modelled. For collect-logos see C91_any; what LibISDB holds back is not modelled.
Theorems: `C91_packets`, `C91_any`, `C91_filter_service`, `C91_filter_program`, `C91_seek_start`, `C91_record_service`, `C91_collect_eits`, `C91_collect_eitpfs`, `C91_metadata`, `C91_track_airtime`.

**C92 A selection of services only selects** (proved). Simulation between the run on all sections and the run on the sections of the selected services: the maps agree on the keys of the selected services, the output of the second is the filtered output of the first; the key determines the service because the three ids have 16 bits. The options are then reduced to leaving out sections. From the command line to the standard output. The condition that the run without a selection ends well is needed: a malformed section of another service can crash it (C45). Without --streaming, equality does not hold (`C92_once_case`: collect-eits ends when the first service is complete, collect-eits --sids=2 goes on to the second).
Theorems: `C92_services_apart`, `C92_services_apart_pf`, `C92_collect_eits`, `C92_collect_eits_once`, `C92_collect_eitpf`, `C92_scan_services`.

**C93 The clock of the machine is not in the output** (proved). `with_wall` replaces the readings of the wall clock. The recording part follows from C36/C60 (the specification determines the calls and the messages up to their times). The other part is a simulation against a wall clock that stands still: the states agree but for the last reading of the wall clock, as long as the clock is ready whenever it is read; `holds` (Spec/WallSpec.v) says so in terms of the tables and PCRs heard. `C93_case_lost` shows a stream on which the clock is lost and the time stamps differ. print-pes takes readings of the wall clock too, which the model of C56 and C90 leaves out; Model/PesWall.v has them, and C93_print_pes shows that they make no difference. collect-eits reads the clock for a line in its log only (eit_collector.hh:444-457). That a machine clock before 1970 or otherwise out of range could abort is not excluded (C36_no_abort has the condition); the theorem on the recording compares two runs that end.
Theorems: `C93_other_commands`, `C93_print_pes`, `C93_recording`, `C93_messages`, `C93_record_service`, `C93_record_service_file`.

**C94 filter-service in front of a command changes nothing** (proved). Spec/PipelineSpec.v: `again` is a packet as the second process sees it (its demultiplexers hear what demultiplexer number 1 hears in the first process; the contents field is only a label for the bytes), `pipes` the conditions, `reads_from` a second process whose standard input has the bytes of the first one's output. The proof: C80's simulation shows that the second filter passes exactly what the first one sent and reports nothing missing; what is behind the filters is related by a general simulation of sinks (`echoes`), shown for the standard output (which may be written in other pieces), the program filter (whose saved PAT packets are related by `again`) and the recorder. The commands start with the same service filter option, as the time limit is never set from the command line. Not modelled: that the two processes run at the same time (the second one may end first; then the first one is killed by SIGPIPE or gets a write error, which is excluded by `no_error`).
Theorems: `C94_filter_service`, `C94_filter_program`, `C94_record_service`.

**C95 Event information passes filter-service unchanged** (proved). Spec/BehindSpec.v: `denies` and `on_air` cut the input into three parts at the packets that complete a PAT with and a PAT without the service; `reads_events` are the commands, `true_pats` says that TSDuck's packetizer makes packets with the sync byte and PID 0, `keeps_apart` that its demultiplexers keep PIDs apart. The proof goes along C20's description of filter-service (before the first PAT nothing is wanted, after it every SI PID is), turns the packets sent into the bytes on the standard output, and uses C89 (packets on other PIDs do not matter) for the second process, which sees the bytes with the same library. scan-services and sync-clocks are not among the commands since they read the PAT, which lists fewer services behind the filter.
Theorems: `C95_events`, `C95_information`, `C95_whole`.

**C96 An option that ends a command sooner only cuts its output short** (proved). Spec/SoonerSpec.v: `no_later` orders --streaming and --time-limit, `patient` replaces --wait-until, `kept_apart` says that a service is announced either as actual or as other. The proof is a simulation with a gap (Proofs/SoonerProofs.v: `ahead`): the two runs have the same state until one of them stops, and from there on the other one only adds to its output. In filter-program the time limit matters only while the filter waits for the program to start, so the states agree except for the option.
Theorems: `C96_collect_eits`, `C96_actual`, `C96_collect_eitpf`, `C96_present_following`, `C96_filter_program`.

**C97 Bytes between the packets cost nothing but themselves** (proved). Spec/NoiseSpec.v: `noisy` relates an input to the packets in it. The proof shows that `packets_of` (the specification of the source, C08) gives the same packets for both inputs; by C87 a command depends on its input only through its packets.
Theorems: `C97_noise`, `C97_once`, `C97_mangled`, `C97_lost`.

**C98 The clock given to filter-program may be read at any moment** (proved). Spec/MomentSpec.v: `with_clock` and `with_margins` replace options. The clock appears in C24's description of the filter only through the PCR values of the start and the end of the event, which are the same modulo the PCR cycle; the relation is kept by every table and PCR, also when a PMT resets the clock (`trans_same`).
Theorems: `C98_same_moment`, `C98_wrong_clock`.

**C99 Programs that follow each other share the stream without gap or overlap** (proved). A corollary of C72: `on_air` cuts the stream before, in and after the program, at the first PCR at or after the start and at the first one at or after the end.
Theorems: `C99_nothing_lost`, `C99_nothing_twice`, `C99_in_turn`.

**C100 filter-program writes exactly the program, from a whole transport stream** (proved). Spec/BroadcastSpec.v says what a broadcast is and what is recorded of it, packet by packet, without the histories and steps of the two filters. The proof (Proofs/BroadcastProofs.v) cuts the stream at the PAT, the PMT and the start: before the PAT nothing of PID 0 passes, after the PAT the SI and the PMT pass for sure, after the PMT and CAT exactly the PIDs of the service; the rest is C72 (`trans_on_air`) on what comes out of the first filter.
Theorems: `C100_recorded`.

**C101 How far off a program is recorded with the clock of sync-clocks** (proved). Spec/LateSpec.v puts times to tables and PCRs; `tot_then_pcr` is the TOT and the PCR. The new invariant (`waits`): as soon as TOTs are listened to, the PCR PID is known, so the first PCR after a TOT ends the command. The second part is C100 for a clock that is late (`K + late`), on times seen by that clock.
Theorems: `C101_clock`, `C101_late`.

**C102 Behind filter-service seek-start cannot abort** (proved). `seen_as` is the second process's view of a packet, `starts_right` says at which packets tables start. The proof shows that what filter-service sends is `orderly` (C30): its packets on PID 0 are generated and list the service, and the first packet it sends is one of them, so that no PMT starts at packet 0.
Theorems: `C102_seek`.

**C103 record-service cuts a recording at the boundaries of the broadcaster's schedule** (proved). `begins` says what is heard with the packets recorded: the EITs and the times told by the clock. `announced` says that the EITs keep to the schedule, `edge` where a boundary is, `reported` what is reported. Built on the journal of C60.
Theorems: `C103_schedule`, `C103_heard`, `C103_on_time`, `C103_main`.

**C104 A program on the schedule can be read back from the recording, complete and with nothing else** (proved). C103 gives the positions, C69 the bytes on the disk; `received_in` selects the packets by the time told by the stream clock when they came.
Theorems: `C104_program`.

**C105 seek-start cuts at the first change of the service's streams within its limits, and passes everything otherwise** (proved). C30 and C64 say what is written in terms of what has been heard; here it is decided from the packets themselves. `calm`, `within`, `at_limit` and `changes_streams` (Spec/SeekShowSpec.v) speak of packets, tables and PCRs only.
Theorems: `C105_cut`, `C105_whole`, `C105_held`, `C105_no_pcr`.

**C106 On the bytes of a transport stream: filter-service writes intact PATs of the service, and commands behind it read the same as without the pipe** (proved). `wire` (Spec/WireSpec.v) is a library in the sense of Main.v that is defined down to the bytes: header, adaptation field, PCR, PTS and DTS, sections with CRC, PAT, PMT, CAT, TOT, EIT p/f. It shows that the assumptions about the library in C61 - C105 can be met together (`C106_library`), and gives instances of them without assumptions. It is not TSDuck: sections over several packets and the suppression of repeated versions are left out. The CRC is checked against a PAT as it is found in files (`C106_case_found`).
Behind filter-service, C95 and C102 hold of `wire` as well, without assumptions about demultiplexers (`C106_events`, `C106_seek`); for seek-start the second process sees tables with the number of their packet (`wire_at`), and PCRs with an extension of 300 and more that pass the cycle are excluded.
Theorems: `C106_library`, `C106_pat`, `C106_pmt`, `C106_filter_service`, `C106_pipe`, `C106_events`, `C106_seek`, `C106_pcr`, `C106_stamps`, `C106_time`, `C106_eit`. The last four say that what is written as the standards say (Spec/WireTimeSpec.v) is read back for every PCR, PTS, DTS, time and EIT p/f of one section; they check the readers of `wire`, not TSDuck.

## Findings

Places where the code does not do what a user would expect; each is a theorem (`_refuted`) or is visible in one.

1. `ComparePcr` has the wrong sign when the later value has wrapped and is on the left. filter-program can miss the end or the
   start of a programme across the wrap (C01, C24_end_at_wrap_refuted); seek-start uses the same comparison.
2. `StdoutSink`: after a failed flush `End` flushes the same buffer again from its beginning, so bytes are duplicated, and the
   exit code stays 0 (C13, C14). A `write` returning 0 loops forever. `StartSeeker::Seek` ignores refused packets
   (C30_refusing_sink_refuted).
3. `FileSource` needs 940 bytes to resynchronise, so good packets near the end of the input are dropped after a loss of sync
   (C10). A read error is treated as the end of the input (C08).
4. `Clock`: losing synchronisation or changing the PID does not reset the glitch counter (C05_four_glitches_refuted); two PCR
   wraps without a TOT put the time back by 26.5 hours (C04_clock_tracks_refuted); `PcrToTime` ignores the wrap flag
   (C56_wrap_refuted).
5. filter-service aborts on a null packet when a PCR, stream, CA or PMT PID is 0x1FFF; aborts on CA PID 0 before the PAT; throws
   `bad_optional_access` on a stray TOT without a time limit (C23). EMM packets may be forwarded before the first PAT. A PMT PID
   equal to 0, 1 or 0x14 is removed from the demultiplexer by the next PAT.
6. filter-program aborts when the PAT changes the PMT PID before the new PMT arrives, and on PCRs beyond the cycle (C29); the
   PCR/TOT pair after a PCR PID change can be of different moments (C28_late_eit_refuted); of a removed stream that carries the
   PCR the packets without PCR are forwarded and those with PCR dropped (C27_pcr_stream_refuted); an event of duration 0 ends at
   once; reaching the end while waiting returns the sink's exit code rather than 222 (C26).
7. seek-start aborts on a PAT without the service even when already streaming (C32_refuted); with only `--max-packets` the
   search ends at the second PCR because the duration limit is 0 (C31_packets_only_refuted); `--max-packets` is cut to 32 bits.
8. `MakeEventsJsonValue`: a descriptor loop length beyond the section makes a `size_t` underflow and reads out of bounds
   (C45_refuted). A broadcaster controls these bytes.
9. collect-eits: versions are kept by position within a segment but shared by all segments of a table, and the check skips the
   last position, so a new version of the last section is never output (C38_refuted), versions that alternate repeat sections
   (C39_refuted), a denial of sections taken back later ends collection early (C40_refuted), and tables 0x5x and 0x6x share their
   state (C37_refuted). A time limit of 0 or less ends collection at the first packet.
10. collect-eitpf throws `out_of_range` when present and following were received for different services in equal number
    (C44_throw_refuted); one service id on two transport streams counts twice (C44_end_refuted); without a list of ids it ends
    at the first packet or never (C44_empty_refuted).
11. sync-clocks never finishes if the SDT is delivered twice before all the PMTs (C49_refuted, C49_stuck_refuted; exact rule in C49_exact); a later TOT replaces the time of PCRs already taken
    (C48_refuted); a PMT that changes its PCR PID leaves the old one to be waited for.
12. `SidSet`: "0x400" is ignored, which may leave an empty set that selects everything; "70000" selects 4464, "-1" 65535; text
    throws (C54).
13. record-service: an event that starts after a gap is said to start where the previous one ended (C35, C60); an event extended
    after its end was reported is not resumed; a PAT without the service aborts the recorder (C36 assumes none); in the command the service filter
    stops before such a PAT gets there (C63_no_abort).
14. PCRs as delivered by TSDuck can exceed the PCR cycle (extension up to 511); they abort every command that handles PCRs.
15. track-airtime goes on with the other tables of a packet after the event has vanished (C51). scan-services never listens to
    PID 0x10 again once a PAT has moved the NIT, and each such PAT discards the NIT (C50).
16. print-pes: between a wrap of the PCR and the next TOT the times printed are 26.5 hours early (C56_wrap_refuted).

17. `--sid`, `--eid` and `--clock-pid` are cut to 16 bits without a message: `--sid 65637` selects service 101 (C65_sid_wraps).
    The time limit of `ServiceFilterOption` is never set by main, so filter-service never stops by time.
18. The palette of collect-logos has magenta and white twice, where (255,0,170) and (255,255,170) should be: entries 54, 64, 118
    and 128 (C66).
19. `MakeExtendedEventJsonValue(ts::DescriptorList)` follows length_of_items beyond the descriptor (C67_overread_refuted). It is not
    called by any command: record-service and filter-program-metadata leave the extended event out (C68_no_extended).
20. collect-eits does not wait for services it has not seen: given `--sids=1 --sids=2` it ends as soon as the tables of service 1
    are complete, even if no section of service 2 has come yet (C71_refuted).
21. An input file that cannot be opened or read is taken for an empty or a shorter one: the error is logged, and the exit code is
    what it would be for the shorter file (C74), which is 0 for filter-service and seek-start on a file that is not there.
22. record-service with a file that cannot be opened goes on without an error until 8 KiB are recorded (C75_reported_refuted).
    `--file ''` is accepted, writes packets to the standard output, and aborts at the end of the first chunk, or at once with a
    start position (C75_no_name_refuted).
23. The first filter takes a CAT that comes before the first PAT; a second filter behind it never sees that CAT, which is not
    forwarded, and so drops the EMM packets until the next CAT (C80_cat_refuted).
24. filter-program-metadata takes a `--sid` that is 0 or a multiple of 65536 for all services (C76).
25. Help texts differ from the code (C85): the last message of record-service has the type `stop`, not `end`; scan-services
    reports logo ids although the help says that `logoId` is always -1, never writes the `hasLogoData` it mentions, and lists
    services of type 0xAD, which is not in the list of the help.
26. Write errors on standard output go unnoticed by the JSON commands: StdoutJsonlSink returns true whatever becomes of
    `std::cout`, so that a document may be lost while the exit code is 0 (C88).
27. collect-eitpf without --sids and --streaming, and collect-eits with --time-limit=0, stop at the first packet even if it
    is on a PID that has nothing to do with them, for instance a null packet: no document, exit code 0 (C89).
28. seek-start with `--max-duration` alone holds back the whole input if the service has no PCR: no packet is written before the
    input ends, and the memory grows with it (C105_no_pcr).

## What is modelled

| file in /repo/src | modelled | not modelled |
|---|---|---|
| airtime_tracker.hh | all (Model/AirtimeTracker.v) | |
| base.hh | SidSet (Options.v), ClockBaseline and Clock (Clock.v) | `trim` is part of SidSet::Add |
| eit_collector.hh | all (EitCollector.v) | |
| eitpf_collector.hh | all (EitpfCollector.v) | |
| exit_code.hh | all (Sink.v) | |
| file.hh, ring_file_sink.hh | all (RingFileSink.v), over any results of the file operations | |
| jsonl_sink.hh, jsonl_source.hh | documents are appended to the output; their text (JsonText.v); failing writes (Main.v) | |
| logging.hh | no | levels, formatting |
| logo_collector.hh | InsertPngChunks (with its constants), the data URL, the handling of a logo and of packets, Start and End (Logo.v) | LibISDB's download: any function of the packets so far |
| packet_sink.hh | all (Sink.v, StdoutSink.v) | |
| packet_source.hh | all (Sink.v, FileSource.v) | |
| pcr_synchronizer.hh | all (PcrSynchronizer.v) | |
| pes_printer.hh | all (PesPrinter.v, PesText.v) | the text of a time (TSDuck's operator<<) |
| program_filter.hh | all (ProgramFilter.v) | |
| program_metadata_filter.hh | all (MetadataFilter.v) | descriptors of an event are opaque there; see Descriptors.v |
| service_filter.hh | all (ServiceFilter.v) | |
| service_recorder.hh | all (ServiceRecorder.v) | descriptors of an event are opaque there; see Descriptors.v |
| service_scanner.hh | all (ServiceScanner.v) | names and remote-control keys are opaque data |
| start_seeker.hh | all (StartSeeker.v) | |
| tsduck_helper.hh | times, PCRs, EitSection, MakeEventsJsonValue, IsAudioVideoService, subtitle tests, JSON of descriptors (Pcr.v, EitSection.v, Ts.v, Descriptors.v) | LibISDB's parsing of descriptors, decoding of ARIB strings |
| main.cc | main, MakePacketSource, MakePacketSink for all commands, the LoadOption functions (Commands.v, Options.v, RecorderOption.v, StartSeeker.v), PosixFile over any results of the system calls (PosixFile.v); all of it put together (Main.v) | docopt, help text, log output |

## Trusted base

* Coq's kernel (8.16.1), and `coqchk` for a second look at the compiled files.
* No axioms: `Print Assumptions` answers "Closed under the global context" for every theorem listed below; the command stands
  after each theorem in the Props files, so the build prints it. (The list of axioms in the loaded libraries, as opposed to those
  used, has seven of the standard library's `Coq.ssr.ssrunder`; no theorem depends on them.)
* The reading of the C++ text that the comments in the Model files record, function by function, and the abstractions listed
  under "How the code is modelled".
* No functors, module types, admitted proofs, plugins or switched-off checks.

How far the model can be trusted to behave like the program was tested with the repository's own unit tests: all 107 tests of
`/repo/test` are run on the model in `theories/Tests` and give the results that their authors expect. (They are tests: the inputs
are literals. The XML of a test becomes the tables that the demultiplexer delivers; the test that uses a mock ring is run with
the ring of the model.)

How far the theorems can be trusted to say what they should was tested by editing the model as a bug would (`seeded/LOG.jsonl`).

Theorems for which `Print Assumptions` was run, all of them closed under the global context:

* `BehindProps.v`: C95_events, C95_information, C95_whole
* `BroadcastProps.v`: C100_recorded
* `CarouselProps.v`: C70_once, C70_run, C71_partial, C71_refuted
* `ClockProps.v`: C04_clock_tracks_partial, C04_exact, C04_clock_tracks_refuted, C05_fifth_glitch, C05_fresh_pcr_and_tot_needed, C05_four_glitches_refuted, C05_exact, C05_burst, C06_readiness, C06_seen_unique, C57_wall_clock, C57_before_tot
* `CommandProps.v`: C90_filter_service, C90_filter_program, C90_seek_start, C90_scan_services, C90_sync_clocks, C90_collect_eits, C90_collect_eitpf, C90_collect_logos, C90_metadata, C90_track_airtime, C90_record_service, C90_print_pes, C90_record_stdout, C88_recording_partial
* `ContinuityProps.v`: C86_filter_service, C86_any_sink, C86_filter_program, C86_record_service, C86_seek_start
* `CutProps.v`: C81_packets, C81_filter_service, C81_filter_program, C81_record_service, C81_scan_services, C81_sync_clocks, C81_collect_eits, C81_collect_eitpfs, C81_metadata, C81_track_airtime, C81_print_pes, C81_collect_logos, C81_seek_start_differs
* `DescriptorProps.v`: C67_items, C67_object, C67_safe_partial, C67_overread_refuted, C68_descriptors, C68_no_extended, C68_eits
* `EitProps.v`: C46_key, C46_triples, C45_roundtrip, C45_partial, C45_refuted, C37_exact, C37_partial, C37_one_kind, C37_refuted, C37_indices, C38_partial, C38_refuted, C39_partial, C39_refuted, C40_partial, C40_refuted, C41_timeout, C41_limit, C41_defined, C41_no_tot, C41_streaming, C41_run, C59_end, C59_run, C42_output
* `EventProps.v`: C51_airtime, C52_metadata
* `FilterProps.v`: C20_forwards_exactly, C20_spec_deterministic, C21_rewrites_only_pat, C22_stops_exactly, C22_nothing_after, C23_survives_refuted, C23_emm_pid_zero_refuted, C23_stray_tot_refuted, C23_survives_partial, C23_exact
* `JsonProps.v`: C76_scan_services, C76_sync_clocks, C76_metadata, C76_airtime, C76_collect_eits, C77_run, C77_collect_eitpfs, C76_print_pes
* `JsonTextProps.v`: C84_document, C84_lines, C85_scan_services, C85_sync_clocks, C85_track_airtime, C85_collect_eits, C85_filter_program_metadata, C85_collect_logos, C85_record_service_partial, C85_end_refuted, C85_types_refuted, C85_logo_id_refuted
* `LateProps.v`: C101_clock, C101_late
* `LogoProps.v`: C53_png, C53_insert, C66_palette_refuted, C66_palette_partial, C53_logos, C82_collect_logos, C82_data_once, C82_data_complete
* `MainProps.v`: C87_ends, C87_refused, C87_accepted, C87_exit_codes, C87_seek_start_help, C87_input, C87_json, C88_unnoticed_partial, C88_reported_refuted
* `MomentProps.v`: C98_same_moment, C98_wrong_clock
* `NoiseProps.v`: C97_noise, C97_once, C97_mangled, C97_lost
* `OnAirProps.v`: C72_window
* `OptionProps.v`: C54_partial, C54_exact, C54_hex_refuted, C54_range_refuted, C58_tags
* `OthersJsonProps.v`: C89_scan_services, C89_sync_clocks, C89_track_airtime, C89_program_metadata, C89_collect_eits_partial, C89_collect_eitpfs_partial, C89_collect_eitpfs_refuted, C89_collect_eits_refuted
* `OthersProps.v`: C78_others_do_not_matter, C78_filter_service, C78_filter_program, C78_record_service
* `PauseProps.v`: C91_packets, C91_any, C91_filter_service, C91_filter_program, C91_seek_start, C91_record_service, C91_collect_eits, C91_collect_eitpfs, C91_metadata, C91_track_airtime
* `PcrProps.v`: C01_compare_order_refuted, C01_compare_order_partial, C02_unix_jst_inverse, C02_jst_unix_inverse, C02_unix_jst_shift, C02_jst_unix_shift, C03_time_to_pcr, C03_time_to_pcr_overflow, C55_pcr_text, C55_pcr_text_order, C55_pcr_text_invalid
* `PesProps.v`: C56_returns, C56_lines, C56_reference, C56_time_partial, C56_wrap_refuted
* `PesTextProps.v`: C83_columns, C83_read_back, C83_print_pes
* `PfProps.v`: C43_output, C44_partial, C44_streaming, C44_exact, C44_exact_deterministic, C44_throw_refuted, C44_end_refuted, C44_empty_refuted
* `PipeProps.v`: C61_any_command, C61_filter_service, C61_bytes, C62_filter_program, C62_survives, C63_record_service, C63_no_abort, C64_seek_start, C64_bytes, C65_sid_wraps, C65_collect_eits, C65_collect_eitpfs, C65_filter_program
* `PipelineProps.v`: C94_filter_service, C94_filter_program, C94_record_service
* `PlaybackProps.v`: C104_program
* `PosixProps.v`: C74_reported_refuted, C74_read_error_exact, C74_unopened_exact, C75_reported_refuted, C75_unopened_partial, C75_no_name_refuted
* `ProgramProps.v`: C24_refines, C24_spec_deterministic, C24_quiet_before, C24_begins_in_window, C24_halts_only_at_end, C24_halts_at_end, C24_end_at_wrap_refuted, C25_starts_with_pat_pmt_pcr, C26_gives_up_at_once, C26_exit_code, C26_gave_up_halted, C27_output_pmt, C27_removed_pids, C27_packets_partial, C27_exact, C27_pcr_stream_refuted, C28_clock_pair_partial, C28_examined_partial, C28_late_eit_refuted, C29_pmt_pid_change_refuted, C29_pmt_pid_change_waiting_refuted, C29_invalid_pcr_refuted, C29_survives_partial, C29_exact
* `ReadProps.v`: C69_places, C69_window, C69_readback
* `RecorderProps.v`: C33_grammar, C33_event_order, C34_positions, C34_count, C35_contiguous, C36_records, C36_spec_deterministic, C36_no_abort, C60_messages, C60_spec_deterministic
* `ResumeProps.v`: C73_position, C73_resumed
* `RingProps.v`: C15_ring_holds_latest, C15_complete_blocks_written, C16_announced_in_order, C16_every_chunk_announced, C16_announced_durable, C17_no_assertion_fails, C17_position, C17_file_length, C18_errors_reported, C19_accepted_options_safe
* `ScanProps.v`: C50_returns, C50_scan
* `ScheduleProps.v`: C103_schedule, C103_heard, C103_on_time, C103_main
* `SeekBehindProps.v`: C102_seek
* `SeekProps.v`: C30_output_partial, C30_output_lossless, C30_cut, C30_spec_deterministic, C30_streaming_hands_all, C30_refusing_sink_refuted, C30_exact, C31_limit, C31_packets_only_refuted, C31_exact, C31_search_end, C32_refuted, C32_survives_partial, C32_exact
* `SeekShowProps.v`: C105_cut, C105_whole, C105_held, C105_no_pcr
* `SelectProps.v`: C92_services_apart, C92_services_apart_pf, C92_collect_eits, C92_collect_eits_once, C92_collect_eitpf, C92_scan_services
* `SoonerProps.v`: C96_collect_eits, C96_actual, C96_collect_eitpf, C96_present_following, C96_filter_program
* `SourceProps.v`: C07_feed_protocol, C07_feed_returns, C08_chunking_irrelevant, C08_source_is_packets_of, C09_aligned_input_complete, C10_resync, C10_packet_shape, C11_source_safe
* `StdoutProps.v`: C12_stdout_exact, C12_copy, C13_no_corruption_refuted, C13_prefix_before_end_partial, C13_after_end_partial, C13_atomic_writes_partial, C13_exact, C13_exact_deterministic, C14_failure_reported_refuted, C14_stops_partial, C14_exact
* `SteadyProps.v`: C79_steady, C79_same_list, C79_scan_services
* `SyncProps.v`: C47_returns, C47_genuine, C47_complete, C48_partial, C48_single_partial, C48_refuted, C49_partial, C49_refuted, C49_exact, C49_services, C49_stuck_refuted
* `TurnProps.v`: C99_nothing_lost, C99_nothing_twice, C99_in_turn
* `TwiceProps.v`: C80_twice_partial, C80_cat_refuted
* `WallProps.v`: C93_other_commands, C93_print_pes, C93_recording, C93_messages, C93_record_service, C93_record_service_file
* `WireBehindProps.v`: C106_events, C106_seek
* `WireTimeProps.v`: C106_pcr, C106_stamps, C106_time, C106_eit
* `WireProps.v`: C106_library, C106_pat, C106_pmt, C106_filter_service, C106_pipe
