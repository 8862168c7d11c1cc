{
 "claims": [
  {
   "property": "C01",
   "status": "partial",
   "theorems": [
    "C01_compare_order_refuted",
    "C01_compare_order_partial"
   ],
   "note": "Refuted in full: when the later operand has wrapped and is on the left, the result has the wrong sign. The partial theorem gives the exact result for all close pairs."
  },
  {
   "property": "C02",
   "status": "proved",
   "theorems": [
    "C02_unix_jst_inverse",
    "C02_jst_unix_inverse",
    "C02_unix_jst_shift",
    "C02_jst_unix_shift"
   ],
   "note": "Wherever neither conversion overflows int64."
  },
  {
   "property": "C03",
   "status": "proved",
   "theorems": [
    "C03_time_to_pcr",
    "C03_time_to_pcr_overflow"
   ],
   "note": "The bound in the hypothesis is the int64 range; beyond it the model reports undefined behaviour."
  },
  {
   "property": "C04",
   "status": "partial",
   "theorems": [
    "C04_clock_tracks_partial",
    "C04_exact",
    "C04_clock_tracks_refuted"
   ],
   "note": "Proved up to the second wrap after the last TOT; beyond it the statement is false (refuted). C04_exact is the exact time for any number of wraps: all wraps after the first are lost."
  },
  {
   "property": "C05",
   "status": "partial",
   "theorems": [
    "C05_fifth_glitch",
    "C05_fresh_pcr_and_tot_needed",
    "C05_four_glitches_refuted",
    "C05_exact",
    "C05_burst"
   ],
   "note": "Fifth glitch and recovery proved; tolerance of four glitches holds after a genuine PCR (C04 theorem) but is refuted right after a resynchronisation because the counter is not reset. C05_exact gives the exact rule for every history: a ready clock is lost iff the PCR is a glitch and its number since the latest genuine PCR of a ready clock, modulo 256, exceeds four."
  },
  {
   "property": "C06",
   "status": "proved",
   "theorems": [
    "C06_readiness",
    "C06_seen_unique"
   ],
   "note": "All operation sequences with valid PCRs."
  },
  {
   "property": "C07",
   "status": "proved",
   "theorems": [
    "C07_feed_protocol",
    "C07_feed_returns"
   ],
   "note": "Any source and any sink."
  },
  {
   "property": "C08",
   "status": "proved",
   "theorems": [
    "C08_chunking_irrelevant",
    "C08_source_is_packets_of"
   ],
   "note": "Any byte stream and any split into reads; a read error is treated by the code like the end of the stream and so is it in the statement."
  },
  {
   "property": "C09",
   "status": "proved",
   "theorems": [
    "C09_aligned_input_complete"
   ],
   "note": ""
  },
  {
   "property": "C10",
   "status": "proved",
   "theorems": [
    "C10_resync",
    "C10_packet_shape"
   ],
   "note": "The source is characterised as a parser of the whole byte stream; resynchronisation needs five sync bytes 188 bytes apart."
  },
  {
   "property": "C11",
   "status": "proved",
   "theorems": [
    "C11_source_safe"
   ],
   "note": "No out-of-bounds access, no assertion failure, for any bytes and any read results."
  },
  {
   "property": "C12",
   "status": "proved",
   "theorems": [
    "C12_stdout_exact",
    "C12_copy"
   ],
   "note": "Any split into short writes, no errors."
  },
  {
   "property": "C13",
   "status": "partial",
   "theorems": [
    "C13_no_corruption_refuted",
    "C13_prefix_before_end_partial",
    "C13_after_end_partial",
    "C13_atomic_writes_partial",
    "C13_exact",
    "C13_exact_deterministic"
   ],
   "note": "Refuted in full: after a write that took part of the block and one that failed, End writes the block again. Proved: a prefix before End, and after End with writes that take all or fail. C13_exact gives the exact output for every sequence of write results (copies, deterministic)."
  },
  {
   "property": "C14",
   "status": "partial",
   "theorems": [
    "C14_failure_reported_refuted",
    "C14_stops_partial",
    "C14_exact"
   ],
   "note": "Refuted: the exit code is 0 whatever happens. C14_exact: it is always 0, and nothing is missing unless a write failed; C14_stops_partial: feeding stops at the first failing write."
  },
  {
   "property": "C15",
   "status": "proved",
   "theorems": [
    "C15_ring_holds_latest",
    "C15_complete_blocks_written"
   ],
   "note": "All geometries accepted by the constructor, all start positions, all short-write schedules."
  },
  {
   "property": "C16",
   "status": "proved",
   "theorems": [
    "C16_announced_in_order",
    "C16_every_chunk_announced",
    "C16_announced_durable"
   ],
   "note": "Durability is stated against a file model where a crash may lose any unsynced write."
  },
  {
   "property": "C17",
   "status": "proved",
   "theorems": [
    "C17_no_assertion_fails",
    "C17_position",
    "C17_file_length"
   ],
   "note": ""
  },
  {
   "property": "C18",
   "status": "proved",
   "theorems": [
    "C18_errors_reported"
   ],
   "note": ""
  },
  {
   "property": "C19",
   "status": "proved",
   "theorems": [
    "C19_accepted_options_safe"
   ],
   "note": ""
  },
  {
   "property": "C20",
   "status": "proved",
   "theorems": [
    "C20_forwards_exactly",
    "C20_spec_deterministic"
   ],
   "note": "Over any downstream sink; tables are heard only on enabled PIDs, whatever TSDuck assembles."
  },
  {
   "property": "C21",
   "status": "proved",
   "theorems": [
    "C21_rewrites_only_pat"
   ],
   "note": ""
  },
  {
   "property": "C22",
   "status": "proved",
   "theorems": [
    "C22_stops_exactly",
    "C22_nothing_after"
   ],
   "note": ""
  },
  {
   "property": "C23",
   "status": "partial",
   "theorems": [
    "C23_survives_refuted",
    "C23_emm_pid_zero_refuted",
    "C23_stray_tot_refuted",
    "C23_survives_partial",
    "C23_exact"
   ],
   "note": "Refuted in full by three kinds of streams (PCR PID 0x1FFF, CA PID 0, stray TOT). Proved for all streams whose tables avoid them. C23_exact says for every stream exactly when it fails, in front of a sink that takes everything."
  },
  {
   "property": "C24",
   "status": "partial",
   "theorems": [
    "C24_refines",
    "C24_spec_deterministic",
    "C24_quiet_before",
    "C24_begins_in_window",
    "C24_halts_only_at_end",
    "C24_halts_at_end",
    "C24_end_at_wrap_refuted"
   ],
   "note": "Refinement, silence before the beginning, beginning inside the window and the end are proved for all histories and sinks, with the code's PCR comparison; refuted in full: an end (or start) just before the PCR wraps is missed."
  },
  {
   "property": "C25",
   "status": "proved",
   "theorems": [
    "C25_starts_with_pat_pmt_pcr"
   ],
   "note": ""
  },
  {
   "property": "C26",
   "status": "proved",
   "theorems": [
    "C26_gives_up_at_once",
    "C26_exit_code",
    "C26_gave_up_halted"
   ],
   "note": "Exit codes for any input: C26_exit_code, and as part of C24_refines."
  },
  {
   "property": "C27",
   "status": "partial",
   "theorems": [
    "C27_output_pmt",
    "C27_removed_pids",
    "C27_packets_partial",
    "C27_exact",
    "C27_pcr_stream_refuted"
   ],
   "note": "Refuted for a removed stream that carries the PCR; proved for all other packets and for the output PMT. C27_exact is the exact rule, packet by packet."
  },
  {
   "property": "C28",
   "status": "partial",
   "theorems": [
    "C28_clock_pair_partial",
    "C28_examined_partial",
    "C28_late_eit_refuted"
   ],
   "note": "Refuted: PCRs are ignored while the event is unknown but the TOT is not. Proved: the pairing among the PCRs examined, and which PCRs are examined."
  },
  {
   "property": "C29",
   "status": "partial",
   "theorems": [
    "C29_pmt_pid_change_refuted",
    "C29_pmt_pid_change_waiting_refuted",
    "C29_invalid_pcr_refuted",
    "C29_survives_partial",
    "C29_exact"
   ],
   "note": "Refuted by PMT PID changes and by PCRs beyond the cycle; proved for streams with one PMT PID and values in range. C29_exact says for every stream of values in range exactly when it fails, in front of a sink that takes everything."
  },
  {
   "property": "C30",
   "status": "partial",
   "theorems": [
    "C30_output_partial",
    "C30_output_lossless",
    "C30_cut",
    "C30_spec_deterministic",
    "C30_streaming_hands_all",
    "C30_refusing_sink_refuted",
    "C30_exact"
   ],
   "note": "The exact output is proved for every orderly input (demux facts, usable PATs list the service, PCRs in range) in front of a sink that accepts everything; false for a sink that refuses a packet (C30_refusing_sink_refuted): the refusal is ignored. C30_exact gives the exact rule in front of any sink, refusing or failing: it gets the packets in batches, each until it refuses."
  },
  {
   "property": "C31",
   "status": "partial",
   "theorems": [
    "C31_limit",
    "C31_packets_only_refuted",
    "C31_exact",
    "C31_search_end"
   ],
   "note": "The limit on held packets is proved for every sink and input; the second part is false: with --max-packets alone the search ends at the second PCR (C31_packets_only_refuted). C31_exact and C31_search_end list every way the search can end."
  },
  {
   "property": "C32",
   "status": "partial",
   "theorems": [
    "C32_refuted",
    "C32_survives_partial",
    "C32_exact"
   ],
   "note": "False: a PAT without the service aborts (C32_refuted). Survival is proved for orderly input, and C32_exact says exactly when it fails: iff a PAT without the service is heard while there is no change."
  },
  {
   "property": "C33",
   "status": "proved",
   "theorems": [
    "C33_grammar",
    "C33_event_order"
   ],
   "note": "Every run that does not abort (C36_no_abort: none does on sound input), with any results of file operations."
  },
  {
   "property": "C34",
   "status": "proved",
   "theorems": [
    "C34_positions",
    "C34_count"
   ],
   "note": "Positions, count and the answer to each report of the ring, for all valid geometries."
  },
  {
   "property": "C35",
   "status": "proved",
   "theorems": [
    "C35_contiguous"
   ],
   "note": "Every run that does not abort."
  },
  {
   "property": "C36",
   "status": "proved",
   "theorems": [
    "C36_records",
    "C36_spec_deterministic",
    "C36_no_abort"
   ],
   "note": "The recorded packets are exactly those of a specification in terms of the tables heard; runs on sound input do not abort."
  },
  {
   "property": "C37",
   "status": "partial",
   "theorems": [
    "C37_exact",
    "C37_partial",
    "C37_one_kind",
    "C37_refuted",
    "C37_indices"
   ],
   "note": "Proved in full when only one of the two kinds of tables (this transport stream, other transport streams) is selected (C37_one_kind), and for both when tables are told apart by the last four bits of their id (C37_partial). The claim fails when both kinds are selected (C37_refuted). C37_exact is the exact rule for output."
  },
  {
   "property": "C38",
   "status": "partial",
   "theorems": [
    "C38_partial",
    "C38_refuted"
   ],
   "note": "Proved for a section that is not the last one of its segment and whose position was last covered by another version (C38_partial). Fails for the last section of a segment (C38_refuted). C37_exact is the exact rule."
  },
  {
   "property": "C39",
   "status": "partial",
   "theorems": [
    "C39_partial",
    "C39_refuted"
   ],
   "note": "Proved while the output sections of the table keep their version and those of the half keep their last table (C39_partial). Fails when two segments carry different versions (C39_refuted). C37_exact is the exact rule."
  },
  {
   "property": "C40",
   "status": "partial",
   "theorems": [
    "C40_partial",
    "C40_refuted"
   ],
   "note": "Proved with sections excused by any output section of the table that denies them (C40_partial). Fails if the denial was taken back by a later section (C40_refuted). C59 is the exact rule."
  },
  {
   "property": "C41",
   "status": "proved",
   "theorems": [
    "C41_timeout",
    "C41_limit",
    "C41_defined",
    "C41_no_tot",
    "C41_streaming",
    "C41_run"
   ],
   "note": "For every packet, for whole runs, without a TOT, and in streaming mode."
  },
  {
   "property": "C42",
   "status": "proved",
   "theorems": [
    "C42_output"
   ],
   "note": "The documents of the output correspond one to one, in order, to delivered sections that were asked for."
  },
  {
   "property": "C43",
   "status": "proved",
   "theorems": [
    "C43_output"
   ],
   "note": "Exact for every section and every history. A section with a length field that is too large leads to undefined behaviour, see C45."
  },
  {
   "property": "C44",
   "status": "partial",
   "theorems": [
    "C44_partial",
    "C44_streaming",
    "C44_exact",
    "C44_exact_deterministic",
    "C44_throw_refuted",
    "C44_end_refuted",
    "C44_empty_refuted"
   ],
   "note": "Proved if each listed service id belongs to one service and the list is not empty (C44_partial). Without the first the program can throw (C44_throw_refuted) or end too early (C44_end_refuted); without the second it ends at once or never (C44_empty_refuted). C44_exact gives the rule the program follows for all options and streams, the throw included; C44_exact_deterministic says that it leaves no choice."
  },
  {
   "property": "C45",
   "status": "partial",
   "theorems": [
    "C45_roundtrip",
    "C45_partial",
    "C45_refuted"
   ],
   "note": "Proved: a consistent section yields exactly its events, and undefined behaviour occurs exactly for inconsistent ones. The claim that no byte outside the section is read is false (C45_refuted)."
  },
  {
   "property": "C46",
   "status": "proved",
   "theorems": [
    "C46_key",
    "C46_triples"
   ],
   "note": "For all 16-bit triples and all sections."
  },
  {
   "property": "C47",
   "status": "proved",
   "theorems": [
    "C47_returns",
    "C47_genuine",
    "C47_complete"
   ],
   "note": "All histories in which SDTs come on PID 0x11, TOTs on PID 0x14 and no PAT puts a PMT on the PID of PAT, SDT or TOT. C47_complete adds that no service is left out if there was one SDT since the PAT. C47_returns: it returns if all PCRs are in range; a PCR beyond the range aborts it."
  },
  {
   "property": "C48",
   "status": "partial",
   "theorems": [
    "C48_partial",
    "C48_single_partial",
    "C48_refuted"
   ],
   "note": "Proved: the time is that of the latest TOT, which is right for every PCR that no TOT follows (C48_partial), and always right if there is one PCR PID (C48_single_partial). False in general (C48_refuted)."
  },
  {
   "property": "C49",
   "status": "partial",
   "theorems": [
    "C49_partial",
    "C49_refuted",
    "C49_exact",
    "C49_services",
    "C49_stuck_refuted"
   ],
   "note": "Proved for one SDT between the latest PAT and the PMTs, and distinct PMT PIDs (C49_partial). With the SDT received twice it never ends (C49_refuted). Exact rule on a steady broadcast (tables that do not change, every service with its own PMT PID): exit code 0 if and only if no second SDT arrives before all PMTs and a TOT and the PCRs follow in order (C49_exact, C49_services); otherwise it is stuck whatever follows (C49_stuck_refuted)."
  },
  {
   "property": "C50",
   "status": "proved",
   "theorems": [
    "C50_returns",
    "C50_scan"
   ],
   "note": "All histories and options. scan-services always returns (C50_returns), and its output and exit code are those of the specification (C50_scan)."
  },
  {
   "property": "C51",
   "status": "proved",
   "theorems": [
    "C51_airtime"
   ],
   "note": "All histories whose event times are dates TSDuck can deliver and whose durations fit (sane_eits)."
  },
  {
   "property": "C52",
   "status": "proved",
   "theorems": [
    "C52_metadata"
   ],
   "note": "All histories with sane event times. Descriptors and the JSON text of the events are in C68 and C85."
  },
  {
   "property": "C53",
   "status": "proved",
   "theorems": [
    "C53_png",
    "C53_insert",
    "C53_logos"
   ],
   "note": "All byte strings; the inserted chunks entry by entry. C53_logos: the documents for any list of logos. The download of the logo data (LibISDB) is not modelled."
  },
  {
   "property": "C54",
   "status": "partial",
   "theorems": [
    "C54_partial",
    "C54_exact",
    "C54_hex_refuted",
    "C54_range_refuted"
   ],
   "note": "Proved for lists of decimal numerals up to 65535 (C54_partial), and what any list does (C54_exact). The full claim is false: hexadecimal numbers are dropped, which can leave an empty set that selects everything (C54_hex_refuted), and numbers out of range select other services (C54_range_refuted)."
  },
  {
   "property": "C55",
   "status": "proved",
   "theorems": [
    "C55_pcr_text",
    "C55_pcr_text_order",
    "C55_pcr_text_invalid"
   ],
   "note": "All PCRs."
  },
  {
   "property": "C56",
   "status": "partial",
   "theorems": [
    "C56_returns",
    "C56_lines",
    "C56_reference",
    "C56_time_partial",
    "C56_wrap_refuted"
   ],
   "note": "No abort on valid PTS, DTS and PCRs (C56_returns); all lines exactly (C56_lines); every time is the latest TOT plus the difference to a PCR of that PID (C56_reference), exact along admissible streams within one PCR cycle (C56_time_partial). Across a PCR wrap before the next TOT the printed time is 26.5 hours off (C56_wrap_refuted)."
  },
  {
   "property": "C57",
   "status": "proved",
   "theorems": [
    "C57_wall_clock",
    "C57_before_tot"
   ],
   "note": "All histories, with a TOT (C57_wall_clock) or without (C57_before_tot); times bounded by 2^61 ms so that int64 sums are defined."
  },
  {
   "property": "C58",
   "status": "proved",
   "theorems": [
    "C58_tags"
   ],
   "note": "All lists of strings."
  },
  {
   "property": "C59",
   "status": "proved",
   "theorems": [
    "C59_end",
    "C59_run"
   ],
   "note": "Exact: the completion flag of the model is equivalent to the independent history condition; both directions, for one packet and for whole runs."
  },
  {
   "property": "C60",
   "status": "proved",
   "theorems": [
    "C60_messages",
    "C60_spec_deterministic"
   ],
   "note": "Full refinement: the messages are those of a journal defined on the input (JournalSpec); packets are assumed to be 188 bytes."
  },
  {
   "property": "C61",
   "status": "proved",
   "theorems": [
    "C61_any_command",
    "C61_filter_service",
    "C61_bytes"
   ],
   "note": "Any demultiplexer behaviour (a function of the bytes seen), any read splitting, any write splitting without errors. Bytes theorem assumes that TSDuck keeps the bytes and reads the PID from the header."
  },
  {
   "property": "C62",
   "status": "proved",
   "theorems": [
    "C62_filter_program",
    "C62_survives"
   ],
   "note": "Full refinement of the command; survival under the stated conditions on PIDs and ranges (C23 and C29 have the counterexamples without them)."
  },
  {
   "property": "C63",
   "status": "proved",
   "theorems": [
    "C63_record_service",
    "C63_no_abort"
   ],
   "note": "Reduces the command to the recorder's runs, on which C33-C36 and C60 are stated."
  },
  {
   "property": "C64",
   "status": "proved",
   "theorems": [
    "C64_seek_start",
    "C64_bytes"
   ],
   "note": "On orderly input, as C30."
  },
  {
   "property": "C65",
   "status": "proved",
   "theorems": [
    "C65_sid_wraps",
    "C65_collect_eits",
    "C65_collect_eitpfs",
    "C65_filter_program"
   ],
   "note": "docopt itself is not modelled: the options are the values it has parsed."
  },
  {
   "property": "C66",
   "status": "partial",
   "theorems": [
    "C66_palette_refuted",
    "C66_palette_partial"
   ],
   "note": "False as stated: four entries repeat magenta and white (C66_palette_refuted). All other entries and all alpha values are right (C66_palette_partial)."
  },
  {
   "property": "C67",
   "status": "partial",
   "theorems": [
    "C67_items",
    "C67_object",
    "C67_safe_partial",
    "C67_overread_refuted"
   ],
   "note": "Items are put together for every fragmentation (C67_items); no byte outside is read if length_of_items stays inside the descriptor (C67_safe_partial). Otherwise it always reads outside (C67_overread_refuted)."
  },
  {
   "property": "C68",
   "status": "proved",
   "theorems": [
    "C68_descriptors",
    "C68_no_extended",
    "C68_eits"
   ],
   "note": "Over any parser of the descriptor bytes (LibISDB) and any decoder of ARIB strings."
  },
  {
   "property": "C69",
   "status": "proved",
   "theorems": [
    "C69_places",
    "C69_window",
    "C69_readback"
   ],
   "note": "Positions, the window that is safely on disk, and the bytes read back, computed from the messages; every ring size, every crash point."
  },
  {
   "property": "C70",
   "status": "proved",
   "theorems": [
    "C70_once",
    "C70_run"
   ],
   "note": "Each section once at its first appearance; the run is total; two-sided bound on where it ends."
  },
  {
   "property": "C71",
   "status": "partial",
   "theorems": [
    "C71_partial",
    "C71_refuted"
   ],
   "note": "Refuted for services of which nothing has come yet; proved for every half of the tables of a service of which something has come."
  },
  {
   "property": "C72",
   "status": "proved",
   "theorems": [
    "C72_window"
   ],
   "note": ""
  },
  {
   "property": "C73",
   "status": "proved",
   "theorems": [
    "C73_position",
    "C73_resumed"
   ],
   "note": ""
  },
  {
   "property": "C74",
   "status": "partial",
   "theorems": [
    "C74_reported_refuted",
    "C74_read_error_exact",
    "C74_unopened_exact"
   ],
   "note": "False: exit code 0 after a read error (C74_reported_refuted). The exact rule, for every command: a read error is taken for the end of the file, a file that cannot be opened for an empty one."
  },
  {
   "property": "C75",
   "status": "partial",
   "theorems": [
    "C75_reported_refuted",
    "C75_unopened_partial",
    "C75_no_name_refuted"
   ],
   "note": "False below 8 KiB (C75_reported_refuted) and for an empty file name, which aborts (C75_no_name_refuted). C75_unopened_partial is the rest: nothing written, nothing announced, non-zero exit code."
  },
  {
   "property": "C76",
   "status": "proved",
   "theorems": [
    "C76_scan_services",
    "C76_sync_clocks",
    "C76_metadata",
    "C76_airtime",
    "C76_collect_eits",
    "C76_print_pes"
   ],
   "note": "For sync-clocks, filter-program-metadata, track-airtime and print-pes times and PCRs are in the ranges of the tables; for collect-eits the carousel is steady (C70)."
  },
  {
   "property": "C77",
   "status": "proved",
   "theorems": [
    "C77_run",
    "C77_collect_eitpfs"
   ],
   "note": "Sections are consistent (C45 tells what happens otherwise)."
  },
  {
   "property": "C78",
   "status": "proved",
   "theorems": [
    "C78_others_do_not_matter",
    "C78_filter_service",
    "C78_filter_program",
    "C78_record_service"
   ],
   "note": "C78_others_do_not_matter holds for any sink behind the service filter; the others go from the bytes of two files to output, recording and exit code. Assumes that TSDuck's demultiplexer handles each PID by itself (per_pid)."
  },
  {
   "property": "C79",
   "status": "proved",
   "theorems": [
    "C79_steady",
    "C79_same_list",
    "C79_scan_services"
   ],
   "note": "C79_steady for every interleaving in which an SDT and then a NIT follow a PAT; C79_same_list: the output depends on the tables only; C79_scan_services from options and bytes of the file."
  },
  {
   "property": "C80",
   "status": "partial",
   "theorems": [
    "C80_twice_partial",
    "C80_cat_refuted"
   ],
   "note": "Refuted in full: EMM packets announced by a CAT before the first PAT are dropped by the second filter (C80_cat_refuted). Proved for streams in which no CAT comes before the first PAT, for every sink (C80_twice_partial); assumes that both demultiplexers complete the same tables."
  },
  {
   "property": "C81",
   "status": "proved",
   "theorems": [
    "C81_packets",
    "C81_filter_service",
    "C81_filter_program",
    "C81_record_service",
    "C81_scan_services",
    "C81_sync_clocks",
    "C81_collect_eits",
    "C81_collect_eitpfs",
    "C81_metadata",
    "C81_track_airtime",
    "C81_print_pes",
    "C81_collect_logos",
    "C81_seek_start_differs"
   ],
   "note": "One theorem per command; C81_packets for the packet cutter (including resynchronisation); C81_seek_start_differs shows the exception."
  },
  {
   "property": "C82",
   "status": "proved",
   "theorems": [
    "C82_collect_logos",
    "C82_data_once",
    "C82_data_complete"
   ],
   "note": "From the results of read() to the documents, for any behaviour of LibISDB (C82_collect_logos). Base 64 as in RFC 4648: every byte string has a text (C82_data_complete) and no two have the same (C82_data_once). LibISDB itself and the JSON text are not modelled."
  },
  {
   "property": "C83",
   "status": "proved",
   "theorems": [
    "C83_columns",
    "C83_read_back",
    "C83_print_pes"
   ],
   "note": "The columns and messages (C83_columns), the whole run from the results of read() (C83_print_pes), and unambiguity (C83_read_back). How TSDuck writes a time is a parameter: any function giving 23 characters, without line feed or leading blank, different for different times."
  },
  {
   "property": "C84",
   "status": "proved",
   "theorems": [
    "C84_document",
    "C84_lines"
   ],
   "note": "rapidjson's Writer is modelled from its documentation; UTF-8 validity of strings is not claimed"
  },
  {
   "property": "C85",
   "status": "partial",
   "theorems": [
    "C85_scan_services",
    "C85_sync_clocks",
    "C85_track_airtime",
    "C85_collect_eits",
    "C85_filter_program_metadata",
    "C85_collect_logos",
    "C85_record_service_partial",
    "C85_end_refuted",
    "C85_types_refuted",
    "C85_logo_id_refuted"
   ],
   "note": "proved for all commands but for the last message of record-service: documented as end, sent as stop (C85_end_refuted). The help of scan-services also says that logoId is always -1 and lists six service types; both are false (C85_logo_id_refuted, C85_types_refuted)"
  },
  {
   "property": "C86",
   "status": "proved",
   "theorems": [
    "C86_filter_service",
    "C86_any_sink",
    "C86_filter_program",
    "C86_record_service",
    "C86_seek_start"
   ],
   "note": "Continuity counters themselves are not modelled: what is proved is that raw packets come without gaps and that all others are made by the packetizers, which TSDuck lets number their packets consecutively. For seek-start PID 0 is left out: the one PAT packet it puts in front may be followed by a gap."
  },
  {
   "property": "C87",
   "status": "proved",
   "theorems": [
    "C87_ends",
    "C87_refused",
    "C87_accepted",
    "C87_exit_codes",
    "C87_seek_start_help",
    "C87_input",
    "C87_json"
   ],
   "note": "The command line is taken as parsed by docopt. Times of filter-program are taken to be below 2^60 ms in absolute value. For record-service, acceptance and the form of the output are stated for --file other than the empty string (with it, packets go between the messages)."
  },
  {
   "property": "C88",
   "status": "partial",
   "theorems": [
    "C88_recording_partial",
    "C88_unnoticed_partial",
    "C88_reported_refuted"
   ],
   "note": "False (finding 26): StdoutJsonlSink::HandleDocument always returns true and nobody looks at the state of std::cout. Refuted by scan-services, whose document is lost while it ends with 0. What holds, for every JSON command: the exit code and the calls on the recording file are the same as with a working standard output, and what gets out is a prefix of what would have got out; with an empty --file the packets of record-service all get out whatever becomes of the messages (C88_recording_partial)."
  },
  {
   "property": "C89",
   "status": "partial",
   "theorems": [
    "C89_scan_services",
    "C89_sync_clocks",
    "C89_track_airtime",
    "C89_program_metadata",
    "C89_collect_eits_partial",
    "C89_collect_eitpfs_partial",
    "C89_collect_eitpfs_refuted",
    "C89_collect_eits_refuted"
   ],
   "note": "Proved for scan-services, sync-clocks, track-airtime and filter-program-metadata in full; for collect-eits with a positive time limit or --streaming, for collect-eitpf with --sids (and not both --present and --following) or --streaming. Without --sids collect-eitpf ends at the first packet if that packet is on another PID, and so does collect-eits with --time-limit=0: both refuted (finding 27)."
  },
  {
   "property": "C90",
   "status": "proved",
   "theorems": [
    "C90_filter_service",
    "C90_filter_program",
    "C90_seek_start",
    "C90_scan_services",
    "C90_sync_clocks",
    "C90_collect_eits",
    "C90_collect_eitpf",
    "C90_collect_logos",
    "C90_metadata",
    "C90_track_airtime",
    "C90_record_service",
    "C90_print_pes",
    "C90_record_stdout"
   ],
   "note": "One theorem per command. The conditions of the parts (C61 - C64, C76, C77, C82, C83) stay; that the positions and times in the messages of record-service are in range, a hypothesis of C85, is proved here. C90_record_stdout covers record-service with an empty --file, where packets and messages share the standard output."
  },
  {
   "property": "C91",
   "status": "proved",
   "theorems": [
    "C91_packets",
    "C91_any",
    "C91_filter_service",
    "C91_filter_program",
    "C91_seek_start",
    "C91_record_service",
    "C91_collect_eits",
    "C91_collect_eitpfs",
    "C91_metadata",
    "C91_track_airtime"
   ],
   "note": "scan-services and sync-clocks report at the end, by design. print-pes is left out: fmt::print goes through the buffer of stdio, which is not modelled. For collect-logos see C91_any; what LibISDB holds back is not modelled."
  },
  {
   "property": "C92",
   "status": "proved",
   "theorems": [
    "C92_services_apart",
    "C92_services_apart_pf",
    "C92_collect_eits",
    "C92_collect_eits_once",
    "C92_collect_eitpf",
    "C92_scan_services"
   ],
   "note": "The run without a selection must not crash (see C45). Without --streaming one output is a prefix of the other. sync-clocks is left out: a selection changes when it is done."
  },
  {
   "property": "C93",
   "status": "proved",
   "theorems": [
    "C93_other_commands",
    "C93_print_pes",
    "C93_recording",
    "C93_messages",
    "C93_record_service",
    "C93_record_service_file"
   ],
   "note": "The equality of all of the output of record-service needs that the stream clock stays ready once recording has started; without it, the recording is the same but not the times in the messages."
  },
  {
   "property": "C94",
   "status": "proved",
   "theorems": [
    "C94_filter_service",
    "C94_filter_program",
    "C94_record_service"
   ],
   "note": "Under the conditions of C80 on the tables (well placed, PAT first, the second demultiplexer hears each new PAT)."
  },
  {
   "property": "C95",
   "status": "proved",
   "theorems": [
    "C95_events",
    "C95_information",
    "C95_whole"
   ],
   "note": "Under the conditions of C80 on the tables (well placed, PAT first); the exceptions for the collectors are those of C89."
  },
  {
   "property": "C96",
   "status": "proved",
   "theorems": [
    "C96_collect_eits",
    "C96_actual",
    "C96_collect_eitpf",
    "C96_present_following",
    "C96_filter_program"
   ],
   "note": "--actual and --others without --streaming are left out: the end of the collection depends on the services seen, so the output with the option can be longer than the selected lines without it."
  },
  {
   "property": "C97",
   "status": "proved",
   "theorems": [
    "C97_noise",
    "C97_once",
    "C97_mangled",
    "C97_lost"
   ],
   "note": "Up to 187 bytes after the last packet are dropped in all cases. Noise in which sync bytes happen to stand 188 bytes apart four times in a row is taken for packets (C10)."
  },
  {
   "property": "C98",
   "status": "proved",
   "theorems": [
    "C98_same_moment",
    "C98_wrong_clock"
   ],
   "note": "The second part does not hold when the PCR moves to another PID: the clock is then taken from the broadcast, which mends a wrong --clock-time but not the margins (C98_wrong_clock_refuted, an Example)."
  },
  {
   "property": "C99",
   "status": "proved",
   "theorems": [
    "C99_nothing_lost",
    "C99_nothing_twice",
    "C99_in_turn"
   ],
   "note": "About the parts of the stream; what is output of each part (PAT and PMT in front, removed streams) is C72."
  },
  {
   "property": "C100",
   "status": "proved",
   "theorems": [
    "C100_recorded"
   ],
   "note": "The conditions name what TSDuck completes for each of the two demultiplexers; that the regenerated PAT packet at which the first PAT is complete is a complete PAT for the second demultiplexer is one of them (bc_pat). The output of the unhappy cases is C90 (C90_filter_program)."
  },
  {
   "property": "C101",
   "status": "proved",
   "theorems": [
    "C101_clock",
    "C101_late"
   ],
   "note": "With more than one PCR PID the time may be that of a TOT after the PCR (C48)."
  },
  {
   "property": "C102",
   "status": "proved",
   "theorems": [
    "C102_seek"
   ],
   "note": ""
  },
  {
   "property": "C103",
   "status": "proved",
   "theorems": [
    "C103_schedule",
    "C103_heard",
    "C103_on_time",
    "C103_main"
   ],
   "note": ""
  },
  {
   "property": "C104",
   "status": "proved",
   "theorems": [
    "C104_program"
   ],
   "note": ""
  },
  {
   "property": "C105",
   "status": "proved",
   "theorems": [
    "C105_cut",
    "C105_whole",
    "C105_held",
    "C105_no_pcr"
   ],
   "note": ""
  },
  {
   "property": "C106",
   "status": "proved",
   "theorems": [
    "C106_library",
    "C106_pat",
    "C106_pmt",
    "C106_filter_service",
    "C106_pipe",
    "C106_events",
    "C106_seek",
    "C106_pcr",
    "C106_stamps",
    "C106_time",
    "C106_eit"
   ],
   "note": ""
  }
 ]
}
