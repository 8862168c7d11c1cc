(** mirakc-arib as a whole: /repo/src/main.cc:1296-1449, from the arguments parsed
    by docopt to the exit code and what is written to the standard output.
    Logging (to the standard error), --help and --version are left out. *)
From Coq Require Import Ascii String ZArith List Bool.
From Verif Require Import Base.Outcome Base.Util Model.Pcr Model.Sink Model.FileSource Model.StdoutSink Model.Ts Model.Descriptors
  Model.RecorderOption Model.RingFileSink Model.ServiceRecorder Model.StartSeeker Model.Commands Model.PosixFile Model.JsonText
  Model.PesText Model.Documents.
From Verif Require Model.EitCollector Model.EitpfCollector Model.EitSection Model.AirtimeTracker Model.ServiceScanner
  Model.PcrSynchronizer Model.PesPrinter Model.Logo.
Import ListNotations.
Open Scope Z_scope.

(** main.cc:59-80, 1110-1294: the commands and their options. *)
Inductive command :=
| ScanServices (sids xsids : option (list (list Z)))
| SyncClocks (sids xsids : option (list (list Z)))
| CollectEits (sids xsids : option (list (list Z))) (time_limit : option Z) (streaming only_actual only_others : bool)
| CollectEitpf (sids : option (list (list Z))) (streaming present following : bool)
| CollectLogos
| FilterService (sid : Z)
| FilterProgram (args : program_args)
| FilterProgramMetadata (sid : option Z)
| RecordService (sid : Z) (file : list Z) (chunk_size num_chunks : Z) (start_pos : option Z)
| TrackAirtime (sid eid : Z)
| SeekStart (sid : Z) (max_duration max_packets : option Z)
| PrintPes.

(** The libraries: what TSDuck and LibISDB make of the packets, and texts made
    from their data; see the models of the commands.  --use-unicode-symbol and
    MIRAKC_ARIB_KEEP_UNICODE_SYMBOLS have an effect on [li_decode] only.
    [li_help] is kSeekStartHelp. *)
Record library := mkLibrary {
  li_packet : list (list Z) -> list Z -> packet;
  li_deliveries : list (list Z) -> list Z -> list EitCollector.delivery;
  li_sections : list (list Z) -> list Z -> list EitSection.section;
  li_logos : list (list Z) -> list Z -> list Logo.logo * bool;
  li_closing : list (list Z) -> list Logo.logo;
  li_bytes : packet -> list Z;
  li_npackets : pmt -> nat;
  li_mjd : list Z -> option Z;
  li_decode : list Z -> string;
  li_name : Z -> string;
  li_parts : Z -> bool * list descriptor;
  li_parsers : parsers;
  li_block : list Z -> list (list Z) * option (list (list Z * list Z));
  li_show : Z -> string;
  li_help : string }.

(** The system: the name of the input file and the result of open(2) for it, the
    results of read(2), the results of write(2) on the standard output, what
    becomes of the flushes of std::cout, the wall clock, and for record-service
    the result of open(2) and of the calls on the file. *)
Record system := mkSystem {
  sy_path : list Z;
  sy_fd : Z;
  sy_reads : list read_result;
  sy_writes : list write_result;
  sy_flushes : list (option Z);
  sy_local : nat -> Z;
  sy_file_fd : Z;
  sy_ops : list Z }.

Definition text_bytes (s : string) : list Z := map (fun c => Z.of_nat (nat_of_ascii c)) (list_ascii_of_string s).

(** jsonl_sink.hh:25-31: each line goes to std::cout and is flushed by std::endl.
    [None]: all of it gets out; [Some n]: [n] bytes of it (with those that stdio
    may get out at the exit), the stream gets bad, and what is written to a bad
    stream is dropped.  When used up, flushes
    succeed.  Nobody looks at the state of the stream.  What is not a line for
    std::cout ([false]) is written directly. *)
Fixpoint to_cout (flushes : list (option Z)) (bad : bool) (ls : list (bool * list Z)) : list Z :=
  match ls with
  | [] => []
  | (false, l) :: r => l ++ to_cout flushes bad r
  | (true, l) :: r =>
      if bad then to_cout flushes bad r
      else match flushes with
           | [] => l ++ to_cout [] false r
           | None :: f => l ++ to_cout f false r
           | Some n :: f => ztake n l ++ to_cout f true r
           end
  end.
Definition json_line (decode : list Z -> string) (j : json) : bool * list Z := (true, text_bytes (write decode j ++ newline)).

(** How the process ends: with an exit code, or not regularly. *)
Record ended := mkEnded {
  en_code : Z;
  en_stdout : list Z;
  en_trace : list entry }.        (* record-service: messages and calls on the file *)

(** What is left of the state of a command: the standard output. *)
Definition report {S} (r : option (res (Z * (list (list Z) * S)))) (out : S -> res (list Z)) (trace : S -> list entry) : option (res ended) :=
  match r with
  | None => None
  | Some m => Some (let* (code, x) := m in let* o := out (snd x) in Ok (mkEnded code o (trace (snd x))))
  end.

Section Main.
Variable lib : library.
Variable sys : system.

Definition the_reads : list read_result := map (px_Read (px_open_read (sy_path sys) (sy_fd sys))) (sy_reads sys).

Definition report_jsonl {S} (r : option (res (Z * (list (list Z) * S)))) (docs : S -> list json) : option (res ended) :=
  report r (fun s => Ok (to_cout (sy_flushes sys) false (map (json_line (li_decode lib)) (docs s)))) (fun _ => []).

(** record-service: messages go to std::cout, and the packets to the same
    descriptor if --file is empty. *)
Fixpoint trace_lines (stdio : bool) (t : list entry) : res (list (bool * list Z)) :=
  match t with
  | [] => Ok []
  | Msg m :: r =>
      let* j := message_json (li_parts lib) (li_parsers lib) m in
      let* ls := trace_lines stdio r in
      Ok (json_line (li_decode lib) j :: ls)
  | Ring (EvWrite bs) :: r =>
      let* ls := trace_lines stdio r in
      Ok (if stdio then (false, bs) :: ls else ls)
  | Ring _ :: r => trace_lines stdio r
  end.
(** main.cc:1296-1390 and 1424-1449 *)
Definition main (c : command) (fuel : nat) : option (res ended) :=
  match c with
  | ScanServices sids xsids =>
      report_jsonl (scan_services_main (li_packet lib) sids xsids the_reads fuel)
        (fun s => map (services_json (li_name lib)) (ServiceScanner.sc_out s))
  | SyncClocks sids xsids =>
      report_jsonl (sync_clocks_main (li_packet lib) sids xsids the_reads fuel) (fun s => map clocks_json (PcrSynchronizer.ps_out s))
  | CollectEits sids xsids time_limit streaming only_actual only_others =>
      report_jsonl (collect_eits_main (li_mjd lib) (li_deliveries lib) sids xsids time_limit streaming only_actual only_others the_reads fuel)
        (fun s => map (eit_json (li_parsers lib) (li_block lib)) (EitCollector.ec_out s))
  | CollectEitpf sids streaming present following =>
      report_jsonl (collect_eitpfs_main (li_mjd lib) (li_sections lib) sids streaming present following the_reads fuel)
        (fun s => map (eit_json (li_parsers lib) (li_block lib)) (EitpfCollector.pf_out s))
  | CollectLogos =>
      report_jsonl (collect_logos_main (li_logos lib) (li_closing lib) the_reads fuel) (fun s => map logo_json (Logo.lc_out s))
  | FilterService sid =>
      report (filter_service_main (li_packet lib) (li_bytes lib) sid the_reads (sy_writes sys) fuel)
        (fun s => Ok (so_out (snd s))) (fun _ => [])
  | FilterProgram a =>
      match load_program_filter a with
      | Fail f => Some (Fail f)
      | Ok None => Some (Fail AssertFail)       (* std::abort *)
      | Ok (Some o) =>
          report (filter_program_main (li_packet lib) (li_bytes lib) (li_npackets lib) (pa_sid a) o the_reads (sy_writes sys) fuel)
            (fun s => Ok (so_out (snd (snd s)))) (fun _ => [])
      end
  | FilterProgramMetadata sid =>
      report_jsonl (program_metadata_main (li_packet lib) sid the_reads fuel) (map (meta_json (li_parts lib) (li_parsers lib)))
  | RecordService sid file chunk_size num_chunks start_pos =>
      match load_recorder_option chunk_size num_chunks start_pos with
      | None => Some (Fail AssertFail)          (* std::abort *)
      | Some (cs, nc, start) =>
          report (record_on (li_packet lib) (li_bytes lib) sid (mkRcOption (id16 sid) cs nc start) (sy_local sys) file (sy_file_fd sys)
                    (sy_ops sys) the_reads fuel)
            (fun s => let* ls := trace_lines (px_stdio (px_open_write file (sy_file_fd sys))) (rc_trace (snd s)) in
                      Ok (to_cout (sy_flushes sys) false ls))
            (fun s => rc_trace (snd s))
      end
  | TrackAirtime sid eid =>
      report_jsonl (track_airtime_main (li_packet lib) sid eid the_reads fuel) (fun s => map airtime_json (AirtimeTracker.at_out s))
  | SeekStart sid max_duration max_packets =>
      match ss_LoadOption sid max_duration max_packets with
      | None => Some (Ok (mkEnded EXIT_FAILURE (text_bytes (li_help lib)) []))      (* exit(EXIT_FAILURE) *)
      | Some o =>
          report (seek_start_main (li_packet lib) (li_bytes lib) o the_reads (sy_writes sys) fuel)
            (fun s => Ok (so_out (snd s))) (fun _ => [])
      end
  | PrintPes =>
      report (print_pes_main (li_packet lib) the_reads fuel)
        (fun s => Ok (text_bytes (pp_output (li_show lib) (PesPrinter.pp_out s)))) (fun _ => [])
  end.

End Main.
