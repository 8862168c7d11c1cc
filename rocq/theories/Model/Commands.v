(** The commands as wholes: main (/repo/src/main.cc:1424-1449), MakePacketSource
    (1040-1047), MakePacketSink (1296-1390) and the LoadOption functions
    (1110-1294).  docopt is not modelled: the arguments are the values it has
    parsed, [None] for an option that is not given. *)
From Coq Require Import ZArith List Bool.
From Verif Require Import Base.Outcome Base.Util Model.Pcr Model.Sink Model.FileSource Model.StdoutSink Model.Ts Model.Options
  Model.ServiceFilter Model.RecorderOption Model.RingFileSink Model.ServiceRecorder Model.StartSeeker.
From Verif Require Model.ProgramFilter Model.EitCollector Model.EitpfCollector Model.AirtimeTracker Model.MetadataFilter Model.ServiceScanner
  Model.PcrSynchronizer Model.PesPrinter Model.Logo.
Import ListNotations.
Open Scope Z_scope.

(** static_cast<uint16_t>(args.at(...).asLong()) *)
Definition id16 (v : Z) : Z := v mod 2 ^ 16.

Section Source.
(** What TSDuck makes of the bytes of a packet, given the bytes of the packets
    before it (newest first).  A packet is what its sink takes it for: see the
    models of the sinks. *)
Context {P : Type}.
Variable view : list (list Z) -> list Z -> P.

(** packet_source.hh:34-37: the source hands 188 bytes to the sink as a
    ts::TSPacket.  The state keeps the bytes seen. *)
Definition viewed (k : sink P) : sink (list Z) :=
  mkSink (list (list Z) * sk_state k)
    (fun x => let* (d, ok) := sk_start k (snd x) in Ok ((fst x, d), ok))
    (fun x b => let* (d, ok) := sk_handle k (snd x) (view (fst x) b) in Ok ((b :: fst x, d), ok))
    (fun x => let* d := sk_end k (snd x) in Ok (fst x, d))
    (fun x => sk_exit k (snd x)).

(** main.cc:1424-1449 with 1040-1047: [k] is the sink made by MakePacketSink. *)
Definition run_main (k : sink P) (reads : list read_result) (d : sk_state k) (fuel : nat) :
    option (res (Z * (list (list Z) * sk_state k))) :=
  FeedPackets file_source (viewed k) fuel (fs_init reads) ([], d).

End Source.

Section Commands.
(** [view] as above, and the bytes of a packet. *)
Variable view : list (list Z) -> list Z -> packet.
Variable bytes : packet -> list Z.

(** packet_sink.hh:57-117: StdoutSink takes [packet.b]. *)
Definition to_stdout : sink packet :=
  mkSink stdout_state (sk_start stdout_sink) (fun s p => sk_handle stdout_sink s (bytes p))
    (sk_end stdout_sink) (sk_exit stdout_sink).

(** main.cc:1150-1159 LoadOption(ServiceFilterOption): the time limit is never
    set. *)
Definition load_service_filter (sid : option Z) : service_filter_option :=
  mkSfOption (match sid with Some v => id16 v | None => 0 end) None.

(** main.cc:1332-1338 *)
Definition filter_service (sid : Z) : sink packet := service_filter 0 (load_service_filter (Some sid)) to_stdout.
Definition filter_service_main (sid : Z) (reads : list read_result) (writes : list write_result) (fuel : nat) :=
  run_main view (filter_service sid) reads (sf_init (load_service_filter (Some sid)), so_init writes) fuel.

(** The options of filter-program; times are Unix times in milliseconds. *)
Record program_args := mkProgramArgs {
  pa_sid : Z;
  pa_eid : Z;
  pa_clock_pid : Z;
  pa_clock_pcr : Z;
  pa_clock_time : Z;
  pa_audio_tags : option (list (list Z));
  pa_video_tags : option (list (list Z));
  pa_start_margin : option Z;
  pa_end_margin : option Z;
  pa_wait_until : option Z;
  pa_pre_streaming : bool }.

Definition or_zero (v : option Z) : Z := match v with Some x => x | None => 0 end.

(** main.cc:1161-1208 LoadOption(ProgramFilterOption); [None]: std::abort after an
    error message about the component tags. *)
Definition load_program_filter (a : program_args) : res (option ProgramFilter.program_filter_option) :=
  let* time := ConvertUnixTimeToJstTime (pa_clock_time a) in
  let* audio := LoadComponentTags (pa_audio_tags a) in
  match audio with
  | None => Ok None
  | Some audio =>
      let* video := LoadComponentTags (pa_video_tags a) in
      match video with
      | None => Ok None
      | Some video =>
          let* wait := match pa_wait_until a with
                       | None => Ok None
                       | Some w => let* t := ConvertUnixTimeToJstTime w in Ok (Some t)
                       end in
          Ok (Some (ProgramFilter.mkPfOption (id16 (pa_sid a)) (id16 (pa_eid a)) (id16 (pa_clock_pid a)) (pa_clock_pcr a) time
            audio video (or_zero (pa_start_margin a)) (or_zero (pa_end_margin a)) wait (pa_pre_streaming a)))
      end
  end.

(** main.cc:1339-1349.  [npackets] is the number of packets of a PMT section. *)
Definition filter_program (npackets : pmt -> nat) (sid : Z) (o : ProgramFilter.program_filter_option) : sink packet :=
  service_filter 0 (load_service_filter (Some sid)) (ProgramFilter.program_filter npackets o to_stdout 1).
Definition filter_program_main (npackets : pmt -> nat) (sid : Z) (o : ProgramFilter.program_filter_option)
    (reads : list read_result) (writes : list write_result) (fuel : nat) :=
  run_main view (filter_program npackets sid o) reads
    (sf_init (load_service_filter (Some sid)), (ProgramFilter.pf_init o, so_init writes)) fuel.

(** main.cc:1357-1371; the ring [r] is RingFileSink's constructor's. *)
Definition record_service (sid : Z) (o : recorder_option) (local : nat -> Z) : sink packet :=
  service_filter 0 (load_service_filter (Some sid)) (recorder o local bytes 1).
Definition record_service_main (sid : Z) (o : recorder_option) (local : nat -> Z) (s : rec_state)
    (reads : list read_result) (fuel : nat) :=
  run_main view (record_service sid o local) reads (sf_init (load_service_filter (Some sid)), s) fuel.

(** main.cc:1379-1385 *)
Definition seek_start (o : start_seeker_option) : sink packet := start_seeker o to_stdout 0.
Definition seek_start_main (o : start_seeker_option) (reads : list read_result) (writes : list write_result) (fuel : nat) :=
  run_main view (seek_start o) reads (ss_init, so_init writes) fuel.

End Commands.

(** main.cc:1210-1217 LoadOption(ProgramMetadataFilterOption) *)
Definition load_metadata_filter (sid : option Z) : Z := match sid with Some v => id16 v | None => 0 end.

(** main.cc:1110-1134 LoadOption(EitCollectorOption), eit_collector.hh:23-30 *)
Definition load_eit_collector (sids xsids : option (list (list Z))) (time_limit : option Z)
    (streaming only_actual only_others : bool) : res EitCollector.eit_option :=
  let* s := LoadSidSet sids in
  let* x := LoadSidSet xsids in
  Ok (EitCollector.mkEitOption s x (match time_limit with Some v => v | None => 30000 end) streaming
    (negb only_others) (negb only_actual)).

(** main.cc:1136-1148 LoadOption(EitpfCollectorOption) *)
Definition load_eitpf_collector (sids : option (list (list Z))) (streaming present following : bool) : res EitpfCollector.pf_option :=
  let* s := LoadSidSet sids in
  Ok (EitpfCollector.mkPfOption s streaming (negb following) (negb present)).

(** In the commands below the options come first, then the packets; an exception
    in the former is the end. *)

(** main.cc:1297-1304 *)
Definition load_service_scanner (sids xsids : option (list (list Z))) : res ServiceScanner.sc_option :=
  let* s := LoadSidSet sids in
  let* x := LoadSidSet xsids in
  Ok (ServiceScanner.mkScOption s x).
Definition scan_services_main (view : list (list Z) -> list Z -> packet) (sids xsids : option (list (list Z)))
    (reads : list read_result) (fuel : nat) : option (res (Z * (list (list Z) * ServiceScanner.sc_state))) :=
  match load_service_scanner sids xsids with
  | Fail f => Some (Fail f)
  | Ok o => run_main view (ServiceScanner.sc_sink o) reads ServiceScanner.sc_init fuel
  end.

(** main.cc:1305-1312 *)
Definition load_pcr_synchronizer (sids xsids : option (list (list Z))) : res PcrSynchronizer.ps_option :=
  let* s := LoadSidSet sids in
  let* x := LoadSidSet xsids in
  Ok (PcrSynchronizer.mkPsOption s x).
Definition sync_clocks_main (view : list (list Z) -> list Z -> packet) (sids xsids : option (list (list Z)))
    (reads : list read_result) (fuel : nat) : option (res (Z * (list (list Z) * PcrSynchronizer.ps_state))) :=
  match load_pcr_synchronizer sids xsids with
  | Fail f => Some (Fail f)
  | Ok o => run_main view (PcrSynchronizer.ps_sink o) reads PcrSynchronizer.ps_init fuel
  end.

(** main.cc:1313-1319.  For the collectors [view] gives the sections (and TOTs)
    that a packet completes. *)
Definition collect_eits_main (mjd : list Z -> option Z) (view : list (list Z) -> list Z -> list EitCollector.delivery)
    (sids xsids : option (list (list Z))) (time_limit : option Z) (streaming only_actual only_others : bool)
    (reads : list read_result) (fuel : nat) : option (res (Z * (list (list Z) * EitCollector.eit_state))) :=
  match load_eit_collector sids xsids time_limit streaming only_actual only_others with
  | Fail f => Some (Fail f)
  | Ok o =>
      match EitCollector.ec_new o with
      | Fail f => Some (Fail f)
      | Ok s => run_main view (EitCollector.eit_sink mjd o) reads s fuel
      end
  end.

(** main.cc:1320-1326 *)
Definition collect_eitpfs_main (mjd : list Z -> option Z) (view : list (list Z) -> list Z -> list EitSection.section)
    (sids : option (list (list Z))) (streaming present following : bool)
    (reads : list read_result) (fuel : nat) : option (res (Z * (list (list Z) * EitpfCollector.pf_state))) :=
  match load_eitpf_collector sids streaming present following with
  | Fail f => Some (Fail f)
  | Ok o => run_main view (EitpfCollector.pf_sink mjd o) reads EitpfCollector.pf_init fuel
  end.

(** main.cc:1350-1356 *)
Definition program_metadata_main (view : list (list Z) -> list Z -> packet) (sid : option Z) (reads : list read_result) (fuel : nat) :=
  run_main view (MetadataFilter.md_sink (load_metadata_filter sid)) reads [] fuel.

(** main.cc:1267-1274 LoadOption(AirtimeTrackerOption) and 1372-1378 *)
Definition load_airtime_tracker (sid eid : Z) : AirtimeTracker.at_option := AirtimeTracker.mkAtOption (id16 sid) (id16 eid).
Definition track_airtime_main (view : list (list Z) -> list Z -> packet) (sid eid : Z) (reads : list read_result) (fuel : nat) :=
  run_main view (AirtimeTracker.at_sink (load_airtime_tracker sid eid)) reads AirtimeTracker.at_init fuel.

(** main.cc:1386-1388 *)
Definition print_pes_main (view : list (list Z) -> list Z -> packet) (reads : list read_result) (fuel : nat) :=
  run_main view PesPrinter.pp_sink reads PesPrinter.pp_init fuel.

(** main.cc:1327-1331; the sink takes the bytes as they are. *)
Definition collect_logos_main (engine : list (list Z) -> list Z -> list Logo.logo * bool) (closing : list (list Z) -> list Logo.logo)
    (reads : list read_result) (fuel : nat) :=
  run_main (fun _ b => b) (Logo.lc_sink engine closing) reads Logo.lc_init fuel.
