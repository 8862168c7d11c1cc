(** C91: while a live input pauses, everything that follows from the packets
    received is already out, up to what the output buffer holds. *)
From Coq Require Import ZArith Lia List Bool.
From Verif Require Import Base.Outcome Base.Util Model.Sink Model.FileSource Model.StdoutSink Model.Ts Model.ServiceFilter Model.RecorderOption Model.RingFileSink
  Model.ServiceRecorder Model.StartSeeker Model.Commands Spec.SourceSpec Spec.StdoutSpec Spec.PauseSpec Proofs.PauseProofs.
From Verif Require Model.ProgramFilter Model.EitCollector Model.EitpfCollector Model.AirtimeTracker Model.MetadataFilter.
From Verif Require Props.FilterProps Props.PipeProps Props.SeekProps Props.CutProps Props.JsonProps Props.EventProps Props.EitProps Props.CarouselProps Props.RecorderProps.
Import ListNotations.
Open Scope Z_scope.

(** * The source: all packets of the bytes read are handed on before the next
    read call *)
Theorem C91_packets : forall reads ps, Forall read_ok reads -> packets_of (bytes_of reads) ps -> by_then (fun _ b => b) collects reads [] ps.
Proof. exact pause_packets. Qed.
Print Assumptions C91_packets.

(** * Any command: it ends by itself, because its sink refuses to go on, or it
    has done all but End before the next read call *)
Theorem C91_any : forall P view (k : sink P) reads d0 n c h t, run_main view k reads d0 n = Some (Ok (c, (h, t))) ->
  ends_anyway (fun reads n => run_main view k reads d0 n) reads n /\ refuses k d0 \/ exists d, by_then view k reads d0 d /\ sk_end k d = Ok t.
Proof. exact pause_why. Qed.
Print Assumptions C91_any.

(** * filter-service and filter-program: less than 16384 bytes are held back *)
Theorem C91_filter_service : forall view bytes sid reads writes n c h s w, (forall p, zlen (bytes p) = 188) -> Forall no_error writes ->
  filter_service_main view bytes sid reads writes n = Some (Ok (c, (h, (s, w)))) ->
  ends_anyway (fun reads n => filter_service_main view bytes sid reads writes n) reads n \/
  exists s1 w1, by_then view (filter_service bytes sid) reads (sf_init (load_service_filter (Some sid)), so_init writes) (s1, w1) /\
    is_prefix (so_out w1) (so_out w) /\ zlen (so_out w) - zlen (so_out w1) < 16384.
Proof. exact pause_filter_service. Qed.
Print Assumptions C91_filter_service.
Theorem C91_filter_program : forall view bytes npackets sid o reads writes n c h s t w, (forall p, zlen (bytes p) = 188) -> Forall no_error writes ->
  filter_program_main view bytes npackets sid o reads writes n = Some (Ok (c, (h, (s, (t, w))))) ->
  ends_anyway (fun reads n => filter_program_main view bytes npackets sid o reads writes n) reads n \/
  exists s1 t1 w1, by_then view (filter_program bytes npackets sid o) reads
      (sf_init (load_service_filter (Some sid)), (ProgramFilter.pf_init o, so_init writes)) (s1, (t1, w1)) /\
    is_prefix (so_out w1) (so_out w) /\ zlen (so_out w) - zlen (so_out w1) < 16384.
Proof. exact pause_filter_program. Qed.
Print Assumptions C91_filter_program.

(** * seek-start: also the packets kept while it searches, at most
    --max-packets of them *)
Theorem C91_seek_start : forall view bytes o reads writes n c h s w, (forall p, zlen (bytes p) = 188) -> Forall no_error writes ->
  seek_start_main view bytes o reads writes n = Some (Ok (c, (h, (s, w)))) ->
  ends_anyway (fun reads n => seek_start_main view bytes o reads writes n) reads n \/
  exists s1 w1 kept, by_then view (seek_start bytes o) reads (ss_init, so_init writes) (s1, w1) /\
    is_prefix (so_out w1) (so_out w) /\ zlen (so_out w) - zlen (so_out w1) < 16384 + 188 * kept /\
    (ss_streaming s1 = true -> kept = 0) /\ (0 < sso_max_packets o -> kept < sso_max_packets o).
Proof. exact pause_seek_start. Qed.
Print Assumptions C91_seek_start.

(** * record-service: all messages and file operations but the stop message *)
Theorem C91_record_service : forall view bytes sid o local s0 reads n c h f s,
  record_service_main view bytes sid o local s0 reads n = Some (Ok (c, (h, (f, s)))) ->
  ends_anyway (fun reads n => record_service_main view bytes sid o local s0 reads n) reads n \/
  exists f1 s1 stop, by_then view (record_service bytes sid o local) reads (sf_init (load_service_filter (Some sid)), s0) (f1, s1) /\
    rc_trace s = rc_trace s1 ++ [Msg (MStop stop)].
Proof. exact pause_record_service. Qed.
Print Assumptions C91_record_service.

(** * The JSON commands that report as they go: all documents *)
Theorem C91_collect_eits : forall mjd view sids xsids limit streaming actual others reads n c h s,
  collect_eits_main mjd view sids xsids limit streaming actual others reads n = Some (Ok (c, (h, s))) ->
  ends_anyway (fun reads n => collect_eits_main mjd view sids xsids limit streaming actual others reads n) reads n \/
  exists o s0, load_eit_collector sids xsids limit streaming actual others = Ok o /\ EitCollector.ec_new o = Ok s0 /\
    by_then view (EitCollector.eit_sink mjd o) reads s0 s.
Proof. exact pause_eits. Qed.
Print Assumptions C91_collect_eits.
Theorem C91_collect_eitpfs : forall mjd view sids streaming present following reads n c h s,
  collect_eitpfs_main mjd view sids streaming present following reads n = Some (Ok (c, (h, s))) ->
  ends_anyway (fun reads n => collect_eitpfs_main mjd view sids streaming present following reads n) reads n \/
  exists o, load_eitpf_collector sids streaming present following = Ok o /\ by_then view (EitpfCollector.pf_sink mjd o) reads EitpfCollector.pf_init s.
Proof. exact pause_eitpfs. Qed.
Print Assumptions C91_collect_eitpfs.
Theorem C91_metadata : forall view sid reads n c h s, program_metadata_main view sid reads n = Some (Ok (c, (h, s))) ->
  ends_anyway (fun reads n => program_metadata_main view sid reads n) reads n \/
  by_then view (MetadataFilter.md_sink (load_metadata_filter sid)) reads [] s.
Proof. exact pause_metadata. Qed.
Print Assumptions C91_metadata.
Theorem C91_track_airtime : forall view sid eid reads n c h s, track_airtime_main view sid eid reads n = Some (Ok (c, (h, s))) ->
  ends_anyway (fun reads n => track_airtime_main view sid eid reads n) reads n \/
  by_then view (AirtimeTracker.at_sink (load_airtime_tracker sid eid)) reads AirtimeTracker.at_init s.
Proof. exact pause_airtime. Qed.
Print Assumptions C91_track_airtime.

(** The input pauses in the middle of a packet; the command does not end, and the
    first packets are through. *)
Example C91_case : exists c h s w,
  filter_service_main (PipeProps.demo_view FilterProps.stream1) PipeProps.demo_bytes 101 CutProps.torn [] 3000 = Some (Ok (c, (h, (s, w)))) /\
  zlen (so_out w) = 188 * 4 /\
  ~ ends_anyway (fun reads n => filter_service_main (PipeProps.demo_view FilterProps.stream1) PipeProps.demo_bytes 101 reads [] n) CutProps.torn 3000.
Proof.
  do 4 eexists. split; [vm_compute; reflexivity|]. split; [vm_compute; reflexivity|].
  intros A. specialize (A [ReadData (skipn 1400 (bytes_of CutProps.whole))] 3000%nat (le_n _)).
  assert (B : forall x y : option (res (Z * (list (list Z) * (sf_state * stdout_state)))), x = y ->
    match x with Some (Ok (_, (_, (_, w)))) => zlen (so_out w) | _ => 0 end = match y with Some (Ok (_, (_, (_, w)))) => zlen (so_out w) | _ => 0 end)
    by (intros x y ->; reflexivity).
  apply B in A. vm_compute in A. discriminate.
Qed.
(** Ninety packets of the PAT: eighty-seven fill the buffer. *)
Definition lots : list packet := repeat (nth 1 FilterProps.stream1 JsonProps.nothing) 90.
Example C91_case_lag : exists c h s w,
  filter_service_main (JsonProps.taken lots JsonProps.nothing) PipeProps.demo_bytes 101 (JsonProps.file 90) [] 20000 = Some (Ok (c, (h, (s, w)))) /\
  zlen (so_out w) = 188 * 90.
Proof. do 4 eexists. split; vm_compute; reflexivity. Qed.
Example C91_case_seek : exists c h s w,
  seek_start_main (PipeProps.demo_view SeekProps.stream_s) PipeProps.demo_bytes SeekProps.opt_s (firstn 3 (PipeProps.demo_reads SeekProps.stream_s)) [] 3000 = Some (Ok (c, (h, (s, w)))) /\
  zlen (so_out w) = 188 * 3 /\ ss_streaming s = false.
Proof. do 4 eexists. split; [vm_compute; reflexivity|]. split; vm_compute; reflexivity. Qed.
Example C91_case_airtime : exists h s, track_airtime_main (JsonProps.taken EventProps.at_case JsonProps.nothing) 1 11 (JsonProps.file 3) 1000 = Some (Ok (0, (h, s))) /\
  AirtimeTracker.at_out s <> [] /\
  ~ ends_anyway (fun reads n => track_airtime_main (JsonProps.taken EventProps.at_case JsonProps.nothing) 1 11 reads n) (JsonProps.file 3) 1000.
Proof.
  do 2 eexists. split; [vm_compute; reflexivity|]. split; [vm_compute; discriminate|].
  intros A. specialize (A (JsonProps.file 2) 1000%nat (le_n _)). vm_compute in A. discriminate.
Qed.
Example C91_case_record : exists s0 h f s, rc_new RecorderProps.ropt [] = Ok s0 /\
  record_service_main (PipeProps.demo_view RecorderProps.rstream) PipeProps.demo_bytes 101 RecorderProps.ropt (fun _ => 0) s0 (PipeProps.demo_reads RecorderProps.rstream) 20000 = Some (Ok (0, (h, (f, s)))) /\
  2 <= zlen (rc_trace s).
Proof. do 4 eexists. split; [reflexivity|]. split; [vm_compute; reflexivity|]. vm_compute. discriminate. Qed.
