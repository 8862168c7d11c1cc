(** C81: what comes out of a stream cut short is what comes out of the whole
    stream, cut short. *)
From Coq Require Import ZArith Lia List Bool.
From Verif Require Import Base.Outcome Base.Util Model.Sink Model.FileSource Model.StdoutSink Model.Ts Model.ServiceFilter Model.RecorderOption Model.RingFileSink
  Model.ServiceRecorder Model.Commands Spec.SourceSpec Spec.StdoutSpec Spec.CutSpec Model.StartSeeker Proofs.PipeProofs Proofs.CutProofs Proofs.CutMains.
From Verif Require Model.ProgramFilter Model.EitCollector Model.EitpfCollector Model.AirtimeTracker Model.MetadataFilter Model.ServiceScanner
  Model.PcrSynchronizer Model.PesPrinter Model.Logo.
From Verif Require Props.FilterProps Props.PipeProps Props.SeekProps.
Import ListNotations.
Open Scope Z_scope.

(** The packets of a file cut short are the first packets of the file. *)
Theorem C81_packets : forall a b ps qs, packets_of a ps -> packets_of (a ++ b) qs -> is_prefix ps qs.
Proof. intros a b ps qs A B. exact (packets_cut a ps A b qs B). Qed.
Print Assumptions C81_packets.

(** * filter-service and filter-program: the bytes on standard output *)
Theorem C81_filter_service : forall view bytes sid reads reads' writes writes' n c c' h h' s s' w w', (forall p, zlen (bytes p) = 188) ->
  cut_short reads reads' -> Forall no_error writes -> Forall no_error writes' -> (List.length (bytes_of reads') < n)%nat ->
  filter_service_main view bytes sid reads writes n = Some (Ok (c, (h, (s, w)))) ->
  filter_service_main view bytes sid reads' writes' n = Some (Ok (c', (h', (s', w')))) -> is_prefix (so_out w) (so_out w').
Proof. exact filter_service_cut. Qed.
Print Assumptions C81_filter_service.
Theorem C81_filter_program : forall view bytes npackets sid o reads reads' writes writes' n c c' h h' s s' t t' w w', (forall p, zlen (bytes p) = 188) ->
  cut_short reads reads' -> Forall no_error writes -> Forall no_error writes' -> (List.length (bytes_of reads') < n)%nat ->
  filter_program_main view bytes npackets sid o reads writes n = Some (Ok (c, (h, (s, (t, w))))) ->
  filter_program_main view bytes npackets sid o reads' writes' n = Some (Ok (c', (h', (s', (t', w'))))) -> is_prefix (so_out w) (so_out w').
Proof. exact filter_program_cut. Qed.
Print Assumptions C81_filter_program.

(** * record-service: messages and file operations, apart from the stop message
    at the end *)
Theorem C81_record_service : forall view bytes sid o local s0 reads reads' n c c' h h' f f' s s', cut_short reads reads' ->
  (List.length (bytes_of reads') < n)%nat ->
  record_service_main view bytes sid o local s0 reads n = Some (Ok (c, (h, (f, s)))) ->
  record_service_main view bytes sid o local s0 reads' n = Some (Ok (c', (h', (f', s')))) ->
  s = s' \/ exists before stop, rc_trace s = before ++ [Msg (MStop stop)] /\ is_prefix before (rc_trace s').
Proof. exact record_service_cut. Qed.
Print Assumptions C81_record_service.

(** * The JSON commands: the documents *)
Theorem C81_scan_services : forall view sids xsids reads reads' n c c' h h' s s', cut_short reads reads' -> (List.length (bytes_of reads') < n)%nat ->
  scan_services_main view sids xsids reads n = Some (Ok (c, (h, s))) -> scan_services_main view sids xsids reads' n = Some (Ok (c', (h', s'))) ->
  is_prefix (ServiceScanner.sc_out s) (ServiceScanner.sc_out s').
Proof. exact scan_services_cut. Qed.
Print Assumptions C81_scan_services.
Theorem C81_sync_clocks : forall view sids xsids reads reads' n c c' h h' s s', cut_short reads reads' -> (List.length (bytes_of reads') < n)%nat ->
  sync_clocks_main view sids xsids reads n = Some (Ok (c, (h, s))) -> sync_clocks_main view sids xsids reads' n = Some (Ok (c', (h', s'))) ->
  is_prefix (PcrSynchronizer.ps_out s) (PcrSynchronizer.ps_out s').
Proof. exact sync_clocks_cut. Qed.
Print Assumptions C81_sync_clocks.
Theorem C81_collect_eits : forall mjd view sids xsids limit streaming actual others reads reads' n c c' h h' s s', cut_short reads reads' ->
  (List.length (bytes_of reads') < n)%nat ->
  collect_eits_main mjd view sids xsids limit streaming actual others reads n = Some (Ok (c, (h, s))) ->
  collect_eits_main mjd view sids xsids limit streaming actual others reads' n = Some (Ok (c', (h', s'))) ->
  is_prefix (EitCollector.ec_out s) (EitCollector.ec_out s').
Proof. exact collect_eits_cut. Qed.
Print Assumptions C81_collect_eits.
Theorem C81_collect_eitpfs : forall mjd view sids streaming present following reads reads' n c c' h h' s s', cut_short reads reads' ->
  (List.length (bytes_of reads') < n)%nat ->
  collect_eitpfs_main mjd view sids streaming present following reads n = Some (Ok (c, (h, s))) ->
  collect_eitpfs_main mjd view sids streaming present following reads' n = Some (Ok (c', (h', s'))) ->
  is_prefix (EitpfCollector.pf_out s) (EitpfCollector.pf_out s').
Proof. exact collect_eitpfs_cut. Qed.
Print Assumptions C81_collect_eitpfs.
Theorem C81_metadata : forall view sid reads reads' n c c' h h' s s', cut_short reads reads' -> (List.length (bytes_of reads') < n)%nat ->
  program_metadata_main view sid reads n = Some (Ok (c, (h, s))) -> program_metadata_main view sid reads' n = Some (Ok (c', (h', s'))) -> is_prefix s s'.
Proof. exact metadata_cut. Qed.
Print Assumptions C81_metadata.
Theorem C81_track_airtime : forall view sid eid reads reads' n c c' h h' s s', cut_short reads reads' -> (List.length (bytes_of reads') < n)%nat ->
  track_airtime_main view sid eid reads n = Some (Ok (c, (h, s))) -> track_airtime_main view sid eid reads' n = Some (Ok (c', (h', s'))) ->
  is_prefix (AirtimeTracker.at_out s) (AirtimeTracker.at_out s').
Proof. exact track_airtime_cut. Qed.
Print Assumptions C81_track_airtime.
Theorem C81_print_pes : forall view reads reads' n c c' h h' s s', cut_short reads reads' -> (List.length (bytes_of reads') < n)%nat ->
  print_pes_main view reads n = Some (Ok (c, (h, s))) -> print_pes_main view reads' n = Some (Ok (c', (h', s'))) ->
  is_prefix (PesPrinter.pp_out s) (PesPrinter.pp_out s').
Proof. exact print_pes_cut. Qed.
Print Assumptions C81_print_pes.

(** For collect-logos, if LibISDB reports no logo when it is closed. *)
Theorem C81_collect_logos : forall engine closing reads reads' n c c' h h' s s', cut_short reads reads' -> (List.length (bytes_of reads') < n)%nat ->
  (forall before, closing before = []) ->
  collect_logos_main engine closing reads n = Some (Ok (c, (h, s))) -> collect_logos_main engine closing reads' n = Some (Ok (c', (h', s'))) ->
  is_prefix (Logo.lc_out s) (Logo.lc_out s').
Proof. exact collect_logos_cut. Qed.
Print Assumptions C81_collect_logos.

(** The stream of the other cases, cut in the middle of its eighth packet. *)
Definition whole := PipeProps.demo_reads FilterProps.stream1.
Definition torn := [ReadData (firstn 1400 (bytes_of whole))].
Lemma ok_reads : forall reads, forallb (fun r => match r with ReadData bs => zlen bs <=? 16384 | ReadError => true end) reads = true -> Forall read_ok reads.
Proof.
  intros reads H. apply Forall_forall. intros r I. apply (proj1 (forallb_forall _ _) H) in I. destruct r; cbn; [apply Z.leb_le; exact I|exact Logic.I].
Qed.
Lemma torn_short : cut_short torn whole.
Proof.
  split; [apply ok_reads; vm_compute; reflexivity|]. split; [apply ok_reads; vm_compute; reflexivity|].
  exists (skipn 1400 (bytes_of whole)). vm_compute. reflexivity.
Qed.
Example C81_case : cut_short torn whole /\ (List.length (bytes_of whole) < 3000)%nat /\
  exists c c' h h' s s' w w',
  filter_service_main (PipeProps.demo_view FilterProps.stream1) PipeProps.demo_bytes 101 torn [] 3000 = Some (Ok (c, (h, (s, w)))) /\
  filter_service_main (PipeProps.demo_view FilterProps.stream1) PipeProps.demo_bytes 101 whole [] 3000 = Some (Ok (c', (h', (s', w')))) /\
  zlen (so_out w) = 188 * 4 /\ zlen (so_out w') = 188 * 7.
Proof.
  split; [exact torn_short|]. split; [apply Nat.ltb_lt; vm_compute; reflexivity|].
  do 8 eexists. split; [vm_compute; reflexivity|]. split; [vm_compute; reflexivity|]. split; vm_compute; reflexivity.
Qed.
Example C81_case_scan : exists c c' h h' s s',
  scan_services_main (PipeProps.demo_view FilterProps.stream1) None None torn 3000 = Some (Ok (c, (h, s))) /\
  scan_services_main (PipeProps.demo_view FilterProps.stream1) None None whole 3000 = Some (Ok (c', (h', s'))).
Proof. do 6 eexists. split; vm_compute; reflexivity. Qed.

(** seek-start is left out, as it must be: packets held back while it searches
    are written when the input ends, and dropped when the transition is found. *)
Definition late := PipeProps.demo_reads SeekProps.stream_s.
Theorem C81_seek_start_differs : exists o reads reads' c c' h h' s s' w w', cut_short reads reads' /\
  seek_start_main (PipeProps.demo_view SeekProps.stream_s) PipeProps.demo_bytes o reads [] 3000 = Some (Ok (c, (h, (s, w)))) /\
  seek_start_main (PipeProps.demo_view SeekProps.stream_s) PipeProps.demo_bytes o reads' [] 3000 = Some (Ok (c', (h', (s', w')))) /\
  ~ is_prefix (so_out w) (so_out w').
Proof.
  exists SeekProps.opt_s, (firstn 4 late), late. do 8 eexists. split; [|split; [vm_compute; reflexivity|split; [vm_compute; reflexivity|]]].
  - split; [apply ok_reads; vm_compute; reflexivity|]. split; [apply ok_reads; vm_compute; reflexivity|].
    exists (bytes_of (skipn 4 late)). vm_compute. reflexivity.
  - intros [m E]. apply (f_equal (fun l => nth 3 l 0)) in E. vm_compute in E. discriminate E.
Qed.
Print Assumptions C81_seek_start_differs.
