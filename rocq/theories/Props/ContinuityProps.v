(** C86: no gaps within a PID. *)
From Coq Require Import ZArith Lia List Bool.
From Verif Require Import Base.Outcome Base.Util Model.Sink Model.FileSource Model.StdoutSink Model.Ts Model.ServiceFilter
  Model.RingFileSink Model.ServiceRecorder Model.ProgramFilter Model.StartSeeker Model.Commands
  Spec.FeedSpec Spec.SourceSpec Spec.StdoutSpec Spec.FilterSpec Spec.TransSpec Spec.FileSpec Spec.PipeSpec Spec.ProgramSpec Spec.ContinuitySpec
  Proofs.ContinuityProofs Proofs.ContinuityProgram Proofs.ContinuityMain.
From Verif Require Spec.RecorderSpec Spec.SeekSpec Props.FilterProps Props.ProgramProps Props.SeekProps Props.RecorderProps Props.PipeProps.
Import ListNotations.
Open Scope Z_scope.

(** filter-service: of a PID whose status does not change, the output has a part
    of the input without gaps, byte for byte.  Packets of PID 0 are all made by the
    packetizer of the PAT. *)
Theorem C86_filter_service : forall view bytes, faithful view bytes ->
  forall sid reads bs writes n code seen s w,
  Forall read_ok reads -> Forall is_byte (bytes_of reads) -> packets_of (bytes_of reads) bs ->
  Forall no_error writes -> (List.length (bytes_of reads) < n)%nat ->
  filter_service_main view bytes sid reads writes n = Some (Ok (code, (seen, (s, w)))) ->
  exists out, so_out w = concat (map bytes out) /\ Forall made_pat (on 0 out) /\
    forall pid, pid <> 0 -> unvarying (sid mod 2 ^ 16) pid (tables 0 (views view [] bs)) ->
      stretch (map bytes (on pid out)) (on_bytes pid bs).
Proof. exact service_main. Qed.
Print Assumptions C86_filter_service.

(** The same in front of any sink, even one that refuses packets or fails. *)
Theorem C86_any_sink : forall sid limit stage k d ps out e h d' pid, filtered sid limit stage k [] d ps out e h d' ->
  pid <> 0 -> unvarying sid pid (tables stage ps) -> stretch (on pid out) (on pid ps).
Proof. intros sid limit stage k d ps out e h d' pid F N U. exact (service_stretch sid limit stage k [] d ps out e h d' pid F N U). Qed.
Print Assumptions C86_any_sink.

(** filter-program: the same for PIDs that are left alone.  The PAT packets are
    packets made by the service filter's packetizer, without gaps.  The packets of
    the PMT PID are made by the packetizer of the PMT, in turn. *)
Theorem C86_filter_program : forall view bytes, faithful view bytes -> forall npackets, (forall m, (1 <= npackets m)%nat) ->
  forall sid o reads bs writes n code seen s t w, sane_option o -> pfo_sid o = sid mod 2 ^ 16 ->
  Forall read_ok reads -> Forall is_byte (bytes_of reads) -> packets_of (bytes_of reads) bs ->
  Forall no_error writes -> (List.length (bytes_of reads) < n)%nat -> Forall (sane_packet 1) (views view [] bs) ->
  filter_program_main view bytes npackets sid o reads writes n = Some (Ok (code, (seen, (s, (t, w))))) ->
  exists mid e h out, filtered (sid mod 2 ^ 16) None 0 anything [] tt (views view [] bs) mid e h tt /\
    so_out w = concat (map bytes out) /\
    (forall pid, pid <> 0 -> pid <> 0x1FFF -> unvarying (sid mod 2 ^ 16) pid (tables 0 (views view [] bs)) ->
      (forall x, In x (tables 0 (views view [] bs) ++ tables 1 (views view [] bs)) -> left_alone o pid x) ->
      stretch (map bytes (on pid out)) (on_bytes pid bs)) /\
    ((forall x, In x (tables 0 (views view [] bs) ++ tables 1 (views view [] bs)) -> left_alone o 0 x) ->
      Forall made_pat (on 0 out) /\ stretch (on 0 out) (on 0 mid)) /\
    (forall mpid, mpid <> 0 ->
      (forall x, In x (tables 0 (views view [] bs)) -> forall u q, listing (sid mod 2 ^ 16) x = Some (u, q) -> q = mpid) ->
      (forall x, In x (tables 1 (views view [] bs)) -> forall m, service_pmt (sid mod 2 ^ 16) x = Some m -> fst x = mpid /\ pmt_pcr_pid m <> mpid) ->
      Forall made_pmt (on mpid out) /\ in_turn (pmt_order npackets) (on mpid out)).
Proof. exact program_main. Qed.
Print Assumptions C86_filter_program.

(** record-service: the same for the packets given to the ring file. *)
Theorem C86_record_service : forall view bytes, faithful view bytes -> forall local sid o ops s0 reads bs n code seen t s,
  valid_geometry (rco_chunk_size o) (rco_num_chunks o) (rco_start_pos o) -> rc_new o ops = Ok s0 ->
  Forall read_ok reads -> Forall is_byte (bytes_of reads) -> packets_of (bytes_of reads) bs -> (List.length (bytes_of reads) < n)%nat ->
  record_service_main view bytes sid o local s0 reads n = Some (Ok (code, (seen, (t, s)))) ->
  (rco_start_pos o <> 0 /\ RecorderSpec.ring_calls (rc_trace s) = [EvSeekFail]) \/
  exists out ok, rg_session (rco_chunk_size o) (rco_num_chunks o) (rco_start_pos o) ops (map bytes out)
      = Ok (rc_ring s, RecorderSpec.ring_calls (rc_trace s), ok) /\ Forall made_pat (on 0 out) /\
    forall pid, pid <> 0 -> unvarying (sid mod 2 ^ 16) pid (tables 0 (views view [] bs)) ->
      stretch (map bytes (on pid out)) (on_bytes pid bs).
Proof. exact record_main. Qed.
Print Assumptions C86_record_service.

(** seek-start: the same for every PID but 0. *)
Theorem C86_seek_start : forall view bytes, faithful view bytes ->
  forall o reads bs writes n, Forall read_ok reads -> Forall is_byte (bytes_of reads) -> packets_of (bytes_of reads) bs -> Forall no_error writes ->
  (List.length (bytes_of reads) < n)%nat -> SeekSpec.orderly o 0 (views view [] bs) -> SeekSpec.sane_seek o ->
  (forall x, In x (tables 0 (views view [] bs)) -> service_pmt (sso_sid o) x <> None -> fst x <> 0) ->
  exists out seen s w, seek_start_main view bytes o reads writes n = Some (Ok (0, (seen, (s, w)))) /\ so_out w = concat (map bytes out) /\
    forall pid, pid <> 0 -> stretch (map bytes (on pid out)) (on_bytes pid bs).
Proof. exact seek_main. Qed.
Print Assumptions C86_seek_start.

(** ** Cases *)
Definition stream_f : list packet := FilterProps.stream1 ++ [FilterProps.pkt 12 0x100 []; FilterProps.pkt 13 0x1F0 [TPmt (Some FilterProps.pmt1)]; FilterProps.pkt 14 0x100 []].

Ltac concrete ts := let v := eval vm_compute in ts in replace ts with v by (vm_compute; reflexivity).

Example C86_case : unvarying 101 0x100 (tables 0 (views (PipeProps.demo_view stream_f) [] (PipeProps.demo_packets 0 stream_f))) /\
  exists seen s w, filter_service_main (PipeProps.demo_view stream_f) PipeProps.demo_bytes 101 (PipeProps.demo_reads stream_f) [] 3000
    = Some (Ok (0, (seen, (s, w)))) /\
  exists out, so_out w = concat out /\ on_bytes 0x100 out = zdrop 1 (on_bytes 0x100 (PipeProps.demo_packets 0 stream_f)) /\ zlen (on_bytes 0x100 out) = 3.
Proof.
  split.
  - match goal with |- unvarying _ _ ?t => concrete t end. split; [|split].
    + intros x y m n Hx Hy. repeat (destruct Hx as [<-|Hx]; [cbn; try discriminate|]); [..|destruct Hx];
      repeat (destruct Hy as [<-|Hy]; [cbn; try discriminate|]); try destruct Hy; intros E1 E2; injection E1 as <-; injection E2 as <-; auto.
    + intros x y m n Hx Hy. repeat (destruct Hx as [<-|Hx]; [cbn; try discriminate|]); [..|destruct Hx];
      repeat (destruct Hy as [<-|Hy]; [cbn; try discriminate|]); try destruct Hy; intros E1 E2; injection E1 as <-; injection E2 as <-; auto.
    + intros x y t u q r Hx Hy. repeat (destruct Hx as [<-|Hx]; [cbn; try discriminate|]); [..|destruct Hx];
      repeat (destruct Hy as [<-|Hy]; [cbn; try discriminate|]); try destruct Hy; intros E1 E2; injection E1 as <- <-; injection E2 as <- <-; auto.
  - eexists. eexists. eexists. split; [vm_compute; reflexivity|].
    exists [[71; 64] ++ repeat 0 186; PipeProps.demo_packet 3 (FilterProps.pkt 0 0x1F0 []); PipeProps.demo_packet 4 (FilterProps.pkt 0 0x100 []);
      PipeProps.demo_packet 6 (FilterProps.pkt 0 0x700 []); PipeProps.demo_packet 8 (FilterProps.pkt 0 1 []); PipeProps.demo_packet 9 (FilterProps.pkt 0 0x900 []);
      PipeProps.demo_packet 10 (FilterProps.pkt 0 0x14 []); PipeProps.demo_packet 12 (FilterProps.pkt 0 0x100 []);
      PipeProps.demo_packet 13 (FilterProps.pkt 0 0x1F0 []); PipeProps.demo_packet 14 (FilterProps.pkt 0 0x100 [])].
    split; [vm_compute; reflexivity|]. split; vm_compute; reflexivity.
Qed.

(** filter-program: the conditions hold for the stream of C62, PIDs 0x100 and
    0x110, PID 0 and the PMT PID 0x1F0; the output has several packets of each. *)
Example C86_case_program : let v := views (PipeProps.demo_view PipeProps.stream2) [] (PipeProps.demo_packets 0 PipeProps.stream2) in
  let o := ProgramProps.opt101 in
  (forall pid, In pid [0; 0x100; 0x110] -> forall x, In x (tables 0 v ++ tables 1 v) -> left_alone o pid x) /\
  (forall x, In x (tables 0 v) -> forall u q, listing 101 x = Some (u, q) -> q = 0x1F0) /\
  (forall x, In x (tables 1 v) -> forall m, service_pmt 101 x = Some m -> fst x = 0x1F0 /\ pmt_pcr_pid m <> 0x1F0) /\
  map (fun pid => zlen (on pid ProgramProps.out101)) [0; 0x100; 0x110; 0x1F0] = [2; 2; 2; 5].
Proof.
  intros v o.
  assert (E0 : tables 0 v = [(0, TPat (Some ProgramProps.pat101)); (0x1F0, TPmt (Some ProgramProps.pmt101)); (0x12, TEit (Some ProgramProps.eit101));
    (0, TPat (Some (mkPat 7 1 [(102, 0x1F1)])))]) by (vm_compute; reflexivity).
  assert (E1 : tables 1 v = tables 0 v) by (vm_compute; reflexivity).
  rewrite E1, E0. clear E0 E1. clearbody v.
  refine (conj _ (conj _ (conj _ _))).
  - intros pid Hp x Hx. cbn [app] in Hx.
    assert (R : forall e, excluded o e -> es_audio e = true /\ es_tag e <> Some 0x10).
    { intros e [(_ & N & _)|(A & _ & _ & N)]; [exfalso; apply N; reflexivity|]. split; [exact A|]. intros C. apply N. exists 0x10. split; [exact C|]. cbn. auto. }
    assert (M : forall e, In (pid, e) (pmt_streams ProgramProps.pmt101) -> excluded o e -> False).
    { intros e He Ex. destruct (R e Ex) as [A T]. cbn in He.
      destruct He as [He|[He|[He|[]]]]; injection He as He <-; cbn in A, T; try discriminate; [apply T; reflexivity|].
      subst pid. cbn in Hp. lia. }
    cbn in Hp.
    repeat (destruct Hx as [<-|Hx]; [split; [|split];
      [intros u q L; cbn in L; first [discriminate L|injection L as _ <-; lia]
      |intros m S; cbn in S; first [discriminate S|injection S as <-; intros (e & He & Ex); exact (M e He Ex)]
      |intros _ m S; cbn in S; first [discriminate S|injection S as <-; cbn; discriminate]]|]). destruct Hx.
  - intros x Hx u q L. repeat (destruct Hx as [<-|Hx]; [cbn in L; first [discriminate L|injection L as _ <-; reflexivity]|]). destruct Hx.
  - intros x Hx m S. repeat (destruct Hx as [<-|Hx]; [cbn in S; first [discriminate S|injection S as <-; cbn; split; [reflexivity|discriminate]]|]). destruct Hx.
  - vm_compute. reflexivity.
Qed.

(** seek-start: one of the three packets of PID 0x100 comes after the change. *)
Example C86_case_seek : on 0x100 (SeekSpec.seek_output SeekProps.stream_s (SeekSpec.Cut 1 4 7)) = [SeekProps.spkt 8 0x100 (Some 3) []] /\
  (forall x, In x (tables 0 SeekProps.stream_s) -> service_pmt (sso_sid SeekProps.opt_s) x <> None -> fst x <> 0).
Proof.
  split; [vm_compute; reflexivity|]. intros x Hx N. repeat (destruct Hx as [<-|Hx]; [first [discriminate|exfalso; apply N; reflexivity]|]). destruct Hx.
Qed.
