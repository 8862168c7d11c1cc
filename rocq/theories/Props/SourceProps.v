(** C07 - C11: feeding packets and the file source. *)
From Coq Require Import ZArith Lia List Bool.
From Verif Require Import Base.Outcome Base.Util Model.Sink Model.FileSource Spec.SourceSpec Spec.FeedSpec Proofs.SourceProofs Proofs.FeedProofs.
Import ListNotations.
Open Scope Z_scope.

(** C07, for every sink and every packet list: whenever FeedPackets returns, the
    calls follow the protocol and the exit code is as stated. *)
Theorem C07_feed_protocol : forall P (k : sink P) ps n s code s' log,
  FeedPackets (list_source P) (logged k) n ps (s, []) = Some (Ok (code, (s', log))) ->
  protocol ps log /\
  (log = [CStart false] -> code = 1) /\
  (log <> [CStart false] -> sk_exit k s' = Ok code).
Proof. exact feed_protocol. Qed.
Print Assumptions C07_feed_protocol.

(** ... and it does return, unless the sink itself ends the process. *)
Theorem C07_feed_returns : forall P (k : sink P) ps n s, never_fails k -> (List.length ps < n)%nat ->
  exists code s', FeedPackets (list_source P) k n ps s = Some (Ok (code, s')).
Proof. exact feed_ok. Qed.
Print Assumptions C07_feed_returns.

(** A sink that refuses its third packet and reports 7. *)
Definition fussy : sink Z :=
  mkSink Z (fun s => Ok (s, true)) (fun s _ => Ok (s + 1, s <? 2)) (fun s => Ok s) (fun _ => Ok 7).
Example C07_case : never_fails fussy /\
  FeedPackets (list_source Z) (logged fussy) 9 [10; 11; 12; 13] (0, []) =
    Some (Ok (7, (3, [CStart true; CPacket 10 true; CPacket 11 true; CPacket 12 false; CEnd]))).
Proof. split; [repeat split; cbn; eauto|reflexivity]. Qed.

(** C08: with the same bytes, every sink ends in the same state with the same
    exit code, however the reads are split and wherever they are cut by an end
    of file or an error. *)
Theorem C08_chunking_irrelevant : forall snk r1 r2 st fuel,
  Forall read_ok r1 -> Forall read_ok r2 -> bytes_of r1 = bytes_of r2 ->
  (List.length (bytes_of r1) < fuel)%nat ->
  FeedPackets file_source snk fuel (fs_init r1) st = FeedPackets file_source snk fuel (fs_init r2) st.
Proof. exact chunking. Qed.
Print Assumptions C08_chunking_irrelevant.

(** The sink sees exactly the packets that the byte-level specification gives. *)
Theorem C08_source_is_packets_of : forall snk reads ps st fuel,
  Forall read_ok reads -> packets_of (bytes_of reads) ps ->
  (List.length (bytes_of reads) < fuel)%nat ->
  FeedPackets file_source snk fuel (fs_init reads) st = FeedPackets (list_source (list Z)) snk fuel ps st.
Proof. exact feed_file. Qed.
Print Assumptions C08_source_is_packets_of.

Definition sample_packet (b : Z) : list Z := 0x47 :: repeat b 187.
Definition sample_reads (n : nat) : list read_result :=
  let bs := concat (map sample_packet [1; 2; 3]) ++ [9; 9] in
  [ReadData (firstn n bs); ReadData (skipn n bs); ReadError].
Example C08_case : Forall read_ok (sample_reads 200) /\ bytes_of (sample_reads 200) = bytes_of (sample_reads 33) /\
  fs_all 600 (fs_init (sample_reads 200)) = Some (Ok (map sample_packet [1; 2; 3])).
Proof. split; [repeat constructor; discriminate|]. split; vm_compute; reflexivity. Qed.

(** C09, for every sink: feeding the file is feeding the list of its packets. *)
Theorem C09_aligned_input_complete : forall snk reads ps tail st fuel,
  Forall read_ok reads -> bytes_of reads = concat ps ++ tail ->
  Forall (fun p => zlen p = 188 /\ sync_at p 0) ps -> zlen tail < 188 ->
  (List.length (bytes_of reads) < fuel)%nat ->
  FeedPackets file_source snk fuel (fs_init reads) st = FeedPackets (list_source (list Z)) snk fuel ps st.
Proof. exact aligned_feed. Qed.
Print Assumptions C09_aligned_input_complete.

Example C09_case : Forall (fun p => zlen p = 188 /\ sync_at p 0) (map sample_packet [1; 2; 3]) /\
  Forall read_ok (sample_reads 200) /\
  bytes_of (sample_reads 200) = concat (map sample_packet [1; 2; 3]) ++ [9; 9] /\
  fs_all 600 (fs_init (sample_reads 200)) = Some (Ok (map sample_packet [1; 2; 3])).
Proof. split; [repeat constructor|]. split; [repeat constructor; discriminate|]. split; vm_compute; reflexivity. Qed.

(** C10: for every byte stream and every read schedule the source delivers
    exactly one list of packets, the one given by the specification
    [packets_of], in which each step is a packet, a bounded and validated skip,
    or the final stop. *)
Theorem C10_resync : forall reads, Forall read_ok reads ->
  exists ps, packets_of (bytes_of reads) ps /\ (forall qs, packets_of (bytes_of reads) qs -> qs = ps) /\
    fs_all (S (List.length (bytes_of reads))) (fs_init reads) = Some (Ok ps).
Proof. exact reads_packets. Qed.
Print Assumptions C10_resync.

Theorem C10_packet_shape : forall reads n ps, Forall read_ok reads ->
  fs_all n (fs_init reads) = Some (Ok ps) -> Forall (fun p => zlen p = 188 /\ sync_at p 0) ps.
Proof. exact delivered_shape. Qed.
Print Assumptions C10_packet_shape.

(** Three bytes of garbage in front of six packets are skipped; in front of four
    packets (755 bytes in all) they end the input. *)
Example C10_case :
  fs_all 2000 (fs_init [ReadData ([1; 0x47; 3] ++ concat (map sample_packet [1; 2; 3; 4; 5; 6]))]) =
    Some (Ok (map sample_packet [1; 2; 3; 4; 5; 6])) /\
  fs_all 2000 (fs_init [ReadData ([1; 0x47; 3] ++ concat (map sample_packet [1; 2; 3; 4]))]) = Some (Ok []).
Proof. split; vm_compute; reflexivity. Qed.

(** C11: no assertion, no access outside the initialised buffer, no read after
    the end, for any read schedule. *)
Theorem C11_source_safe : forall reads, Forall read_ok reads ->
  exists ps, fs_all (S (List.length (bytes_of reads))) (fs_init reads) = Some (Ok ps).
Proof.
  exact (fun reads H => match reads_packets reads H with
    | ex_intro _ ps (conj _ (conj _ E)) => ex_intro _ ps E end).
Qed.
Print Assumptions C11_source_safe.
