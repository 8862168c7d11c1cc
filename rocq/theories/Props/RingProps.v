(** C15 - C19: the ring file of record-service.

    [rg_session chunk_size num_chunks start ops packets] is the life of the sink:
    its final state, the calls made on the file and on the observer, in order,
    and whether every packet was accepted.  [ops] are the results of the file
    operations (short writes, failures), which are arbitrary.  [replay] and
    [after_crash] (Spec/FileSpec.v) say what the calls do to a file. *)
From Coq Require Import ZArith Lia List Bool.
From Verif Require Import Base.Outcome Base.Util Model.RingFileSink Model.RecorderOption
  Spec.FileSpec Spec.StdoutSpec Proofs.RingMain.
Import ListNotations.
Open Scope Z_scope.

(** C15.  At every moment of every session (also one that ends in an error)
    the bytes written are a prefix of the stream, and of these the last
    ring-size bytes are in the file, byte [i] at [(start + i) mod ring size]. *)
Theorem C15_ring_holds_latest : forall cs nc start ops packets f0 s evs ok,
  valid_geometry cs nc start -> f_pos f0 = 0 ->
  rg_session cs nc start ops packets = Ok (s, evs, ok) ->
  forall t t', evs = t ++ t' ->
  is_prefix (written t) (concat packets) /\
  forall i, 0 <= i < zlen (written t) -> zlen (written t) - cs * nc <= i ->
    znth i (concat packets) = Some (f_at (replay f0 t) ((start + i) mod (cs * nc))).
Proof. exact ring_holds_latest. Qed.
Print Assumptions C15_ring_holds_latest.

(** C15.  When all packets were accepted, all complete 8 KiB blocks of the
    stream have been written. *)
Theorem C15_complete_blocks_written : forall cs nc start ops packets s evs,
  valid_geometry cs nc start -> Forall is_packet packets ->
  rg_session cs nc start ops packets = Ok (s, evs, true) ->
  zlen (written evs) = 8192 * (188 * zlen packets / 8192).
Proof. intros. eapply session_accepted; eauto. Qed.
Print Assumptions C15_complete_blocks_written.

(** C16.  At every moment, the announcements so far are the end offsets of the
    first chunks, in order; a chunk is announced before anything of the next
    chunk is written and not before all of it is written. *)
Theorem C16_announced_in_order : forall cs nc start ops packets s evs ok,
  valid_geometry cs nc start ->
  rg_session cs nc start ops packets = Ok (s, evs, ok) ->
  forall t t', evs = t ++ t' ->
  cs * zlen (announced t) <= zlen (written t) <= cs * (zlen (announced t) + 1) /\
  forall k, 0 <= k < zlen (announced t) ->
    znth k (announced t) = Some (chunk_end cs (cs * nc) start k).
Proof. exact announcements. Qed.
Print Assumptions C16_announced_in_order.

(** C16.  When all packets were accepted, every completed chunk was announced. *)
Theorem C16_every_chunk_announced : forall cs nc start ops packets s evs,
  valid_geometry cs nc start -> Forall is_packet packets ->
  rg_session cs nc start ops packets = Ok (s, evs, true) ->
  zlen (announced evs) = 188 * zlen packets / cs.
Proof. intros. eapply session_accepted; eauto. Qed.
Print Assumptions C16_every_chunk_announced.

(** C16.  A crash at any moment leaves on the disk every byte of every chunk
    announced so far, until the ring has come round to that byte again. *)
Theorem C16_announced_durable : forall cs nc start ops packets f0 s evs ok,
  valid_geometry cs nc start -> f_pos f0 = 0 ->
  rg_session cs nc start ops packets = Ok (s, evs, ok) ->
  forall t t' disk, evs = t ++ t' -> after_crash (replay f0 t) disk ->
  forall i, 0 <= i < cs * zlen (announced t) -> zlen (written t) <= i + cs * nc ->
    znth i (concat packets) = Some (disk ((start + i) mod (cs * nc))).
Proof. exact announced_durable. Qed.
Print Assumptions C16_announced_durable.

(** C17.  No assertion fails and nothing is undefined, whatever the packets and
    the results of the file operations. *)
Theorem C17_no_assertion_fails : forall cs nc start ops packets,
  valid_geometry cs nc start ->
  exists s evs ok, rg_session cs nc start ops packets = Ok (s, evs, ok).
Proof. exact session_total. Qed.
Print Assumptions C17_no_assertion_fails.

(** C17.  The reported position is the start position plus the bytes accepted,
    modulo the ring size; it is therefore inside the ring. *)
Theorem C17_position : forall cs nc start ops packets s evs,
  valid_geometry cs nc start -> Forall is_packet packets ->
  rg_session cs nc start ops packets = Ok (s, evs, true) ->
  rg_ring_pos s = (start + 188 * zlen packets) mod (cs * nc).
Proof. intros. eapply session_accepted; eauto. Qed.
Print Assumptions C17_position.

(** C17.  The file never grows beyond the ring size. *)
Theorem C17_file_length : forall cs nc start ops packets f0 s evs ok,
  valid_geometry cs nc start -> f_pos f0 = 0 -> f_len f0 <= cs * nc ->
  rg_session cs nc start ops packets = Ok (s, evs, ok) ->
  forall t t', evs = t ++ t' -> f_len (replay f0 t) <= cs * nc.
Proof. exact session_length. Qed.
Print Assumptions C17_file_length.

(** C18.  Some packet is refused (or Start fails) exactly when a file operation
    failed; the failed operation is the last thing done, so the packet being
    handled is the refused one and nothing is announced after it.  The sink
    calls itself broken only then, and does whenever the failure happened after
    Start; then the exit code is 1, otherwise 0.  (That nothing unsynced was
    announced before is C16_announced_durable.) *)
Theorem C18_errors_reported : forall cs nc start ops packets s evs ok,
  valid_geometry cs nc start ->
  rg_session cs nc start ops packets = Ok (s, evs, ok) ->
  (ok = false <-> exists e, In e evs /\ is_failure e = true) /\
  (forall t e t', evs = t ++ e :: t' -> is_failure e = true -> t' = []) /\
  (rg_broken s = true -> ok = false) /\
  (forall s0 evs0, rg_open cs nc start ops = Ok (s0, evs0, true) -> ok = false ->
     rg_broken s = true /\ rg_GetExitCode s = 1) /\
  (ok = true -> rg_GetExitCode s = 0).
Proof. exact session_errors. Qed.
Print Assumptions C18_errors_reported.

(** C19.  Options accepted by record-service have a valid geometry, the ring
    size fits in a signed 64-bit offset, and opening the sink with them fails
    no assertion. *)
Theorem C19_accepted_options_safe : forall chunk_size num_chunks start_pos cs nc start ops,
  (forall pos, start_pos = Some pos -> 0 <= pos) ->
  load_recorder_option chunk_size num_chunks start_pos = Some (cs, nc, start) ->
  valid_geometry cs nc start /\ cs * nc <= 2 ^ 63 - 1 /\
  exists s evs ok, rg_open cs nc start ops = Ok (s, evs, ok) /\
    rg_ring_size s = cs * nc /\ rg_chunk_size s = cs /\ (ok = true -> rg_ring_pos s = start).
Proof. exact options_safe. Qed.
Print Assumptions C19_accepted_options_safe.

(** Non-vacuity: 131 packets (24,628 bytes: three blocks and a bit) into a ring
    of two 8 KiB chunks starting at the second, with short writes. *)
Definition ex_packets : list (list Z) := map (fun k => repeat (Z.of_nat k) 188) (seq 0 131).
Definition ex_ops : list Z := [0; 5000; 1; 9999; 0].
Definition ex_file : file := mkFile (fun _ => 255) 0 0 (fun _ => 255) (fun _ => false).

Example C15_C17_example :
  valid_geometry 8192 2 8192 /\ Forall is_packet ex_packets /\ f_pos ex_file = 0 /\
  exists s evs, rg_session 8192 2 8192 ex_ops ex_packets = Ok (s, evs, true) /\
    announced evs = [16384; 8192; 16384] /\ rg_ring_pos s = 52 /\
    f_len (replay ex_file evs) = 16384 /\
    (* byte 20000 of the stream (packet 106) overwrote byte 3616 (packet 19) *)
    f_at (replay ex_file evs) ((8192 + 20000) mod 16384) = 106.
Proof.
  split; [repeat split; lia|]. split; [apply Forall_forall; intros p Hp; apply in_map_iff in Hp as [k [<- _]]; reflexivity|].
  split; [reflexivity|].
  eexists (mkRing 8192 16384 true _ 52 0 false []), _. vm_compute. repeat split.
Qed.

(** A failing sync: the third packet block is written, the sync of its chunk
    fails, nothing is announced for it. *)
Example C18_example :
  match rg_session 8192 2 0 [8192; 0; 8192; 0; 0; 0; 8192; -1] ex_packets with
  | Ok (s, evs, ok) => ok = false /\ rg_broken s = true /\ announced evs = [8192; 16384] /\
      last evs EvSync = EvSyncFail
  | Fail _ => False
  end.
Proof. vm_compute. repeat split. Qed.

Example C19_example : load_recorder_option 2097152 1024 (Some 4194304) = Some (2097152, 1024, 4194304)
  /\ load_recorder_option (-8192) 1024 None = None.
Proof. vm_compute. auto. Qed.
