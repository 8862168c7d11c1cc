(** RingFileSink: /repo/src/ring_file_sink.hh, over a [File] (file.hh:13-28). *)
From Coq Require Import ZArith List Bool.
From Verif Require Import Base.Outcome Base.Util Model.Sink Model.FileSource.
Import ListNotations.
Open Scope Z_scope.

(** ring_file_sink.hh:35-39 *)
Definition kRingBufferSize : Z := 2 * kBlockSize.
Definition kMaxChunkSize : Z := kRingBufferSize * 262143.   (* 0x3FFFF *)
Definition kMaxNumChunks : Z := 2147483647.                 (* 0x7FFFFFFF *)

(** The calls made on the file and on the observer, with their outcome.  The
    file operations that fail have no effect on the file. *)
Inductive ring_event :=
| EvWrite (bytes : list Z)
| EvWriteFail
| EvSync
| EvSyncFail
| EvTrunc (size : Z)
| EvTruncFail
| EvSeek (offset : Z)
| EvSeekFail
| EvNotify (pos : Z).

(** ring_file_sink.hh:174-182.  [rg_buf] is [buf_[0..buf_pos_)].  [rg_ops] are
    the results of the file operations to come, one number each: for a write
    the number of bytes taken (at most what was offered), where zero or less is
    a failure; for the other operations a negative number is a failure.  When
    used up, operations succeed completely. *)
Record ring := mkRing {
  rg_chunk_size : Z;
  rg_ring_size : Z;
  rg_observed : bool;
  rg_buf : list Z;
  rg_ring_pos : Z;
  rg_chunk_pos : Z;
  rg_broken : bool;
  rg_ops : list Z }.

(** ring_file_sink.hh:19-31: the constructor. *)
Definition rg_new (chunk_size num_chunks : Z) (ops : list Z) : res ring :=
  assert (0 <? chunk_size) (
  assert (chunk_size <=? kMaxChunkSize) (
  assert (0 <? num_chunks) (
  assert (num_chunks <=? kMaxNumChunks) (
  assert (chunk_size mod kRingBufferSize =? 0) (
  Ok (mkRing chunk_size (u64 (chunk_size * num_chunks)) false [] 0 0 false ops)))))).

(** ring_file_sink.hh:97-100 SetObserver, with a non-null observer. *)
Definition rg_SetObserver (s : ring) : ring :=
  mkRing (rg_chunk_size s) (rg_ring_size s) true (rg_buf s) (rg_ring_pos s) (rg_chunk_pos s) (rg_broken s) (rg_ops s).

(** The next file operation other than a write: its success and what remains. *)
Definition rg_next (ops : list Z) : bool * list Z :=
  match ops with
  | [] => (true, [])
  | r :: o => (0 <=? r, o)
  end.

(** ring_file_sink.hh:78-95 SetPosition *)
Definition rg_SetPosition (s : ring) (pos : Z) : res (ring * list ring_event * bool) :=
  assert (pos <=? int64_max) (
  assert (pos mod kRingBufferSize =? 0) (
  assert (pos <? rg_ring_size s) (
  assert (pos mod rg_chunk_size s =? 0) (
  let (ok, ops) := rg_next (rg_ops s) in
  if ok then
    Ok (mkRing (rg_chunk_size s) (rg_ring_size s) (rg_observed s) [] pos 0 (rg_broken s) ops, [EvSeek pos], true)
  else
    Ok (mkRing (rg_chunk_size s) (rg_ring_size s) (rg_observed s) (rg_buf s) (rg_ring_pos s) (rg_chunk_pos s)
          (rg_broken s) ops, [EvSeekFail], false))))).

(** ring_file_sink.hh:107-115 FillBuffer: the number of bytes taken. *)
Definition rg_FillBuffer (s : ring) (data : list Z) : res (ring * Z) :=
  let free_bytes := kRingBufferSize - zlen (rg_buf s) in
  if free_bytes <? 0 then Fail Undefined else   (* size_t wrap-around, memcpy out of bounds *)
  let fill_bytes := Z.min (zlen data) free_bytes in
  let buf := rg_buf s ++ ztake fill_bytes data in
  assert (zlen buf <=? kRingBufferSize) (
  let ring_pos := u64 (rg_ring_pos s + fill_bytes) in
  assert (ring_pos <=? rg_ring_size s) (
  Ok (mkRing (rg_chunk_size s) (rg_ring_size s) (rg_observed s) buf ring_pos (rg_chunk_pos s) (rg_broken s)
        (rg_ops s), fill_bytes))).

(** ring_file_sink.hh:117-119 *)
Definition rg_NeedFlush (s : ring) : bool := zlen (rg_buf s) =? kRingBufferSize.

(** ring_file_sink.hh:126-134: the write loop; [rest] is
    [buf_[nwritten..kBufferSize)]. *)
Fixpoint rg_write (rest : list Z) (ops : list Z) : list ring_event * list Z * bool :=
  if zlen rest =? 0 then ([], ops, true)
  else
    match ops with
    | [] => ([EvWrite rest], [], true)
    | r :: o =>
        if r <=? 0 then ([EvWriteFail], o, false)
        else
          let '(evs, o1, ok) := rg_write (zdrop r rest) o in
          (EvWrite (ztake r rest) :: evs, o1, ok)
    end.

(** ring_file_sink.hh:154-167: the end of the ring. *)
Definition rg_wrap (s : ring) : ring * list ring_event * bool :=
  if rg_ring_pos s =? rg_ring_size s then
    let (ok1, ops1) := rg_next (rg_ops s) in
    if negb ok1 then
      (mkRing (rg_chunk_size s) (rg_ring_size s) (rg_observed s) (rg_buf s) (rg_ring_pos s) (rg_chunk_pos s)
         (rg_broken s) ops1, [EvTruncFail], false)
    else
      let (ok2, ops2) := rg_next ops1 in
      if negb ok2 then
        (mkRing (rg_chunk_size s) (rg_ring_size s) (rg_observed s) (rg_buf s) (rg_ring_pos s) (rg_chunk_pos s)
           (rg_broken s) ops2, [EvTrunc (rg_ring_size s); EvSeekFail], false)
      else
        (mkRing (rg_chunk_size s) (rg_ring_size s) (rg_observed s) (rg_buf s) 0 (rg_chunk_pos s)
           (rg_broken s) ops2, [EvTrunc (rg_ring_size s); EvSeek 0], true)
  else (s, [], true).

(** ring_file_sink.hh:121-168 Flush *)
Definition rg_Flush (s : ring) : res (ring * list ring_event * bool) :=
  assert (zlen (rg_buf s) =? kRingBufferSize) (
  let '(evs, ops, ok) := rg_write (rg_buf s) (rg_ops s) in
  if negb ok then
    Ok (mkRing (rg_chunk_size s) (rg_ring_size s) (rg_observed s) (rg_buf s) (rg_ring_pos s) (rg_chunk_pos s)
          (rg_broken s) ops, evs, false)
  else
    let chunk_pos := rg_chunk_pos s + kRingBufferSize in
    assert (chunk_pos <=? rg_chunk_size s) (
    if chunk_pos =? rg_chunk_size s then
      assert (negb (rg_ring_pos s =? 0)) (
      assert (rg_ring_pos s mod rg_chunk_size s =? 0) (
      let (ok1, ops1) := rg_next ops in
      if negb ok1 then
        Ok (mkRing (rg_chunk_size s) (rg_ring_size s) (rg_observed s) [] (rg_ring_pos s) chunk_pos
              (rg_broken s) ops1, evs ++ [EvSyncFail], false)
      else
        let notes := if rg_observed s then [EvNotify (rg_ring_pos s)] else [] in
        let '(s1, wevs, ok2) := rg_wrap
             (mkRing (rg_chunk_size s) (rg_ring_size s) (rg_observed s) [] (rg_ring_pos s) 0 (rg_broken s) ops1) in
        Ok (s1, evs ++ [EvSync] ++ notes ++ wevs, ok2)))
    else
      let '(s1, wevs, ok2) := rg_wrap
           (mkRing (rg_chunk_size s) (rg_ring_size s) (rg_observed s) [] (rg_ring_pos s) chunk_pos (rg_broken s) ops) in
      Ok (s1, evs ++ wevs, ok2))).

(** ring_file_sink.hh:52-68: the do-while loop; [data] is
    [packet.b[nwritten..188)].  Running out of fuel is reported as undefined
    behaviour (an endless loop). *)
Fixpoint rg_loop (fuel : nat) (s : ring) (data : list Z) : res (ring * list ring_event * bool) :=
  match fuel with
  | O => Fail Undefined
  | S fuel' =>
      let* (s1, n) := rg_FillBuffer s data in
      let rest := zdrop n data in
      let* (s2, evs, ok) := if rg_NeedFlush s1 then rg_Flush s1 else Ok (s1, [], true) in
      if negb ok then
        Ok (mkRing (rg_chunk_size s2) (rg_ring_size s2) (rg_observed s2) (rg_buf s2) (rg_ring_pos s2)
              (rg_chunk_pos s2) true (rg_ops s2), evs, false)
      else if zlen rest =? 0 then Ok (s2, evs, true)
      else
        let* (s3, evs2, ok2) := rg_loop fuel' s2 rest in
        Ok (s3, evs ++ evs2, ok2)
  end.

(** ring_file_sink.hh:52-68 HandlePacket *)
Definition rg_HandlePacket (s : ring) (packet : list Z) : res (ring * list ring_event * bool) :=
  rg_loop (S (S (length packet))) s packet.

(** ring_file_sink.hh:45-50 GetExitCode *)
Definition rg_GetExitCode (s : ring) : Z := if rg_broken s then EXIT_FAILURE else EXIT_SUCCESS.

(** Feeding packets until one is refused, as FeedPackets and the recorder do
    (packet_source.hh:34-38, service_recorder.hh:325): final state, events, and
    whether all were accepted. *)
Fixpoint rg_feed (s : ring) (packets : list (list Z)) : res (ring * list ring_event * bool) :=
  match packets with
  | [] => Ok (s, [], true)
  | p :: r =>
      let* (s1, evs, ok) := rg_HandlePacket s p in
      if ok then
        let* (s2, evs2, ok2) := rg_feed s1 r in Ok (s2, evs ++ evs2, ok2)
      else Ok (s1, evs, false)
  end.

(** The life of the sink in record-service: construction (main.cc:1361-1362),
    Connect (service_recorder.hh:51-54), Start (service_recorder.hh:56-68) with
    its seek when the start position is not zero, then packets.  The last
    component tells whether all packets were accepted. *)
Definition rg_open (chunk_size num_chunks start : Z) (ops : list Z) : res (ring * list ring_event * bool) :=
  let* s0 := rg_new chunk_size num_chunks ops in
  let s1 := rg_SetObserver s0 in
  if start =? 0 then Ok (s1, [], true) else rg_SetPosition s1 start.

Definition rg_session (chunk_size num_chunks start : Z) (ops : list Z) (packets : list (list Z))
    : res (ring * list ring_event * bool) :=
  let* (s, evs, ok) := rg_open chunk_size num_chunks start ops in
  if ok then
    let* (s1, evs1, ok1) := rg_feed s packets in Ok (s1, evs ++ evs1, ok1)
  else Ok (s, evs, false).
