(** StdoutSink: /repo/src/packet_sink.hh:57-117. *)
From Coq Require Import ZArith List Bool.
From Verif Require Import Base.Outcome Base.Util Model.Sink Model.FileSource.
Import ListNotations.
Open Scope Z_scope.

(** packet_sink.hh:96 *)
Definition kStdoutBufferSize : Z := 4096 * 4.

(** Results of write(2): [Wrote n] takes the first [n] bytes (at most what was
    offered), [WriteError] takes none and returns -1. *)
Inductive write_result :=
| Wrote (n : Z)
| WriteError.

(** packet_sink.hh:113-114.  [so_buf] is [buf_[0..pos_)].  [so_writes] are the
    results of the write calls to come (when used up, writes are complete);
    [so_out] is what has reached the descriptor so far. *)
Record stdout_state := mkStdout {
  so_buf : list Z;
  so_writes : list write_result;
  so_out : list Z }.

Definition so_init (writes : list write_result) : stdout_state := mkStdout [] writes [].

(** packet_sink.hh:98-111 Flush: [rest] is [buf_[nwritten..pos_)].  The loop
    takes one write result per iteration; on an error the buffer is kept as it
    is, although a part of it may have been written. *)
Fixpoint so_flush (buf rest : list Z) (writes : list write_result) (out : list Z) : stdout_state * bool :=
  if zlen rest =? 0 then (mkStdout [] writes out, true)
  else
    match writes with
    | [] => (mkStdout [] [] (out ++ rest), true)
    | WriteError :: w => (mkStdout buf w out, false)
    | Wrote n :: w => so_flush buf (zdrop n rest) w (out ++ ztake n rest)
    end.

Definition so_Flush (s : stdout_state) : stdout_state * bool :=
  so_flush (so_buf s) (so_buf s) (so_writes s) (so_out s).

(** packet_sink.hh:66-88 HandlePacket; [packet] is [packet.b], 188 bytes. *)
Definition so_HandlePacket (s : stdout_state) (packet : list Z) : res (stdout_state * bool) :=
  let pos := zlen (so_buf s) in
  if pos + PKT_SIZE <? kStdoutBufferSize then
    Ok (mkStdout (so_buf s ++ packet) (so_writes s) (so_out s), true)
  else
    let remaining := kStdoutBufferSize - pos in
    if remaining <? 0 then Fail Undefined else   (* size_t wrap-around, memcpy out of bounds *)
    let s1 := mkStdout (so_buf s ++ ztake remaining packet) (so_writes s) (so_out s) in
    assert (zlen (so_buf s1) =? kStdoutBufferSize) (
    let (s2, ok) := so_Flush s1 in
    if negb ok then Ok (s2, false)
    else if remaining <? PKT_SIZE then
      assert (zlen (so_buf s2) =? 0)
        (Ok (mkStdout (zdrop remaining packet) (so_writes s2) (so_out s2), true))
    else Ok (s2, true)).

(** packet_sink.hh:62-64 End *)
Definition so_End (s : stdout_state) : stdout_state := fst (so_Flush s).

(** packet_sink.hh:18-24: Start and GetExitCode are inherited. *)
Definition stdout_sink : sink (list Z) :=
  mkSink stdout_state (fun s => Ok (s, true)) so_HandlePacket (fun s => Ok (so_End s)) (fun _ => Ok EXIT_SUCCESS).
