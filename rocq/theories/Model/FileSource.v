(** FileSource: /repo/src/packet_source.hh:53-171. *)
From Coq Require Import ZArith List Bool.
From Verif Require Import Base.Outcome Base.Util Model.Sink.
Import ListNotations.
Open Scope Z_scope.

(** ts::PKT_SIZE, ts::SYNC_BYTE; base.hh:13 kBlockSize *)
Definition PKT_SIZE : Z := 188.
Definition SYNC_BYTE : Z := 0x47.
Definition kBlockSize : Z := 4096.

(** packet_source.hh:59-69 *)
Definition kMaxDropBytes : Z := 2 * PKT_SIZE.
Definition kMaxResyncBytes : Z := kMaxDropBytes + 3 * PKT_SIZE.
Definition kReadChunkSize : Z := 4 * kBlockSize.
Definition kBufferSize : Z := kReadChunkSize + kMaxResyncBytes.

(** Results of File::Read (file.hh:18, main.cc:945-951).  [ReadData bs] stores
    the bytes [bs] and returns their number (zero at end of file);
    [ReadError] returns -1. *)
Inductive read_result :=
| ReadData (bytes : list Z)
| ReadError.

(** packet_source.hh:164-168.  [fs_buf] holds the initialised part of [buf_],
    i.e. [buf_[0..end_)]: the rest of the array is indeterminate, and reading it
    is reported as undefined behaviour.  [fs_reads] are the results of the read
    calls to come; when the list is used up, read returns 0.
 *)
Record fs := mkFs {
  fs_reads : list read_result;
  fs_eof : bool;
  fs_buf : list Z;
  fs_pos : Z }.

Definition fs_end (s : fs) : Z := zlen (fs_buf s).

Definition fs_init (reads : list read_result) : fs := mkFs reads false [] 0.

(** [buf_[i]] *)
Definition fs_at (s : fs) (i : Z) : res Z :=
  match znth i (fs_buf s) with Some b => Ok b | None => Fail Undefined end.

(** packet_source.hh:110-119: the do-while loop of FillBuffer.  A read that
    stores more bytes than asked for breaks the File contract and would overrun
    the buffer. *)
Fixpoint fs_read_loop (reads : list read_result) (buf : list Z) (min_bytes : Z) : res (fs * bool) :=
  assert (kReadChunkSize <=? kBufferSize - zlen buf) (
  match reads with
  | [] => Ok (mkFs [] true buf 0, false)
  | ReadError :: r => Ok (mkFs r true buf 0, false)
  | ReadData bs :: r =>
      if zlen bs =? 0 then Ok (mkFs r true buf 0, false)
      else if kReadChunkSize <? zlen bs then Fail Undefined
      else if zlen (buf ++ bs) <? min_bytes then fs_read_loop r (buf ++ bs) min_bytes
      else Ok (mkFs r false (buf ++ bs) 0, true)
  end).

(** packet_source.hh:95-122 FillBuffer *)
Definition fs_FillBuffer (s : fs) (min_bytes : Z) : res (fs * bool) :=
  assert (min_bytes <=? kMaxResyncBytes) (
  assert (negb (fs_eof s)) (
  assert (fs_pos s <=? fs_end s) (
  assert (fs_end s <=? kBufferSize) (
  if min_bytes <=? fs_end s - fs_pos s then Ok (s, true)
  else fs_read_loop (fs_reads s) (zdrop (fs_pos s) (fs_buf s)) min_bytes)))).

(** packet_source.hh:150-154 ValidateResync ([&&] stops at the first mismatch) *)
Definition fs_ValidateResync (s : fs) (pos : Z) : res bool :=
  let* b1 := fs_at s (pos + 1 * PKT_SIZE) in
  if negb (b1 =? SYNC_BYTE) then Ok false else
  let* b2 := fs_at s (pos + 2 * PKT_SIZE) in
  if negb (b2 =? SYNC_BYTE) then Ok false else
  let* b3 := fs_at s (pos + 3 * PKT_SIZE) in
  Ok (b3 =? SYNC_BYTE).

(** packet_source.hh:134-144: the search loop; [n] is [resync_end - pos]. *)
Fixpoint fs_resync_loop (s : fs) (n : nat) (pos : Z) : res (fs * bool) :=
  match n with
  | O => Ok (mkFs (fs_reads s) (fs_eof s) (fs_buf s) pos, false)
  | S n' =>
      let* b := fs_at s pos in
      if negb (b =? SYNC_BYTE) then fs_resync_loop s n' (pos + 1)
      else
        let* v := fs_ValidateResync s pos in
        if v then Ok (mkFs (fs_reads s) (fs_eof s) (fs_buf s) pos, true)
        else fs_resync_loop s n' (pos + 1)
  end.

(** packet_source.hh:124-148 Resync *)
Definition fs_Resync (s : fs) : res (fs * bool) :=
  let* (s1, ok) := fs_FillBuffer s kMaxResyncBytes in
  if negb ok then Ok (s1, false)
  else fs_resync_loop s1 (Z.to_nat kMaxDropBytes) (fs_pos s1).

(** packet_source.hh:88-92: copying the packet out. *)
Definition fs_take (s : fs) : res (fs * option (list Z)) :=
  if fs_end s <? fs_pos s + PKT_SIZE then Fail Undefined
  else
    let packet := ztake PKT_SIZE (zdrop (fs_pos s) (fs_buf s)) in
    let s1 := mkFs (fs_reads s) (fs_eof s) (fs_buf s) (fs_pos s + PKT_SIZE) in
    let* b0 := (match znth 0 packet with Some b => Ok b | None => Fail Undefined end) in
    assert (b0 =? SYNC_BYTE) (Ok (s1, Some packet)).

(** packet_source.hh:75-93 GetNextPacket *)
Definition fs_GetNextPacket (s : fs) : res (fs * option (list Z)) :=
  let* (s1, ok) := fs_FillBuffer s PKT_SIZE in
  if negb ok then Ok (s1, None) else
  let* b := fs_at s1 (fs_pos s1) in
  if negb (b =? SYNC_BYTE) then
    let* (s2, ok2) := fs_Resync s1 in
    if negb ok2 then Ok (s2, None) else
    let* b2 := fs_at s2 (fs_pos s2) in
    assert (b2 =? SYNC_BYTE) (fs_take s2)
  else fs_take s1.

Definition file_source : source (list Z) := mkSource fs fs_GetNextPacket.

(** All packets of a file: GetNextPacket until it reports the end.  [None]: not
    enough fuel. *)
Fixpoint fs_all (fuel : nat) (s : fs) : option (res (list (list Z))) :=
  match fuel with
  | O => None
  | S fuel' =>
      match fs_GetNextPacket s with
      | Fail f => Some (Fail f)
      | Ok (_, None) => Some (Ok [])
      | Ok (s1, Some p) =>
          match fs_all fuel' s1 with
          | None => None
          | Some r => Some (let* ps := r in Ok (p :: ps))
          end
      end
  end.
