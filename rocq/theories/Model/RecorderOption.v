(** Options of record-service: /repo/src/main.cc:1219-1265. *)
From Coq Require Import ZArith List Bool.
From Verif Require Import Base.Outcome Base.Util Model.RingFileSink.
Import ListNotations.
Open Scope Z_scope.

(** main.cc:1228-1262.  [chunk_size] and [num_chunks] are the [long] values
    parsed by docopt, [start_pos] the optional [uint64_t]; the casts to size_t
    wrap around.  [None]: the options are rejected (std::abort after an error
    message). *)
Definition load_recorder_option (chunk_size num_chunks : Z) (start_pos : option Z) : option (Z * Z * Z) :=
  let cs := u64 chunk_size in
  if cs =? 0 then None
  else if negb (cs mod kRingBufferSize =? 0) then None
  else if kMaxChunkSize <? cs then None
  else
    let nc := u64 num_chunks in
    if nc =? 0 then None
    else if kMaxNumChunks <? nc then None
    else
      match start_pos with
      | None => Some (cs, nc, 0)
      | Some pos =>
          if negb (pos mod cs =? 0) then None
          else if u64 (cs * nc) <=? pos then None
          else Some (cs, nc, pos)
      end.
