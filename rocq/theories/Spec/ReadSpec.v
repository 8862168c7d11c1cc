(** A reader of the file of record-service, who sees its messages only. *)
From Coq Require Import ZArith List Bool.
From Verif Require Import Base.Outcome Base.Util Model.Ts Model.RingFileSink Model.ServiceRecorder
  Spec.FileSpec Spec.RecorderSpec.
Import ListNotations.
Open Scope Z_scope.

(** The number of chunk messages; the first one says that recording begins, each
    other one that a chunk is complete. *)
Definition chunks (ms : list message) : Z := zlen (chunk_positions ms).

(** [n] bytes of a ring of [ring] bytes, from the position [p] on. *)
Definition slice (disk : Z -> Z) (ring p n : Z) : list Z :=
  map (fun i => disk ((p + Z.of_nat i) mod ring)) (seq 0 (Z.to_nat n)).

Section Reader.
(** The chunk size. *)
Variable cs : Z.

(** How many bytes had been recorded when a message with the position [p] came
    after [k] chunk messages: the complete chunks, and the bytes since. *)
Definition bytes_at (k p : Z) : Z := cs * (k - 1) + p mod cs.

(** How many bytes had been recorded where an event starts whose event-start
    follows the messages [ms]: as many as at the last event-end; none if there was
    no event-end.  [k]: chunk messages so far; [lo]: the answer so far. *)
Fixpoint begins (k lo : Z) (ms : list message) : Z :=
  match ms with
  | [] => lo
  | MChunk _ _ :: r => begins (k + 1) lo r
  | MEvent KEnd _ _ _ _ _ p :: r => begins k (bytes_at k p) r
  | _ :: r => begins k lo r
  end.
End Reader.
