(** A file on disk, as seen by the process and as it survives a crash, and the
    effect of the recorded operations on it.  Nothing here depends on how the
    ring sink works. *)
From Coq Require Import ZArith List Bool.
From Verif Require Import Base.Outcome Base.Util Model.RingFileSink.
Import ListNotations.
Open Scope Z_scope.

(** [f_at i] is the byte at offset [i], [f_pos] the file offset, [f_len] the
    length.  [f_synced i] is the byte that the last successful fsync put on
    the disk and [f_dirty i] says that offset [i] was changed after it. *)
Record file := mkFile {
  f_at : Z -> Z;
  f_len : Z;
  f_pos : Z;
  f_synced : Z -> Z;
  f_dirty : Z -> bool }.

Definition in_range (i lo n : Z) : bool := (lo <=? i) && (i <? lo + n).

Definition file_step (f : file) (e : ring_event) : file :=
  match e with
  | EvWrite bs =>
      mkFile (fun i => if in_range i (f_pos f) (zlen bs)
                       then match znth (i - f_pos f) bs with Some b => b | None => 0 end
                       else f_at f i)
             (Z.max (f_len f) (f_pos f + zlen bs))
             (f_pos f + zlen bs)
             (f_synced f)
             (fun i => in_range i (f_pos f) (zlen bs) || f_dirty f i)
  | EvSync => mkFile (f_at f) (f_len f) (f_pos f) (f_at f) (fun _ => false)
  | EvTrunc n =>
      mkFile (fun i => if i <? n then f_at f i else 0) n (f_pos f)
             (f_synced f) (fun i => negb (i <? n) || f_dirty f i)
  | EvSeek o => mkFile (f_at f) (f_len f) o (f_synced f) (f_dirty f)
  | EvWriteFail | EvSyncFail | EvTruncFail | EvSeekFail | EvNotify _ => f
  end.

Definition replay (f : file) (evs : list ring_event) : file := fold_left file_step evs f.

(** What may be found on the disk after a crash: the synced bytes, except
    that an offset changed since may hold anything. *)
Definition after_crash (f : file) (disk : Z -> Z) : Prop :=
  forall i, f_dirty f i = false -> disk i = f_synced f i.

(** The bytes written, and the positions announced, by a trace. *)
Fixpoint written (evs : list ring_event) : list Z :=
  match evs with
  | [] => []
  | EvWrite bs :: r => bs ++ written r
  | _ :: r => written r
  end.

Fixpoint announced (evs : list ring_event) : list Z :=
  match evs with
  | [] => []
  | EvNotify p :: r => p :: announced r
  | _ :: r => announced r
  end.

Definition is_failure (e : ring_event) : bool :=
  match e with
  | EvWriteFail | EvSyncFail | EvTruncFail | EvSeekFail => true
  | _ => false
  end.

(** The geometry that a recorder may be given: chunks of a positive multiple
    of 8 KiB, at most 8192 * 0x3FFFF bytes; a positive number of them, at most
    0x7FFFFFFF; and a start position that is a chunk boundary inside the
    ring. *)
Definition valid_geometry (chunk_size num_chunks start : Z) : Prop :=
  0 < chunk_size <= 8192 * 262143 /\ chunk_size mod 8192 = 0 /\
  0 < num_chunks <= 2147483647 /\
  0 <= start < chunk_size * num_chunks /\ start mod chunk_size = 0.

(** The positions that must be announced for the first [n] chunks: the end
    offsets of successive chunks, starting from [start]. *)
Definition chunk_end (chunk_size ring_size start k : Z) : Z :=
  (start + k * chunk_size) mod ring_size + chunk_size.
