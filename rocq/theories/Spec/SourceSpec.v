(** How a byte stream is cut into packets, stated on the whole stream. *)
From Coq Require Import ZArith List.
From Verif Require Import Base.Util Model.FileSource.
Import ListNotations.
Open Scope Z_scope.

Definition sync_at (bs : list Z) (i : Z) : Prop := znth i bs = Some 0x47.

(** Four sync bytes at packet distance. *)
Definition synced_at (bs : list Z) (i : Z) : Prop :=
  sync_at bs i /\ sync_at bs (i + 188) /\ sync_at bs (i + 376) /\ sync_at bs (i + 564).

Inductive packets_of : list Z -> list (list Z) -> Prop :=
| Pk_short : forall bs, zlen bs < 188 -> packets_of bs []
| Pk_packet : forall p rest ps,
    zlen p = 188 -> sync_at p 0 -> packets_of rest ps -> packets_of (p ++ rest) (p :: ps)
| Pk_resync : forall bs i p rest ps,
    940 <= zlen bs -> ~ sync_at bs 0 ->
    0 <= i < 376 -> synced_at bs i -> (forall j, 0 <= j < i -> ~ synced_at bs j) ->
    zdrop i bs = p ++ rest -> zlen p = 188 -> packets_of rest ps ->
    packets_of bs (p :: ps)
| Pk_lost_end : forall bs, 188 <= zlen bs < 940 -> ~ sync_at bs 0 -> packets_of bs []
| Pk_lost : forall bs,
    940 <= zlen bs -> ~ sync_at bs 0 -> (forall j, 0 <= j < 376 -> ~ synced_at bs j) ->
    packets_of bs [].

(** The bytes delivered by a sequence of read results: everything before the
    first end of file or error. *)
Fixpoint bytes_of (reads : list read_result) : list Z :=
  match reads with
  | [] => []
  | ReadError :: _ => []
  | ReadData [] :: _ => []
  | ReadData bs :: r => bs ++ bytes_of r
  end.

(** read(fd, buf, 16384) returns at most 16384 bytes. *)
Definition read_ok (r : read_result) : Prop :=
  match r with ReadData bs => zlen bs <= 16384 | ReadError => True end.
