(** Input with bytes that do not belong to any packet. *)
From Coq Require Import ZArith List.
From Verif Require Import Base.Util Spec.SourceSpec.
Import ListNotations.
Open Scope Z_scope.

(** 188 bytes that start with the sync byte. *)
Definition whole (p : list Z) : Prop := zlen p = 188 /\ sync_at p 0.

(** [g] does not look like packets when [bs] comes after it: it does not start
    with the sync byte, and nowhere in it four sync bytes start that are 188 bytes
    apart. *)
Definition no_packets_in (g bs : list Z) : Prop :=
  ~ sync_at g 0 /\ forall j, 0 <= j < zlen g -> ~ synced_at (g ++ bs) j.

(** Packets with noise between them, and the packets.  Less than 376 bytes of
    noise at a time, at least four packets after it, and 940 bytes from the start
    of the noise to the end of the input. *)
Inductive noisy : list Z -> list (list Z) -> Prop :=
| Noisy_end : forall tail, zlen tail < 188 -> noisy tail []
| Noisy_packet : forall p bs ps, whole p -> noisy bs ps -> noisy (p ++ bs) (p :: ps)
| Noisy_noise : forall g p1 p2 p3 p4 r ps, 0 < zlen g < 376 -> Forall whole [p1; p2; p3; p4] ->
    let bs := p1 ++ p2 ++ p3 ++ p4 ++ r in
    no_packets_in g bs -> 940 <= zlen (g ++ bs) -> noisy bs ps -> noisy (g ++ bs) ps.
