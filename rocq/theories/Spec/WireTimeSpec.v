(** Times on the wire: PCRs, PTSs and DTSs (ISO/IEC 13818-1), EITs (ARIB STD-B10),
    written as the standards say.  The readers of WireSpec are checked against it. *)
From Coq Require Import ZArith List Bool.
From Verif Require Import Base.Util Model.Ts Spec.WireSpec.
Import ListNotations.
Open Scope Z_scope.

(** 33 bits in units of 300, six reserved bits, 9 bits. *)
Definition pcr_field (v : Z) : list Z :=
  let b := v / 300 in
  let e := v mod 300 in
  [b / 2 ^ 25; b / 2 ^ 17 mod 256; b / 2 ^ 9 mod 256; b / 2 mod 256; (b mod 2) * 128 + 126 + e / 256; e mod 256].
(** A packet with a PCR and nothing else. *)
Definition clock_packet (pid v : Z) : list Z := fit ([0x47; pid / 256 mod 32; low pid; 0x20; 183; 0x10] ++ pcr_field v).

(** 33 bits in three parts, each with a marker bit behind it. *)
Definition stamp_field (mark v : Z) : list Z :=
  [mark * 16 + (v / 2 ^ 30) * 2 + 1; v / 2 ^ 22 mod 256; (v / 2 ^ 15 mod 128) * 2 + 1; v / 2 ^ 7 mod 256; (v mod 128) * 2 + 1].
(** The ids of streams whose PES packets have time stamps: not stream maps, padding,
    private_stream_2, ECMs, EMMs, DSM-CC, H.222.1 type E and directories. *)
Definition has_stamps (id : Z) : Prop := ~ In id [0xBC; 0xBE; 0xBF; 0xF0; 0xF1; 0xF2; 0xF8; 0xFF].
(** A packet in which a PES packet starts, of the stream [id]. *)
Definition pes_packet (pid id pts dts : Z) : list Z :=
  fit ([0x47; 64 + pid / 256 mod 32; low pid; 0x10; 0; 0; 1; id; 0; 0; 0x80; 0xC0; 10] ++ stamp_field 3 pts ++ stamp_field 1 dts).
Definition pes_pts_packet (pid id pts : Z) : list Z :=
  fit ([0x47; 64 + pid / 256 mod 32; low pid; 0x10; 0; 0; 1; id; 0; 0; 0x80; 0x80; 5] ++ stamp_field 2 pts).

(** Two digits. *)
Definition digits (x : Z) : Z := (x / 10) * 16 + x mod 10.
Definition time_field (ms : Z) : list Z :=
  let t := ms / 1000 in two (t / 86400) ++ [digits (t / 3600 mod 24); digits (t / 60 mod 60); digits (t mod 60)].
Definition event_bytes (e : event) : list Z :=
  two (ev_id e) ++ time_field (ev_start e) ++
  [digits (ev_duration e / 3600); digits (ev_duration e / 60 mod 60); digits (ev_duration e mod 60); 0x80; 0x00].
Definition eit_packet (t : eit) : list Z :=
  packet_with 0x12 (section_with 0x4E (eit_sid t) (eit_version t)
    (two (eit_tsid t) ++ two (eit_onid t) ++ [0; 0x4E] ++ flat_map event_bytes (eit_events t))).

(** An event on the second, up to 99:59:59 long; at most 13 of them in a packet. *)
Definition plain_event (e : event) : Prop :=
  0 <= ev_id e < 65536 /\ 0 <= ev_start e < 65536 * 86400000 /\ ev_start e mod 1000 = 0 /\ 0 <= ev_duration e < 360000 /\ ev_data e = 0.
Definition eit_fits (t : eit) : Prop :=
  0 <= eit_sid t < 65536 /\ 0 <= eit_tsid t < 65536 /\ 0 <= eit_onid t < 65536 /\ 0 <= eit_version t < 32 /\
  Forall plain_event (eit_events t) /\ (List.length (eit_events t) <= 13)%nat.
