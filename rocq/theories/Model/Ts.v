(** Transport stream packets and tables as TSDuck presents them.

    TSDuck itself is not in the checkout and not modelled: a packet carries, for
    every demultiplexer of the program (numbered by stage), the list of tables
    that this demultiplexer would complete on the packet.  All theorems quantify
    over these annotations.  A demultiplexer is the set of its enabled PIDs. *)
From Coq Require Import ZArith List Bool.
From Verif Require Import Base.Outcome Base.Util.
From Verif Require Export Model.Clock.
Import ListNotations.
Open Scope Z_scope.

(** ts::PID_* *)
Definition PID_PAT : Z := 0x00.
Definition PID_CAT : Z := 0x01.
Definition PID_NIT : Z := 0x10.
Definition PID_SDT : Z := 0x11.
Definition PID_EIT : Z := 0x12.
Definition PID_RST : Z := 0x13.
Definition PID_TOT : Z := 0x14.
Definition PID_BIT : Z := 0x24.
Definition PID_CDT : Z := 0x29.

(** ts::PAT.  [pat_entries] are the (service id, PID) pairs of the table in
    order.  ts::PAT keeps the pair with service id 0 as [nit_pid] (default
    PID_NULL) and the others in the map [pmts]. *)
Record pat := mkPat {
  pat_tsid : Z;
  pat_version : Z;
  pat_entries : list (Z * Z) }.

Definition pat_pmts (t : pat) : list (Z * Z) :=
  map_of (filter (fun e => negb (fst e =? 0)) (pat_entries t)).
Definition pat_nit_pid (t : pat) : Z :=
  match mfind 0 (map_of (filter (fun e => fst e =? 0) (pat_entries t))) with
  | Some pid => pid
  | None => PID_NULL
  end.

(** ts::CAT: the PIDs of its CA descriptors. *)
Record cat := mkCat {
  cat_version : Z;
  cat_ca_pids : list Z }.

(** ts::PMT::Stream, as far as the code asks: isVideo(), isAudio(),
    stream_type, isSubtitles() and getComponentTag(). *)
Record stream := mkStream {
  es_video : bool;
  es_audio : bool;
  es_type : Z;
  es_subtitles : bool;
  es_tag : option Z }.

(** ts::PMT.  [pmt_ca_pids] are the PIDs of the CA descriptors of the program
    loop; [pmt_entries] the streams in table order; the map [streams] is keyed
    by PID. *)
Record pmt := mkPmt {
  pmt_sid : Z;
  pmt_version : Z;
  pmt_pcr_pid : Z;
  pmt_ca_pids : list Z;
  pmt_entries : list (Z * stream) }.

Definition pmt_streams (t : pmt) : list (Z * stream) := map_of (pmt_entries t).

(** ts::EIT::Event: times are JST milliseconds since 1858-11-17, the
    duration is in seconds; [ev_data] stands for everything else. *)
Record event := mkEvent {
  ev_id : Z;
  ev_start : Z;
  ev_duration : Z;
  ev_data : Z }.

Record eit := mkEit {
  eit_sid : Z;
  eit_tsid : Z;
  eit_onid : Z;
  eit_version : Z;
  eit_events : list event }.

(** ts::SDT::Service; [sv_logo] is the (transmission type, logo id) of the first
    ARIB logo transmission descriptor, if any. *)
Record service := mkService {
  sv_type : Z;
  sv_name : Z;
  sv_logo : option (Z * Z) }.

Record sdt := mkSdt {
  sdt_tsid : Z;
  sdt_onid : Z;
  sdt_entries : list (Z * service) }.
Definition sdt_services (t : sdt) : list (Z * service) := map_of (sdt_entries t).

(** ts::NIT: transports (tsid, onid) with the remote control key id of the first
    ARIB TS information descriptor, if any. *)
Record nit := mkNit {
  nit_transports : list (Z * Z * option Z) }.

(** A completed table, by table id; [None] is a table that does not
    deserialise (isValid() = false). *)
Inductive body :=
| TPat (t : option pat)
| TCat (t : option cat)
| TPmt (t : option pmt)
| TEit (t : option eit)      (* TID_EIT_PF_ACT *)
| TTot (t : option Z)        (* utc_time, which is JST in ARIB *)
| TSdt (t : option sdt)      (* TID_SDT_ACT *)
| TNit (t : option nit)      (* TID_NIT_ACT *)
| TOther.

(** ts::BinaryTable; [tb_first] is getFirstTSPacketIndex(). *)
Record table := mkTable {
  tb_body : body;
  tb_first : Z }.

(** What a packet is made of: an input packet (its bytes are opaque), or a
    packet generated by a packetizer. *)
Inductive content :=
| Raw (id : Z)
| GenPat (t : pat)
| GenPmt (t : pmt) (index : nat).

(** ts::TSPacket.  [p_pcr] is [Some v] when hasPCR() and getPCR() = v is not
    INVALID_PCR; likewise [p_pts] and [p_dts].  [p_tabs k] are the tables that the demultiplexer of
    stage [k] completes on this packet if its PID is enabled.  [p_regen k] is used
    only for packets that an earlier stage replaces by a generated one: how many
    times the demultiplexer of stage [k] then delivers the generated table. *)
Record packet := mkPacket {
  p_content : content;
  p_pid : Z;
  p_pusi : bool;
  p_pcr : option Z;
  p_pts : option Z;
  p_dts : option Z;
  p_tabs : nat -> list table;
  p_regen : nat -> nat }.

(** ts::SectionDemux::feedPacket: the tables delivered for a packet by a
    demultiplexer whose enabled PIDs are [pids]. *)
Definition demux_feed (pids : list Z) (stage : nat) (p : packet) : list table :=
  if zmem (p_pid p) pids then p_tabs p stage else [].

(** The packet made by a CyclingPacketizer holding [t] alone, in place of the
    packet [p].  A PAT with one service (and the NIT) always fits one packet;
    its continuity counter is not modelled. *)
Definition gen_pat (p : packet) (t : pat) : packet :=
  mkPacket (GenPat t) PID_PAT true None None None
    (fun k => repeat (mkTable (TPat (Some t)) 0) (p_regen p k)) (p_regen p).

(** Handling tables one after the other. *)
Fixpoint handle_tables {S : Type} (handle : S -> Z -> table -> res S) (s : S) (pid : Z) (ts : list table) : res S :=
  match ts with
  | [] => Ok s
  | t :: r => let* s1 := handle s pid t in handle_tables handle s1 pid r
  end.
