(** EIT sections, their service key and their JSON documents:
    /repo/src/tsduck_helper.hh:82-152, 487-621; SidSet membership:
    /repo/src/base.hh:27-66. *)
From Coq Require Import ZArith List Bool.
From Verif Require Import Base.Outcome Base.Util Model.Pcr.
Import ListNotations.
Open Scope Z_scope.

(** ts::Section as the collectors see it: isValid(), sourcePID(), tableId(),
    tableIdExtension(), version(), isNext(), sectionNumber(),
    lastSectionNumber(), payload() and the bytes that follow the payload inside
    the section (the CRC32 of a long section). *)
Record section := mkSection {
  sn_valid : bool;
  sn_pid : Z;
  sn_tid : Z;
  sn_ext : Z;
  sn_version : Z;
  sn_next : bool;
  sn_number : Z;
  sn_last : Z;
  sn_payload : list Z;
  sn_crc : list Z }.

(** tsduck_helper.hh:82-97.  [ei_data] is the memory from [events_data] to the
    end of the section, [ei_size] is [events_size]. *)
Record eit_section := mkEit {
  ei_pid : Z;
  ei_sid : Z;
  ei_tid : Z;
  ei_nid : Z;
  ei_tsid : Z;
  ei_last_tid : Z;
  ei_number : Z;
  ei_last : Z;
  ei_seg_last : Z;
  ei_version : Z;
  ei_data : list Z;
  ei_size : Z }.

Definition EIT_PAYLOAD_FIXED_SIZE : Z := 6.
Definition EIT_EVENT_FIXED_SIZE : Z := 12.

(** ts::GetUInt8 and ts::GetUInt16 (big endian) at [data + n]; reading outside
    the section is undefined. *)
Definition get8 (data : list Z) (n : Z) : res Z :=
  match znth n data with Some b => Ok b | None => Fail Undefined end.

Definition get16 (data : list Z) (n : Z) : res Z :=
  let* a := get8 data n in
  let* b := get8 data (n + 1) in
  Ok (a * 256 + b).

(** tsduck_helper.hh:101-117.  [size - 6] is computed in size_t. *)
Definition EitSection (s : section) : res eit_section :=
  let data := sn_payload s ++ sn_crc s in
  let* nid := get16 data 2 in
  let* tsid := get16 data 0 in
  let* last_tid := get8 data 5 in
  let* seg_last := get8 data 4 in
  Ok (mkEit (sn_pid s) (sn_ext s) (sn_tid s) nid tsid last_tid (sn_number s) (sn_last s) seg_last
        (sn_version s) (zdrop EIT_PAYLOAD_FIXED_SIZE data)
        ((zlen (sn_payload s) - EIT_PAYLOAD_FIXED_SIZE) mod 2 ^ 64)).

(** tsduck_helper.hh:119-123.  [static_cast<uint32_t>(sid) << 16] fits in 32
    bits. *)
Definition service_triple (e : eit_section) : Z :=
  Z.lor (Z.lor (Z.shiftl (ei_nid e) 48) (Z.shiftl (ei_tsid e) 32)) (Z.shiftl (ei_sid e) 16).

(** tsduck_helper.hh:125-151 *)
Definition table_index (e : eit_section) : Z := Z.land (ei_tid e) 0x07.
Definition last_table_index (e : eit_section) : Z := Z.land (ei_last_tid e) 0x07.
Definition segment_index (e : eit_section) : Z := Z.shiftr (ei_number e) 3.
Definition section_index (e : eit_section) : Z := Z.land (ei_number e) 0x07.
Definition last_segment_index (e : eit_section) : Z := Z.shiftr (ei_last e) 3.
Definition last_section_index (e : eit_section) : Z := Z.land (ei_seg_last e) 0x07.
Definition IsBasic (e : eit_section) : bool := Z.land (ei_tid e) 0x0F <? 8.

(** An element of the "events" array.  [None] is JSON null.  [ev_descs] is the
    block of bytes handed to LibISDB::DescriptorBlock::ParseBlock; how LibISDB
    turns it into the "descriptors" array is not modelled. *)
Record event_doc := mkEvent {
  ev_id : Z;
  ev_start : option Z;
  ev_duration : option Z;
  ev_scrambled : bool;
  ev_descs : list Z }.

(** The document written for a section (tsduck_helper.hh:604-621). *)
Record eit_doc := mkEitDoc {
  ed_nid : Z;
  ed_tsid : Z;
  ed_sid : Z;
  ed_tid : Z;
  ed_number : Z;
  ed_last : Z;
  ed_seg_last : Z;
  ed_version : Z;
  ed_events : list event_doc }.

(** ts::IsValidBCD, ts::DecodeBCD *)
Definition IsValidBCD (b : Z) : bool := (Z.land b 0xF0 <? 0xA0) && (Z.land b 0x0F <? 0x0A).
Definition DecodeBCD (b : Z) : Z := 10 * Z.shiftr b 4 + Z.land b 0x0F.

(** ts::DecodeMJD on 5 bytes is a parameter of the model: [mjd] maps the five
    bytes to the time they denote, or to [None] when DecodeMJD fails. *)
Section Mjd.
Variable mjd : list Z -> option Z.

(** tsduck_helper.hh:495-515: the fixed part of one event, [d] being the memory
    from [data] on.  The pair is the event without its descriptors and
    [info_length].  The start time is converted by
    ConvertJstTimeToUnixTime. *)
Definition event_head (d : list Z) : res (event_doc * Z) :=
  let* eid := get16 d 0 in
  let* d7 := get8 d 7 in
  let* d8 := get8 d 8 in
  let* d9 := get8 d 9 in
  let* d10 := get8 d 10 in
  let* w := get16 d 10 in
  let* start :=
    match mjd (ztake 5 (zdrop 2 d)) with
    | Some t => let* u := ConvertJstTimeToUnixTime t in Ok (Some u)
    | None => Ok None
    end in
  let duration :=
    if IsValidBCD d7 && IsValidBCD d8 && IsValidBCD d9
    then Some (DecodeBCD d7 * 3600000 + DecodeBCD d8 * 60000 + DecodeBCD d9 * 1000)
    else None in
  Ok (mkEvent eid start duration (Z.testbit d10 4) [], Z.land w 0x0FFF).

(** tsduck_helper.hh:494-599: the while loop.  The descriptor block must lie
    inside the section: ParseBlock reads it, and [data += info_length] must stay
    inside the object.  [remain -= info_length] wraps around in size_t.  Every
    round takes at least 12 bytes of [d], so [length d + 1] rounds are always
    enough; running out of [fuel] cannot happen then and is given the outcome
    [Undefined]. *)
Fixpoint events_loop (fuel : nat) (d : list Z) (remain : Z) : res (list event_doc) :=
  match fuel with
  | O => Fail Undefined
  | S fuel' =>
      if remain <? EIT_EVENT_FIXED_SIZE then Ok []
      else
        let* (ev, info_length) := event_head d in
        if zlen d <? EIT_EVENT_FIXED_SIZE then Fail Undefined
        else
          let d1 := zdrop EIT_EVENT_FIXED_SIZE d in
          let remain1 := remain - EIT_EVENT_FIXED_SIZE in
          if zlen d1 <? info_length then Fail Undefined
          else
            let* evs := events_loop fuel' (zdrop info_length d1) ((remain1 - info_length) mod 2 ^ 64) in
            Ok (mkEvent (ev_id ev) (ev_start ev) (ev_duration ev) (ev_scrambled ev)
                  (ztake info_length d1) :: evs)
  end.

(** tsduck_helper.hh:487-602 MakeEventsJsonValue *)
Definition MakeEventsJsonValue (e : eit_section) : res (list event_doc) :=
  events_loop (S (length (ei_data e))) (ei_data e) (ei_size e).

(** tsduck_helper.hh:604-621 MakeJsonValue *)
Definition MakeEitJson (e : eit_section) : res eit_doc :=
  let* events := MakeEventsJsonValue e in
  Ok (mkEitDoc (ei_nid e) (ei_tsid e) (ei_sid e) (ei_tid e) (ei_number e) (ei_last e) (ei_seg_last e)
        (ei_version e) events).

End Mjd.

(** base.hh:34-60: a SidSet is the list of its elements. *)
Definition ss_IsEmpty (s : list Z) : bool := match s with [] => true | _ => false end.
Definition ss_Contain (s : list Z) (sid : Z) : bool := zmem sid s.
