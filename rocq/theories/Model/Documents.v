(** The documents of the commands as JSON values: the calls of AddMember and
    PushBack.  The other parts of the model keep documents as records; here the
    members get their names. *)
From Coq Require Import Ascii String ZArith List Bool.
From Verif Require Import Base.Outcome Base.Util Model.Ts Model.Pcr Model.Descriptors Model.EitSection Model.ServiceScanner
  Model.PcrSynchronizer Model.AirtimeTracker Model.MetadataFilter Model.ServiceRecorder Model.Logo.
Import ListNotations.
Open Scope string_scope.
Open Scope Z_scope.

(** What the model keeps opaque. *)
Section Oracles.
(** The name of a service as text: serviceName(context_).toUTF8(). *)
Variable name : Z -> string.
(** The rest of an event: CA_controlled and descs. *)
Variable parts : Z -> bool * list descriptor.
(** LibISDB: the parsers of descriptors; what ParseBlock and
    GetEventExtendedTextList find in a block of bytes. *)
Variable pr : parsers.
Variable block : list Z -> list (list Z) * option (list (list Z * list Z)).

(** service_scanner.hh:196-210, and 43-49 for the array *)
Definition service_json (d : service_doc) : json :=
  JObject ([("nid", JNum (sd_nid d)); ("tsid", JNum (sd_tsid d)); ("sid", JNum (sd_sid d)); ("name", JWord (name (sd_name d)));
            ("type", JNum (sd_type d)); ("logoId", JNum (sd_logo d))] ++
           match sd_key d with Some k => [("remoteControlKeyId", JNum k)] | None => [] end)%list.
Definition services_json (ds : list service_doc) : json := JArray (map service_json ds).

(** pcr_synchronizer.hh:43-61 *)
Definition clock_json (d : clock_doc) : json :=
  JObject [("nid", JNum (cd_nid d)); ("tsid", JNum (cd_tsid d)); ("sid", JNum (cd_sid d));
           ("clock", JObject [("pid", JNum (cd_pid d)); ("pcr", JNum (cd_pcr d)); ("time", JNum (cd_time d))])].
Definition clocks_json (ds : list clock_doc) : json := JArray (map clock_json ds).

(** airtime_tracker.hh:98-105 *)
Definition airtime_json (d : airtime_doc) : json :=
  JObject [("nid", JNum (ad_nid d)); ("tsid", JNum (ad_tsid d)); ("sid", JNum (ad_sid d)); ("eid", JNum (ad_eid d));
           ("startTime", JNum (ad_start d)); ("duration", JNum (ad_duration d))].

(** tsduck_helper.hh:471-485 *)
Definition meta_event_json (e : meta_event) : json :=
  let (scrambled, descs) := parts (md_data e) in
  JObject [("eventId", JNum (md_eid e)); ("startTime", JNum (md_start e)); ("duration", JNum (md_duration e));
           ("scrambled", JBool scrambled); ("descriptors", JArray (DescriptorsJson pr descs))].

(** program_metadata_filter.hh:69-83 *)
Definition meta_json (d : meta_doc) : json :=
  JObject [("nid", JNum (md_nid d)); ("tsid", JNum (md_tsid d)); ("sid", JNum (md_sid d));
           ("events", JArray (map meta_event_json (md_events d)))].

(** tsduck_helper.hh:578-594 *)
Definition null_or (n : option Z) : json := match n with Some n => JNum n | None => JNull end.
Definition event_json (e : event_doc) : json :=
  let (mems, ext) := block (ev_descs e) in
  JObject [("eventId", JNum (EitSection.ev_id e)); ("startTime", null_or (EitSection.ev_start e));
           ("duration", null_or (EitSection.ev_duration e)); ("scrambled", JBool (ev_scrambled e));
           ("descriptors", JArray (EitDescriptorsJson pr mems ext))].

(** tsduck_helper.hh:604-621 *)
Definition eit_json (d : eit_doc) : json :=
  JObject [("originalNetworkId", JNum (ed_nid d)); ("transportStreamId", JNum (ed_tsid d)); ("serviceId", JNum (ed_sid d));
           ("tableId", JNum (ed_tid d)); ("sectionNumber", JNum (ed_number d)); ("lastSectionNumber", JNum (ed_last d));
           ("segmentLastSectionNumber", JNum (ed_seg_last d)); ("versionNumber", JNum (ed_version d));
           ("events", JArray (map event_json (ed_events d)))].

(** service_recorder.hh:334-431 *)
Definition place_json (timestamp pos : Z) : json := JObject [("timestamp", JNum timestamp); ("pos", JNum (u64 pos))].
Definition kind_text (k : kind) : string :=
  match k with KStart => "event-start" | KUpdate => "event-update" | KEnd => "event-end" end.
Definition message_json (m : message) : res json :=
  match m with
  | MStart => Ok (JObject [("type", JWord "start")])
  | MStop reset => Ok (JObject [("type", JWord "stop"); ("data", JObject [("reset", JBool reset)])])
  | MChunk timestamp pos => Ok (JObject [("type", JWord "chunk"); ("data", JObject [("chunk", place_json timestamp pos)])])
  | MEvent k onid tsid sid e timestamp pos =>
      let* v := MakeEventJson e in
      Ok (JObject [("type", JWord (kind_text k));
                   ("data", JObject [("originalNetworkId", JNum onid); ("transportStreamId", JNum tsid); ("serviceId", JNum sid);
                                     ("event", meta_event_json v); ("record", place_json timestamp pos)])])
  end.
Fixpoint messages_json (ms : list message) : res (list json) :=
  match ms with
  | [] => Ok []
  | m :: r => let* a := message_json m in let* b := messages_json r in Ok (a :: b)
  end.

(** logo_collector.hh:223-248; [latin] makes a std::string of the bytes. *)
Fixpoint latin (bs : list Z) : string :=
  match bs with
  | [] => ""
  | b :: r => String (ascii_of_nat (Z.to_nat b)) (latin r)
  end.
Definition logo_json (d : logo_doc) : json :=
  JObject ([("type", JNum (ld_type d)); ("id", JNum (ld_id d)); ("version", JNum (ld_version d)); ("data", JWord (latin (ld_data d)));
            ("nid", JNum (ld_nid d))] ++
           match ld_services d with
           | Some l => [("services", JArray (map (fun s => match s with (nid, tsid, sid) =>
                                                    JObject [("nid", JNum nid); ("tsid", JNum tsid); ("sid", JNum sid)] end) l))]
           | None => []
           end)%list.
End Oracles.
