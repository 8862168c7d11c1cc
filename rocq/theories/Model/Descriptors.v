(** Descriptors of events and their JSON: /repo/src/tsduck_helper.hh:154-485 and
    520-577.  LibISDB and rapidjson are not in the checkout.  Of LibISDB the model
    knows what the getters of a parsed descriptor return; of rapidjson, that
    values are built as written.  ARIB strings are left undecoded:
    DecodeAribString (162-167) is applied to each of them by the code. *)
From Coq Require Import String ZArith List Bool.
From Verif Require Import Base.Outcome Base.Util.
Import ListNotations.
Local Open Scope string_scope.
Local Open Scope list_scope.
Local Open Scope Z_scope.

(** rapidjson::Value.  A [JText] is the decoded form of the ARIB string given. *)
Inductive json : Type :=
| JNull
| JBool (b : bool)
| JNum (n : Z)
| JWord (s : string)
| JText (s : list Z)
| JArray (l : list json)
| JObject (l : list (string * json)).

(** [json.AddMember] of a string whose getter may fail. *)
Definition member_text (name : string) (t : option (list Z)) : list (string * json) :=
  match t with Some s => [(name, JText s)] | None => [] end.

(** What the getters of LibISDB::ShortEventDescriptor return. *)
Record short_event := mkShort { sh_name : option (list Z); sh_text : option (list Z) }.

(** tsduck_helper.hh:169-182 *)
Definition short_json (d : short_event) : json :=
  JObject ([("$type", JWord "ShortEvent")] ++ member_text "eventName" (sh_name d) ++ member_text "text" (sh_text d)).

(** LibISDB::ComponentDescriptor *)
Record component := mkComponent {
  cm_stream : Z; cm_type : Z; cm_tag : Z; cm_lang : Z; cm_text : option (list Z) }.

(** tsduck_helper.hh:184-197 *)
Definition component_json (d : component) : json :=
  JObject ([("$type", JWord "Component"); ("streamContent", JNum (cm_stream d)); ("componentType", JNum (cm_type d));
            ("componentTag", JNum (cm_tag d)); ("languageCode", JNum (cm_lang d))] ++ member_text "text" (cm_text d)).

(** LibISDB::ContentDescriptor: the nibbles (level 1, level 2, user 1, user 2). *)
Definition content : Type := list (Z * Z * Z * Z).

(** tsduck_helper.hh:199-216 *)
Definition content_json (d : content) : json :=
  JObject [("$type", JWord "Content");
           ("nibbles", JArray (map (fun n => match n with (a, b, c, e) => JArray [JNum a; JNum b; JNum c; JNum e] end) d))].

(** LibISDB::AudioComponentDescriptor *)
Record audio := mkAudio {
  au_stream : Z; au_type : Z; au_tag : Z; au_simulcast : Z; au_multi : bool; au_main : bool; au_quality : Z;
  au_rate : Z; au_lang : Z; au_lang2 : Z; au_text : option (list Z) }.

(** tsduck_helper.hh:218-239 *)
Definition audio_json (d : audio) : json :=
  JObject ([("$type", JWord "AudioComponent"); ("streamContent", JNum (au_stream d)); ("componentType", JNum (au_type d));
            ("componentTag", JNum (au_tag d)); ("simulcastGroupTag", JNum (au_simulcast d));
            ("esMultiLingualFlag", JBool (au_multi d)); ("mainComponentFlag", JBool (au_main d));
            ("qualityIndicator", JNum (au_quality d)); ("samplingRate", JNum (au_rate d));
            ("languageCode", JNum (au_lang d))] ++
           (if au_multi d then [("languageCode2", JNum (au_lang2 d))] else []) ++ member_text "text" (au_text d)).

(** LibISDB::SeriesDescriptor; the expiry date in milliseconds. *)
Record series := mkSeries {
  se_id : Z; se_repeat : Z; se_pattern : Z; se_expire : option Z; se_episode : Z; se_last : Z; se_name : option (list Z) }.

(** tsduck_helper.hh:241-260; the date is cast to uint64_t. *)
Definition series_json (d : series) : json :=
  JObject ([("$type", JWord "Series"); ("seriesId", JNum (se_id d)); ("repeatLabel", JNum (se_repeat d));
            ("programPattern", JNum (se_pattern d))] ++
           (match se_expire d with Some t => [("expireDate", JNum (u64 t))] | None => [] end) ++
           [("episodeNumber", JNum (se_episode d)); ("lastEpisodeNumber", JNum (se_last d))] ++
           member_text "seriesName" (se_name d)).

(** LibISDB::EventGroupDescriptor::EventInfo *)
Record group_event := mkGroupEvent { ge_nid : Z; ge_tsid : Z; ge_sid : Z; ge_eid : Z }.
Record event_group := mkEventGroup { eg_type : Z; eg_events : list group_event }.

(** LibISDB: GROUP_TYPE_RELAY_TO_OTHER_NETWORK, GROUP_TYPE_MOVEMENT_FROM_OTHER_NETWORK *)
Definition kRelayToOther : Z := 4.
Definition kMovementFromOther : Z := 5.

(** tsduck_helper.hh:262-278 *)
Definition group_event_json (group_type : Z) (e : group_event) : json :=
  JObject ((if (group_type =? kRelayToOther) || (group_type =? kMovementFromOther)
            then [("originalNetworkId", JNum (ge_nid e)); ("transportStreamId", JNum (ge_tsid e))] else []) ++
           [("serviceId", JNum (ge_sid e)); ("eventId", JNum (ge_eid e))]).

(** tsduck_helper.hh:280-294 *)
Definition event_group_json (d : event_group) : json :=
  JObject [("$type", JWord "EventGroup"); ("groupType", JNum (eg_type d));
           ("events", JArray (map (group_event_json (eg_type d)) (eg_events d)))].

(** tsduck_helper.hh:296-313: a pair of texts. *)
Definition pair_json (desc item : list Z) : json := JArray [JText desc; JText item].

(** The "ExtendedEvent" object (379-383, 400-404). *)
Definition extended_json (items : list (list Z * list Z)) : json :=
  JObject [("$type", JWord "ExtendedEvent"); ("items", JArray (map (fun x => pair_json (fst x) (snd x)) items))].

(** ts::Descriptor: [ds_mem] is its memory, tag and length byte included;
    isValid() says that there are at least two bytes and the length byte is
    right. *)
Record descriptor := mkDesc { ds_mem : list Z }.
Definition ds_tag (d : descriptor) : Z := match ds_mem d with t :: _ => t | [] => 0 end.
Definition ds_payload (d : descriptor) : list Z := zdrop 2 (ds_mem d).
Definition ds_isValid (d : descriptor) : bool :=
  match ds_mem d with _ :: n :: r => n =? zlen r | _ => false end.

Definition DID_EXTENDED_EVENT : Z := 0x4E.

(** Reading [data[0]] and [n] bytes at [data]. *)
Definition byte_at (data : list Z) : res Z := match data with b :: _ => Ok b | [] => Fail Undefined end.
Definition bytes_at (data : list Z) (n : Z) : res (list Z) := if n <=? zlen data then Ok (ztake n data) else Fail Undefined.

(** The variables of the loop: eed_desc, eed_item and the items pushed so far. *)
Record eed := mkEed { eed_desc : list Z; eed_item : list Z; eed_out : list (list Z * list Z) }.

Definition is_empty (l : list Z) : bool := match l with [] => true | _ => false end.

(** tsduck_helper.hh:347-371, the while loop.  [remaining] shrinks in every
    round, so that as many rounds as [remaining] are enough. *)
Fixpoint eed_loop (fuel : nat) (data : list Z) (remaining : Z) (s : eed) : res eed :=
  match fuel with
  | O => Ok s
  | S fuel' =>
      if remaining <? 2 then Ok s
      else
        let* n := byte_at data in
        let desc_len := Z.min n (remaining - 1) in
        let data1 := zdrop 1 data in
        let remaining1 := remaining - 1 in
        let* (data2, remaining2, s2) :=
          (if 0 <? desc_len then
             let s1 := if negb (is_empty (eed_desc s))
                       then mkEed [] [] (eed_out s ++ [(eed_desc s, eed_item s)]) else s in
             let* b := bytes_at data1 desc_len in
             Ok (zdrop desc_len data1, remaining1 - desc_len, mkEed (eed_desc s1 ++ b) (eed_item s1) (eed_out s1))
           else Ok (data1, remaining1, s)) in
        if remaining2 <=? 0 then Ok s2
        else
          let* m := byte_at data2 in
          let item_len := Z.min m (remaining2 - 1) in
          let data3 := zdrop 1 data2 in
          let remaining3 := remaining2 - 1 in
          if 0 <? item_len then
            let* b := bytes_at data3 item_len in
            eed_loop fuel' (zdrop item_len data3) (remaining3 - item_len) (mkEed (eed_desc s2) (eed_item s2 ++ b) (eed_out s2))
          else eed_loop fuel' data3 remaining3 s2
  end.

(** tsduck_helper.hh:327-372, one round of the for loop. *)
Definition eed_step (s : eed) (d : descriptor) : res eed :=
  if negb (ds_isValid d) then Ok s
  else if negb (ds_tag d =? DID_EXTENDED_EVENT) then Ok s
  else if zlen (ds_payload d) <? 5 then Ok s
  else
    let data := ds_payload d in
    let* remaining := byte_at (zdrop 4 data) in
    eed_loop (Z.to_nat remaining) (zdrop 5 data) remaining s.

Fixpoint eed_run (s : eed) (ds : list descriptor) : res eed :=
  match ds with
  | [] => Ok s
  | d :: r => let* s1 := eed_step s d in eed_run s1 r
  end.

(** tsduck_helper.hh:319-384 MakeExtendedEventJsonValue: the pairs of "items". *)
Definition ExtendedEventItems (ds : list descriptor) : res (list (list Z * list Z)) :=
  let* s := eed_run (mkEed [] [] []) ds in
  Ok (if is_empty (eed_desc s) then eed_out s else eed_out s ++ [(eed_desc s, eed_item s)]).

Definition MakeExtendedEventJsonValue (ds : list descriptor) : res json :=
  let* items := ExtendedEventItems ds in Ok (extended_json items).

(** LibISDB's Parse for each of the six kinds. *)
Record parsers := mkParsers {
  pr_short : list Z -> option short_event;
  pr_component : list Z -> option component;
  pr_content : list Z -> option content;
  pr_audio : list Z -> option audio;
  pr_series : list Z -> option series;
  pr_group : list Z -> option event_group }.

(** LibISDB tags *)
Definition kShortEvent : Z := 0x4D.
Definition kComponent : Z := 0x50.
Definition kContent : Z := 0x54.
Definition kAudioComponent : Z := 0xC4.
Definition kSeries : Z := 0xD5.
Definition kEventGroup : Z := 0xD6.

(** [if (desc.Parse(...)) descriptors.PushBack(...)] *)
Definition push {A} (parse : list Z -> option A) (f : A -> json) (mem : list Z) : list json :=
  match parse mem with Some a => [f a] | None => [] end.

(** The switch of tsduck_helper.hh:415-466, and of 527-568 (where LibISDB has
    parsed the block and IsValid() tells whether Parse succeeded). *)
Definition switch_json (pr : parsers) (tag : Z) (mem : list Z) : list json :=
  if tag =? kShortEvent then push (pr_short pr) short_json mem
  else if tag =? kComponent then push (pr_component pr) component_json mem
  else if tag =? kContent then push (pr_content pr) content_json mem
  else if tag =? kAudioComponent then push (pr_audio pr) audio_json mem
  else if tag =? kSeries then push (pr_series pr) series_json mem
  else if tag =? kEventGroup then push (pr_group pr) event_group_json mem
  else [].

(** tsduck_helper.hh:407-469 MakeJsonValue(ts::DescriptorList) *)
Definition DescriptorsJson (pr : parsers) (ds : list descriptor) : list json :=
  flat_map (fun d => if ds_isValid d then switch_json pr (ds_tag d) (ds_mem d) else []) ds.

(** tsduck_helper.hh:519-576: the "descriptors" of an event of collect-eits.
    [mems] are the descriptors that ParseBlock finds, [ext] is what
    GetEventExtendedTextList finds ([None] if it returns false). *)
Definition EitDescriptorsJson (pr : parsers) (mems : list (list Z)) (ext : option (list (list Z * list Z))) : list json :=
  flat_map (fun m => switch_json pr (match m with t :: _ => t | [] => 0 end) m) mems ++
  match ext with Some items => [extended_json items] | None => [] end.
