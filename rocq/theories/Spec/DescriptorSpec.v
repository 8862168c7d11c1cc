(** Extended event descriptors (ARIB STD-B10, 6.2.7): the items of an event, each
    a description with a text, broken into fragments. *)
From Coq Require Import String ZArith List Bool.
From Verif Require Import Base.Outcome Base.Util Model.Descriptors.
Import ListNotations.
Local Open Scope list_scope.
Local Open Scope Z_scope.

(** A fragment: item_description and item, each preceded by its length. *)
Definition fragment : Type := (list Z * list Z)%type.
Definition fits (f : fragment) : Prop := zlen (fst f) < 256 /\ zlen (snd f) < 256.
Definition fragment_bytes (f : fragment) : list Z := [zlen (fst f)] ++ fst f ++ [zlen (snd f)] ++ snd f.

(** A descriptor: tag, length, four bytes (descriptor numbers and language),
    length_of_items, fragments, and whatever follows. *)
Definition ext_payload (head : list Z) (fs : list fragment) (tail : list Z) : list Z :=
  head ++ [zlen (flat_map fragment_bytes fs)] ++ flat_map fragment_bytes fs ++ tail.
Definition ext_descriptor (head : list Z) (fs : list fragment) (tail : list Z) : descriptor :=
  mkDesc ([0x4E; zlen (ext_payload head fs tail)] ++ ext_payload head fs tail).

(** A descriptor that is not an extended event descriptor: of another tag, with a
    wrong length, or too short. *)
Definition not_extended (d : descriptor) : Prop :=
  (forall n payload, ds_mem d <> [0x4E; n] ++ payload) \/
  (exists t n payload, ds_mem d = [t; n] ++ payload /\ n <> zlen payload) \/
  (exists t n payload, ds_mem d = [t; n] ++ payload /\ zlen payload < 5).

(** The fragments in a list of descriptors. *)
Inductive carries : list descriptor -> list fragment -> Prop :=
| carries_nil : carries [] []
| carries_other : forall d ds fs, not_extended d -> carries ds fs -> carries (d :: ds) fs
| carries_ext : forall head gs tail ds fs, zlen head = 4 -> Forall fits gs -> carries ds fs ->
    carries (ext_descriptor head gs tail :: ds) (gs ++ fs).

(** A fragment with a description begins an item, and those without one go on
    with its text. *)
Inductive joined : list fragment -> list (list Z * list Z) -> Prop :=
| joined_nil : joined [] []
| joined_item : forall d t more fs items, d <> [] -> Forall (fun f => fst f = []) more -> joined fs items ->
    joined ((d, t) :: more ++ fs) ((d, t ++ concat (map snd more)) :: items).

(** Text without a description that comes first is put in front of the first
    item. *)
Definition put_in_front (t : list Z) (items : list (list Z * list Z)) : list (list Z * list Z) :=
  match items with [] => [] | (d, x) :: r => (d, t ++ x) :: r end.

(** length_of_items stays inside the descriptor. *)
Definition consistent (d : descriptor) : Prop :=
  forall head n rest, zlen head = 4 -> ds_payload d = head ++ n :: rest -> n <= zlen rest.
Definition overlong (d : descriptor) : Prop :=
  exists head n rest, zlen head = 4 /\ ds_mem d = [0x4E; zlen (head ++ n :: rest)] ++ head ++ n :: rest /\
    zlen rest + 1 < n.

Definition bytes_ok (d : descriptor) : Prop := Forall (fun b => 0 <= b < 256) (ds_mem d).

(** ** JSON *)

(** An expiry date from 1970 on. *)
Definition dated (d : series) : Prop := match se_expire d with Some t => 0 <= t < 2 ^ 64 | None => True end.

(** A member of a JSON object. *)
Definition member (j : json) (name : string) : option json :=
  match j with
  | JObject l => match find (fun m => String.eqb (fst m) name) l with Some m => Some (snd m) | None => None end
  | _ => None
  end.

Definition num (n : Z) : option json := Some (JNum n).
Definition text (t : option (list Z)) : option json := option_map JText t.
Definition type_is (j : json) (name : string) : Prop := member j "$type" = Some (JWord name).

(** The object made of a descriptor, member by member; a member without a value
    is absent. *)
Definition describes_short (d : short_event) (j : json) : Prop :=
  type_is j "ShortEvent" /\ member j "eventName" = text (sh_name d) /\ member j "text" = text (sh_text d).
Definition describes_component (d : component) (j : json) : Prop :=
  type_is j "Component" /\ member j "streamContent" = num (cm_stream d) /\ member j "componentType" = num (cm_type d) /\
  member j "componentTag" = num (cm_tag d) /\ member j "languageCode" = num (cm_lang d) /\ member j "text" = text (cm_text d).
Definition describes_content (d : content) (j : json) : Prop :=
  type_is j "Content" /\ exists l, member j "nibbles" = Some (JArray l) /\
    Forall2 (fun n x => match n with (a, b, c, e) => x = JArray [JNum a; JNum b; JNum c; JNum e] end) d l.
Definition describes_audio (d : audio) (j : json) : Prop :=
  type_is j "AudioComponent" /\ member j "streamContent" = num (au_stream d) /\ member j "componentType" = num (au_type d) /\
  member j "componentTag" = num (au_tag d) /\ member j "simulcastGroupTag" = num (au_simulcast d) /\
  member j "esMultiLingualFlag" = Some (JBool (au_multi d)) /\ member j "mainComponentFlag" = Some (JBool (au_main d)) /\
  member j "qualityIndicator" = num (au_quality d) /\ member j "samplingRate" = num (au_rate d) /\
  member j "languageCode" = num (au_lang d) /\
  member j "languageCode2" = (if au_multi d then num (au_lang2 d) else None) /\ member j "text" = text (au_text d).
Definition describes_series (d : series) (j : json) : Prop :=
  type_is j "Series" /\ member j "seriesId" = num (se_id d) /\ member j "repeatLabel" = num (se_repeat d) /\
  member j "programPattern" = num (se_pattern d) /\ member j "expireDate" = option_map JNum (se_expire d) /\
  member j "episodeNumber" = num (se_episode d) /\ member j "lastEpisodeNumber" = num (se_last d) /\
  member j "seriesName" = text (se_name d).
Definition describes_group_event (group_type : Z) (e : group_event) (j : json) : Prop :=
  member j "serviceId" = num (ge_sid e) /\ member j "eventId" = num (ge_eid e) /\
  (group_type = 4 \/ group_type = 5 ->
     member j "originalNetworkId" = num (ge_nid e) /\ member j "transportStreamId" = num (ge_tsid e)) /\
  (group_type <> 4 -> group_type <> 5 -> member j "originalNetworkId" = None /\ member j "transportStreamId" = None).
Definition describes_group (d : event_group) (j : json) : Prop :=
  type_is j "EventGroup" /\ member j "groupType" = num (eg_type d) /\
  exists l, member j "events" = Some (JArray l) /\ Forall2 (describes_group_event (eg_type d)) (eg_events d) l.
Definition describes_extended (items : list (list Z * list Z)) (j : json) : Prop :=
  type_is j "ExtendedEvent" /\ exists l, member j "items" = Some (JArray l) /\
    Forall2 (fun i x => x = JArray [JText (fst i); JText (snd i)]) items l.

(** Which of them goes with a tag; [mem] is what LibISDB parses. *)
Definition describes (pr : parsers) (tag : Z) (mem : list Z) (j : json) : Prop :=
  (tag = 0x4D /\ exists d, pr_short pr mem = Some d /\ describes_short d j) \/
  (tag = 0x50 /\ exists d, pr_component pr mem = Some d /\ describes_component d j) \/
  (tag = 0x54 /\ exists d, pr_content pr mem = Some d /\ describes_content d j) \/
  (tag = 0xC4 /\ exists d, pr_audio pr mem = Some d /\ describes_audio d j) \/
  (tag = 0xD5 /\ exists d, pr_series pr mem = Some d /\ (dated d -> describes_series d j)) \/
  (tag = 0xD6 /\ exists d, pr_group pr mem = Some d /\ describes_group d j).

(** A tag that is none of these, or a descriptor LibISDB cannot parse. *)
Definition not_described (pr : parsers) (tag : Z) (mem : list Z) : Prop :=
  (tag = 0x4D -> pr_short pr mem = None) /\ (tag = 0x50 -> pr_component pr mem = None) /\
  (tag = 0x54 -> pr_content pr mem = None) /\ (tag = 0xC4 -> pr_audio pr mem = None) /\
  (tag = 0xD5 -> pr_series pr mem = None) /\ (tag = 0xD6 -> pr_group pr mem = None).

(** The array has one object for every descriptor that can be described, in
    order, and nothing else.  The descriptors come with their tags. *)
Inductive described (pr : parsers) : list (Z * list Z) -> list json -> Prop :=
| described_nil : described pr [] []
| described_skip : forall tag mem ds js, not_described pr tag mem -> described pr ds js -> described pr ((tag, mem) :: ds) js
| described_one : forall tag mem ds j js, describes pr tag mem j -> described pr ds js ->
    described pr ((tag, mem) :: ds) (j :: js).

(** The descriptors whose length byte is right, as TSDuck delivers them. *)
Definition intact (d : descriptor) : bool :=
  match ds_mem d with _ :: n :: payload => n =? zlen payload | _ => false end.
Definition tagged (ds : list descriptor) : list (Z * list Z) :=
  map (fun d => (match ds_mem d with t :: _ => t | [] => 0 end, ds_mem d)) (filter intact ds).
