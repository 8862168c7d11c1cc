(** The documents as the help texts (/repo/src/main.cc) describe them. *)
From Coq Require Import Ascii String ZArith List Bool.
From Verif Require Import Base.Outcome Base.Util Model.Ts Model.Descriptors Model.EitSection Model.ServiceScanner
  Model.PcrSynchronizer Model.AirtimeTracker Model.MetadataFilter Model.ServiceRecorder Model.Logo
  Spec.JsonSpec Spec.DocSpec Spec.DescriptorSpec.
Import ListNotations.
Open Scope string_scope.
Open Scope Z_scope.

(** The value of a member of an object; the first one counts. *)
Fixpoint lookup (k : string) (l : list (string * jvalue)) : option jvalue :=
  match l with
  | [] => None
  | (x, v) :: r => if String.eqb x k then Some v else lookup k r
  end.
Definition get (v : jvalue) (k : string) : option jvalue := match v with VObj l => lookup k l | _ => None end.
(** The members of an object. *)
Definition members_are (v : jvalue) (ks : list string) : Prop := exists l, v = VObj l /\ map fst l = ks.
(** No object inside a value has two members of the same name. *)
Inductive unambiguous : jvalue -> Prop :=
| U_null : unambiguous VNull
| U_bool : forall b, unambiguous (VBool b)
| U_num : forall n, unambiguous (VNum n)
| U_str : forall s, unambiguous (VStr s)
| U_arr : forall l, Forall unambiguous l -> unambiguous (VArr l)
| U_obj : forall l, NoDup (map fst l) -> Forall (fun m => unambiguous (snd m)) l -> unambiguous (VObj l).

(** An array, element by element. *)
Definition array_of {A} (R : A -> jvalue -> Prop) (l : list A) (v : jvalue) : Prop := exists vs, v = VArr vs /\ Forall2 R l vs.

(** main.cc:128-141 scan-services *)
Definition service_object (name : Z -> string) (d : service_doc) (v : jvalue) : Prop :=
  members_are v (["nid"; "tsid"; "sid"; "name"; "type"; "logoId"] ++ match sd_key d with Some _ => ["remoteControlKeyId"] | None => [] end)%list /\
  get v "nid" = Some (VNum (sd_nid d)) /\ get v "tsid" = Some (VNum (sd_tsid d)) /\ get v "sid" = Some (VNum (sd_sid d)) /\
  get v "name" = Some (VStr (name (sd_name d))) /\ get v "type" = Some (VNum (sd_type d)) /\
  get v "logoId" = Some (VNum (sd_logo d)) /\ get v "remoteControlKeyId" = option_map VNum (sd_key d).

(** main.cc:182-206 sync-clocks *)
Definition clock_object (d : clock_doc) (v : jvalue) : Prop :=
  members_are v ["nid"; "tsid"; "sid"; "clock"] /\
  get v "nid" = Some (VNum (cd_nid d)) /\ get v "tsid" = Some (VNum (cd_tsid d)) /\ get v "sid" = Some (VNum (cd_sid d)) /\
  exists c, get v "clock" = Some c /\ members_are c ["pid"; "pcr"; "time"] /\
    get c "pid" = Some (VNum (cd_pid d)) /\ get c "pcr" = Some (VNum (cd_pcr d)) /\ get c "time" = Some (VNum (cd_time d)).

(** main.cc:780-791 track-airtime *)
Definition airtime_object (d : airtime_doc) (v : jvalue) : Prop :=
  members_are v ["nid"; "tsid"; "sid"; "eid"; "startTime"; "duration"] /\
  get v "nid" = Some (VNum (ad_nid d)) /\ get v "tsid" = Some (VNum (ad_tsid d)) /\ get v "sid" = Some (VNum (ad_sid d)) /\
  get v "eid" = Some (VNum (ad_eid d)) /\ get v "startTime" = Some (VNum (ad_start d)) /\ get v "duration" = Some (VNum (ad_duration d)).

(** main.cc:270-316 collect-eits: an event.  [descs] says what the objects of
    the descriptors are. *)
Definition event_object (eid : Z) (start duration : option Z) (scrambled : bool) (descs : jvalue -> Prop) (v : jvalue) : Prop :=
  let number_or_null (n : option Z) := Some (match n with Some n => VNum n | None => VNull end) in
  members_are v ["eventId"; "startTime"; "duration"; "scrambled"; "descriptors"] /\
  get v "eventId" = Some (VNum eid) /\ get v "startTime" = number_or_null start /\ get v "duration" = number_or_null duration /\
  get v "scrambled" = Some (VBool scrambled) /\ exists ds, get v "descriptors" = Some ds /\ descs ds.

Section Texts.
Variable decode : list Z -> string.
Variable parts : Z -> bool * list descriptor.
Variable pr : parsers.
Variable block : list Z -> list (list Z) * option (list (list Z * list Z)).

(** The array is that of the objects [js], which describe the descriptors. *)
Definition objects (js : list json) (v : jvalue) : Prop := v = VArr (map (meaning decode) js).
(** filter-program-metadata and record-service *)
Definition plain_descriptors (ds : list descriptor) (v : jvalue) : Prop := exists js, described pr (tagged ds) js /\ objects js v.
Definition meta_event_object (e : meta_event) : jvalue -> Prop :=
  event_object (md_eid e) (Some (md_start e)) (Some (md_duration e)) (fst (parts (md_data e))) (plain_descriptors (snd (parts (md_data e)))).
(** collect-eits and collect-eitpf: the extended event, if any, comes last. *)
Definition full_descriptors (bs : list Z) (v : jvalue) : Prop :=
  exists js more, described pr (map (fun m => (match m with t :: _ => t | [] => 0 end, m)) (fst (block bs))) js /\
    match snd (block bs) with None => more = [] | Some items => exists j, more = [j] /\ describes_extended items j end /\
    objects (js ++ more) v.
Definition eit_event_object (e : event_doc) : jvalue -> Prop :=
  event_object (EitSection.ev_id e) (EitSection.ev_start e) (EitSection.ev_duration e) (ev_scrambled e) (full_descriptors (ev_descs e)).

Definition eit_object (d : eit_doc) (v : jvalue) : Prop :=
  members_are v ["originalNetworkId"; "transportStreamId"; "serviceId"; "tableId"; "sectionNumber"; "lastSectionNumber";
                 "segmentLastSectionNumber"; "versionNumber"; "events"] /\
  get v "originalNetworkId" = Some (VNum (ed_nid d)) /\ get v "transportStreamId" = Some (VNum (ed_tsid d)) /\
  get v "serviceId" = Some (VNum (ed_sid d)) /\ get v "tableId" = Some (VNum (ed_tid d)) /\
  get v "sectionNumber" = Some (VNum (ed_number d)) /\ get v "lastSectionNumber" = Some (VNum (ed_last d)) /\
  get v "segmentLastSectionNumber" = Some (VNum (ed_seg_last d)) /\ get v "versionNumber" = Some (VNum (ed_version d)) /\
  exists es, get v "events" = Some es /\ array_of eit_event_object (ed_events d) es.

(** main.cc:607-621 filter-program-metadata *)
Definition meta_object (d : meta_doc) (v : jvalue) : Prop :=
  members_are v ["nid"; "tsid"; "sid"; "events"] /\
  get v "nid" = Some (VNum (md_nid d)) /\ get v "tsid" = Some (VNum (md_tsid d)) /\ get v "sid" = Some (VNum (md_sid d)) /\
  exists es, get v "events" = Some es /\ array_of meta_event_object (md_events d) es.

(** main.cc:663-735 record-service, except that the last message has the type
    [stop] instead of [end]. *)
Definition place_object (timestamp pos : Z) (v : jvalue) : Prop :=
  members_are v ["timestamp"; "pos"] /\ get v "timestamp" = Some (VNum timestamp) /\ get v "pos" = Some (VNum pos).
Definition typed (t : string) (v : jvalue) : Prop := get v "type" = Some (VStr t).
(** Milliseconds from 1970-01-01 00:00:00 UTC to a time of the broadcast, which
    counts from 1858-11-17 00:00:00 JST. *)
Definition unix_ms (t : Z) : Z := t - 3506716800000 - 32400000.
Definition message_object (final : string) (m : message) (v : jvalue) : Prop :=
  match m with
  | MStart => members_are v ["type"] /\ typed "start" v
  | MStop reset => members_are v ["type"; "data"] /\ typed final v /\
      exists d, get v "data" = Some d /\ members_are d ["reset"] /\ get d "reset" = Some (VBool reset)
  | MChunk timestamp pos => members_are v ["type"; "data"] /\ typed "chunk" v /\
      exists d c, get v "data" = Some d /\ members_are d ["chunk"] /\ get d "chunk" = Some c /\ place_object timestamp pos c
  | MEvent k onid tsid sid e timestamp pos => members_are v ["type"; "data"] /\
      typed (match k with KStart => "event-start" | KUpdate => "event-update" | KEnd => "event-end" end) v /\
      exists d x r, get v "data" = Some d /\
        members_are d ["originalNetworkId"; "transportStreamId"; "serviceId"; "event"; "record"] /\
        get d "originalNetworkId" = Some (VNum onid) /\ get d "transportStreamId" = Some (VNum tsid) /\ get d "serviceId" = Some (VNum sid) /\
        get d "event" = Some x /\
        event_object (Ts.ev_id e) (Some (unix_ms (Ts.ev_start e))) (Some (Ts.ev_duration e * 1000)) (fst (parts (ev_data e)))
          (plain_descriptors (snd (parts (ev_data e)))) x /\
        get d "record" = Some r /\ place_object timestamp pos r
  end.
End Texts.

(** Positions in a file. *)
Definition placed (m : message) : Prop :=
  match m with MChunk _ pos | MEvent _ _ _ _ _ _ pos => 0 <= pos < 2 ^ 64 | _ => True end.

(** Times until the year 2400 and durations of at most 34 years. *)
Definition timely (m : message) : Prop :=
  match m with MEvent _ _ _ _ e _ _ => 0 <= Ts.ev_start e < 2 ^ 44 /\ 0 <= Ts.ev_duration e < 2 ^ 30 | _ => True end.

(** main.cc:399-422 collect-logos *)
Definition logo_service_object (s : Z * Z * Z) (v : jvalue) : Prop :=
  match s with (nid, tsid, sid) =>
    members_are v ["nid"; "tsid"; "sid"] /\
    get v "nid" = Some (VNum nid) /\ get v "tsid" = Some (VNum tsid) /\ get v "sid" = Some (VNum sid)
  end.
(** The string with these character codes. *)
Definition spells (codes : list Z) (s : string) : Prop :=
  map (fun c => Z.of_nat (nat_of_ascii c)) (list_ascii_of_string s) = codes.
Definition logo_object (d : logo_doc) (v : jvalue) : Prop :=
  members_are v (["type"; "id"; "version"; "data"; "nid"] ++ match ld_services d with Some _ => ["services"] | None => [] end)%list /\
  get v "type" = Some (VNum (ld_type d)) /\ get v "id" = Some (VNum (ld_id d)) /\ get v "version" = Some (VNum (ld_version d)) /\
  get v "nid" = Some (VNum (ld_nid d)) /\ (exists s, get v "data" = Some (VStr s) /\ spells (ld_data d) s) /\
  match ld_services d with
  | Some l => exists vs, get v "services" = Some vs /\ array_of logo_service_object l vs
  | None => get v "services" = None
  end.

(** A text of JSON lines, document by document. *)
Definition lines_of {A} (R : A -> jvalue -> Prop) (docs : list A) (text : string) : Prop :=
  exists vs, read_jsonl text = Some vs /\ Forall2 R docs vs /\ Forall unambiguous vs.
