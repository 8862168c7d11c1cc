(** What track-airtime and filter-program-metadata output. *)
From Coq Require Import ZArith List Bool.
From Verif Require Import Base.Outcome Model.Ts Model.AirtimeTracker Model.MetadataFilter.
Import ListNotations.
Open Scope Z_scope.

(** The EIT p/f tables received on PID 0x12, in order. *)
Definition eits_of (p : packet) : list eit :=
  if p_pid p =? 0x12
  then flat_map (fun t => match tb_body t with TEit (Some e) => [e] | _ => [] end) (p_tabs p 0)
  else [].
Definition eits (ps : list packet) : list eit := flat_map eits_of ps.

(** Start time in Unix milliseconds: JST (UTC+9), day 40587 is 1970-01-01. *)
Definition unix_start (v : event) : Z := ev_start v - 40587 * 86400000 - 9 * 3600000.

(** Times that fit: dates up to the year 2400 or so, durations up to 136 years. *)
Definition sane_event (v : event) : Prop := 0 <= ev_start v < 2 ^ 44 /\ 0 <= ev_duration v < 2 ^ 32.
Definition sane_eits (ps : list packet) : Prop := forall e v, In e (eits ps) -> In v (eit_events e) -> sane_event v.

(** The tracked event is the present one, or else the following one. *)
Definition tracked (eid : Z) (e : eit) (v : event) : Prop :=
  exists rest, ev_id v = eid /\
    (eit_events e = v :: rest \/ exists w, ev_id w <> eid /\ eit_events e = w :: v :: rest).
Definition gone (eid : Z) (e : eit) : Prop := forall v, ~ tracked eid e v.

(** An EIT of the service gives a document when it has the tracked event. *)
Inductive airtimes (o : at_option) : list eit -> list airtime_doc -> Prop :=
| airtimes_nil : airtimes o [] []
| airtimes_other : forall e es ds, eit_sid e <> ato_sid o \/ gone (ato_eid o) e -> airtimes o es ds -> airtimes o (e :: es) ds
| airtimes_event : forall e v es ds, eit_sid e = ato_sid o -> tracked (ato_eid o) e v -> airtimes o es ds ->
    airtimes o (e :: es)
      (mkAirtimeDoc (eit_onid e) (eit_tsid e) (eit_sid e) (ev_id v) (unix_start v) (ev_duration v * 1000) :: ds).

(** An EIT of the service lacks the tracked event. *)
Definition lacking (o : at_option) (ps : list packet) : Prop :=
  exists e, In e (eits ps) /\ eit_sid e = ato_sid o /\ gone (ato_eid o) e.

(** The document for an EIT, all events in order. *)
Definition metadata (e : eit) : meta_doc :=
  mkMetaDoc (eit_onid e) (eit_tsid e) (eit_sid e)
    (map (fun v => mkMetaEvent (ev_id v) (unix_start v) (ev_duration v * 1000) (ev_data v)) (eit_events e)).

Inductive metadatas (sid : Z) : list eit -> list meta_doc -> Prop :=
| metadatas_nil : metadatas sid [] []
| metadatas_skip : forall e es ds, (sid <> 0 /\ eit_sid e <> sid) \/ eit_events e = [] ->
    metadatas sid es ds -> metadatas sid (e :: es) ds
| metadatas_doc : forall e es ds, sid = 0 \/ eit_sid e = sid -> eit_events e <> [] ->
    metadatas sid es ds -> metadatas sid (e :: es) (metadata e :: ds).
