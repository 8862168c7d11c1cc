(** filter-program-metadata: /repo/src/program_metadata_filter.hh, with
    StdoutJsonlSink. *)
From Coq Require Import ZArith List Bool.
From Verif Require Import Base.Outcome Base.Util Model.Pcr Model.Sink Model.Ts.
Import ListNotations.
Open Scope Z_scope.

(** tsduck_helper.hh:471-485 MakeJsonValue of an event: [md_data] stands for the
    scrambled flag and the descriptors, which are not modelled. *)
Record meta_event := mkMetaEvent {
  md_eid : Z;
  md_start : Z;
  md_duration : Z;
  md_data : Z }.

(** program_metadata_filter.hh:69-83 *)
Record meta_doc := mkMetaDoc {
  md_nid : Z;
  md_tsid : Z;
  md_sid : Z;
  md_events : list meta_event }.

(** tsduck_helper.hh:471-485 *)
Definition MakeEventJson (v : event) : res meta_event :=
  let* start := ConvertJstTimeToUnixTime (ev_start v) in
  let* duration := i64 (ev_duration v * MilliSecPerSec) in
  Ok (mkMetaEvent (ev_id v) start duration (ev_data v)).

Fixpoint MakeEventsJson (vs : list event) : res (list meta_event) :=
  match vs with
  | [] => Ok []
  | v :: r => let* a := MakeEventJson v in let* b := MakeEventsJson r in Ok (a :: b)
  end.

(** program_metadata_filter.hh:49-67 HandleEit and 69-83 WriteEvents; the state
    is the list of documents written so far.  [sid] is option_.sid (lines
    16-18); 0 stands for no selection. *)
Definition md_HandleEit (sid : Z) (out : list meta_doc) (t : option eit) : res (list meta_doc) :=
  match t with
  | None => Ok out
  | Some e =>
      if negb (sid =? 0) && negb (eit_sid e =? sid) then Ok out
      else match eit_events e with
      | [] => Ok out
      | vs =>
          let* events := MakeEventsJson vs in
          Ok (out ++ [mkMetaDoc (eit_onid e) (eit_tsid e) (eit_sid e) events])
      end
  end.

(** program_metadata_filter.hh:39-47 *)
Definition md_handleTable (sid : Z) (out : list meta_doc) (pid : Z) (t : table) : res (list meta_doc) :=
  match tb_body t with
  | TEit t => md_HandleEit sid out t
  | _ => Ok out
  end.

(** program_metadata_filter.hh:33-36 *)
Definition md_HandlePacket (sid : Z) (out : list meta_doc) (p : packet) : res (list meta_doc * bool) :=
  let* out1 := handle_tables (md_handleTable sid) out (p_pid p) (demux_feed [PID_EIT] 0 p) in
  Ok (out1, true).

Definition md_sink (sid : Z) : sink packet :=
  mkSink (list meta_doc) (fun s => Ok (s, true)) (md_HandlePacket sid) (fun s => Ok s) (fun _ => Ok EXIT_SUCCESS).
