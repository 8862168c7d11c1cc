(** track-airtime: /repo/src/airtime_tracker.hh, with StdoutJsonlSink. *)
From Coq Require Import ZArith List Bool.
From Verif Require Import Base.Outcome Base.Util Model.Pcr Model.Sink Model.Ts.
Import ListNotations.
Open Scope Z_scope.

(** airtime_tracker.hh:15-18 *)
Record at_option := mkAtOption {
  ato_sid : Z;
  ato_eid : Z }.

(** airtime_tracker.hh:98-105 *)
Record airtime_doc := mkAirtimeDoc {
  ad_nid : Z;
  ad_tsid : Z;
  ad_sid : Z;
  ad_eid : Z;
  ad_start : Z;
  ad_duration : Z }.

(** airtime_tracker.hh:113, and the documents written so far *)
Record at_state := mkAt {
  at_done : bool;
  at_out : list airtime_doc }.
Definition at_init : at_state := mkAt false [].

(** airtime_tracker.hh:94-108 WriteEventInfo *)
Definition at_WriteEventInfo (s : at_state) (e : eit) (v : event) : res at_state :=
  let* start := ConvertJstTimeToUnixTime (ev_start v) in
  let* duration := i64 (ev_duration v * MilliSecPerSec) in
  Ok (mkAt (at_done s) (at_out s ++ [mkAirtimeDoc (eit_onid e) (eit_tsid e) (eit_sid e) (ev_id v) start duration])).

Section Tracker.
Variable o : at_option.

(** airtime_tracker.hh:51-92 HandleEit *)
Definition at_HandleEit (s : at_state) (t : option eit) : res at_state :=
  match t with
  | None => Ok s
  | Some e =>
      if negb (eit_sid e =? ato_sid o) then Ok s
      else match eit_events e with
      | [] => Ok (mkAt true (at_out s))
      | present :: more =>
          if ev_id present =? ato_eid o then at_WriteEventInfo s e present
          else match more with
          | [] => Ok (mkAt true (at_out s))
          | following :: _ =>
              if ev_id following =? ato_eid o then at_WriteEventInfo s e following
              else Ok (mkAt true (at_out s))
          end
      end
  end.

(** airtime_tracker.hh:41-49 *)
Definition at_handleTable (s : at_state) (pid : Z) (t : table) : res at_state :=
  match tb_body t with
  | TEit t => at_HandleEit s t
  | _ => Ok s
  end.

(** airtime_tracker.hh:32-38 *)
Definition at_HandlePacket (s : at_state) (p : packet) : res (at_state * bool) :=
  let* s1 := handle_tables at_handleTable s (p_pid p) (demux_feed [PID_EIT] 0 p) in
  Ok (s1, negb (at_done s1)).

(** The exit code is the default of packet_sink.hh:25-27. *)
Definition at_sink : sink packet :=
  mkSink at_state (fun s => Ok (s, true)) at_HandlePacket (fun s => Ok s) (fun _ => Ok EXIT_SUCCESS).

End Tracker.
