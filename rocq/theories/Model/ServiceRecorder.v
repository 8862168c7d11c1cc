(** ServiceRecorder: /repo/src/service_recorder.hh, in front of a RingFileSink
    (main.cc:1357-1371). *)
From Coq Require Import ZArith List Bool.
From Verif Require Import Base.Outcome Base.Util Model.Pcr Model.Sink Model.Ts Model.RingFileSink.
Import ListNotations.
Open Scope Z_scope.

(** service_recorder.hh:25-31, without the file name. *)
Record recorder_option := mkRcOption {
  rco_sid : Z;
  rco_chunk_size : Z;
  rco_num_chunks : Z;
  rco_start_pos : Z }.

(** service_recorder.hh:334-431: the documents given to the JSONL sink.
    Timestamps are Unix times in milliseconds.  Of an EIT, the recorder sends the
    service triple and the first event.  The JSONL sink (jsonl_sink.hh:20-32)
    always succeeds. *)
Inductive kind := KStart | KUpdate | KEnd.
Inductive message :=
| MStart
| MStop (reset : bool)
| MChunk (timestamp pos : Z)
| MEvent (k : kind) (onid tsid sid : Z) (e : event) (timestamp pos : Z).

(** What can be observed, in order: messages, and calls made by the ring. *)
Inductive entry :=
| Msg (m : message)
| Ring (e : ring_event).

(** service_recorder.hh:446-457.  [rc_boundary] is event_boundary_time_ and
    event_boundary_pos_; the latter has no initial value.  [rc_reads] counts the
    readings of the wall clock. *)
Record rec_state := mkRec {
  rc_demux : list Z;
  rc_clock : clock;
  rc_reads : nat;
  rc_boundary : option (Z * Z);
  rc_eit : option eit;
  rc_new_eit : option eit;
  rc_pmt_pid : Z;
  rc_recording : bool;          (* state_ == kRecording; kDone is never assigned *)
  rc_started : bool;
  rc_ring : ring;
  rc_trace : list entry }.

(** service_recorder.hh:38-47, 51-54: the constructor and Connect. *)
Definition rc_init (r : ring) : rec_state :=
  mkRec (zadd PID_TOT (zadd PID_EIT (zadd PID_PAT []))) clock_init 0 None None None PID_NULL false false (rg_SetObserver r) [].

(** main.cc:1361-1365 *)
Definition rc_new (o : recorder_option) (ops : list Z) : res rec_state :=
  let* r := rg_new (rco_chunk_size o) (rco_num_chunks o) ops in Ok (rc_init r).

(** Assignments to members. *)
Definition rc_set_clock (s : rec_state) (c : clock) : rec_state :=
  mkRec (rc_demux s) c (rc_reads s) (rc_boundary s) (rc_eit s) (rc_new_eit s) (rc_pmt_pid s) (rc_recording s) (rc_started s)
    (rc_ring s) (rc_trace s).
Definition rc_count_read (s : rec_state) : rec_state :=
  mkRec (rc_demux s) (rc_clock s) (S (rc_reads s)) (rc_boundary s) (rc_eit s) (rc_new_eit s) (rc_pmt_pid s) (rc_recording s)
    (rc_started s) (rc_ring s) (rc_trace s).
Definition rc_set_eit (s : rec_state) (e n : option eit) : rec_state :=
  mkRec (rc_demux s) (rc_clock s) (rc_reads s) (rc_boundary s) e n (rc_pmt_pid s) (rc_recording s)
    (rc_started s) (rc_ring s) (rc_trace s).
Definition rc_set_recording (s : rec_state) : rec_state :=
  mkRec (rc_demux s) (rc_clock s) (rc_reads s) (rc_boundary s) (rc_eit s) (rc_new_eit s) (rc_pmt_pid s) true (rc_started s)
    (rc_ring s) (rc_trace s).
Definition rc_set_started (s : rec_state) (b : bool) : rec_state :=
  mkRec (rc_demux s) (rc_clock s) (rc_reads s) (rc_boundary s) (rc_eit s) (rc_new_eit s) (rc_pmt_pid s) (rc_recording s) b
    (rc_ring s) (rc_trace s).
Definition rc_set_ring (s : rec_state) (r : ring) : rec_state :=
  mkRec (rc_demux s) (rc_clock s) (rc_reads s) (rc_boundary s) (rc_eit s) (rc_new_eit s) (rc_pmt_pid s) (rc_recording s)
    (rc_started s) r (rc_trace s).
Definition rc_put (s : rec_state) (e : entry) : rec_state :=
  mkRec (rc_demux s) (rc_clock s) (rc_reads s) (rc_boundary s) (rc_eit s) (rc_new_eit s) (rc_pmt_pid s) (rc_recording s)
    (rc_started s) (rc_ring s) (rc_trace s ++ [e]).
(** service_recorder.hh:328-332 UpdateEventBoundary *)
Definition rc_UpdateEventBoundary (s : rec_state) (time pos : Z) : rec_state :=
  mkRec (rc_demux s) (rc_clock s) (rc_reads s) (Some (time, pos)) (rc_eit s) (rc_new_eit s) (rc_pmt_pid s) (rc_recording s)
    (rc_started s) (rc_ring s) (rc_trace s).

(** service_recorder.hh:433-436 GetEvent *)
Definition rc_GetEvent (t : eit) : res event :=
  match eit_events t with [] => Fail AssertFail | e :: _ => Ok e end.
(** service_recorder.hh:438-440 *)
Definition rc_IsUnspecifiedEventEndTime (e : event) : bool := ev_duration e <=? 0.
(** service_recorder.hh:442-444 *)
Definition rc_GetEventEndTime (e : event) : res Z :=
  let* d := i64 (ev_duration e * MilliSecPerSec) in i64 (ev_start e + d).

(** service_recorder.hh:360-380 SendChunkMessage *)
Definition rc_SendChunkMessage (s : rec_state) (time pos : Z) : res rec_state :=
  let* t := ConvertJstTimeToUnixTime time in Ok (rc_put s (Msg (MChunk t pos))).
(** service_recorder.hh:404-431 SendEventMessage *)
Definition rc_SendEventMessage (s : rec_state) (k : kind) (t : eit) (time pos : Z) : res rec_state :=
  let* e := rc_GetEvent t in
  let* u := ConvertJstTimeToUnixTime time in
  Ok (rc_put s (Msg (MEvent k (eit_onid t) (eit_tsid t) (eit_sid t) e u pos))).
(** service_recorder.hh:382-387 SendEventStartMessage, 397-402 SendEventEndMessage *)
Definition rc_SendBoundaryMessage (s : rec_state) (k : kind) (t : eit) : res rec_state :=
  match rc_boundary s with
  | None => Fail Undefined
  | Some (time, pos) => rc_SendEventMessage s k t time pos
  end.

Section Rc.
Variable o : recorder_option.
(** What the readings of the wall clock return. *)
Variable local : nat -> Z.
(** The 188 bytes of a packet. *)
Variable bytes : packet -> list Z.

(** clock_.Now() *)
Definition rc_Now (s : rec_state) : res (rec_state * Z) :=
  let* now := ck_Now (rc_clock s) (local (rc_reads s)) in Ok (rc_count_read s, now).

(** service_recorder.hh:107-119 OnEndOfChunk *)
Definition rc_OnEndOfChunk (s : rec_state) (pos : Z) : res rec_state :=
  let* (s1, now) := rc_Now s in
  let pos := if pos =? rg_ring_size (rc_ring s1) then 0 else pos in
  let* s2 :=
    if rc_started s1 then
      match rc_eit s1 with
      | None => Fail AssertFail
      | Some t => rc_SendEventMessage s1 KUpdate t now pos
      end
    else Ok s1 in
  rc_SendChunkMessage s2 now pos.

(** service_recorder.hh:147-180 HandlePat *)
Definition rc_HandlePat (s : rec_state) (src : Z) (t : option pat) : res rec_state :=
  if negb (src =? PID_PAT) then Ok s
  else
    match t with
    | None => Ok s
    | Some t =>
        if pat_tsid t =? 0 then Ok s
        else
          match mfind (rco_sid o) (pat_pmts t) with
          | None => Fail AssertFail
          | Some new_pmt_pid =>
              let d := if negb (rc_pmt_pid s =? PID_NULL) then zrem (rc_pmt_pid s) (rc_demux s) else rc_demux s in
              Ok (mkRec (zadd new_pmt_pid d) (rc_clock s) (rc_reads s) (rc_boundary s) (rc_eit s) (rc_new_eit s) new_pmt_pid
                    (rc_recording s) (rc_started s) (rc_ring s) (rc_trace s))
          end
    end.

(** service_recorder.hh:182-204 HandlePmt *)
Definition rc_HandlePmt (s : rec_state) (t : option pmt) : res rec_state :=
  match t with
  | None => Ok s
  | Some t =>
      if negb (pmt_sid t =? rco_sid o) then Ok s
      else if negb (bl_HasPid (ck_baseline (rc_clock s))) then Ok (rc_set_clock s (ck_SetPid (rc_clock s) (pmt_pcr_pid t)))
      else if negb (bl_pid (ck_baseline (rc_clock s)) =? pmt_pcr_pid t) then
        Ok (rc_set_clock s (ck_SetPid (rc_clock s) (pmt_pcr_pid t)))
      else Ok s
  end.

(** service_recorder.hh:206-240 HandleEit; the end time is computed for a log
    line. *)
Definition rc_HandleEit (s : rec_state) (t : option eit) : res rec_state :=
  match t with
  | None => Ok s
  | Some t =>
      if negb (eit_sid t =? rco_sid o) then Ok s
      else
        match eit_events t with
        | [] => Ok s
        | e :: _ =>
            let* _ := if rc_IsUnspecifiedEventEndTime e then Ok 0 else rc_GetEventEndTime e in
            Ok (rc_set_eit s (rc_eit s) (Some t))
        end
  end.

(** service_recorder.hh:242-249 HandleTot *)
Definition rc_HandleTot (s : rec_state) (t : option Z) : res rec_state :=
  match t with
  | None => Ok s
  | Some time =>
      let* c := ck_UpdateTime (rc_clock s) time (local (rc_reads s)) in
      Ok (rc_set_clock (rc_count_read s) c)
  end.

(** service_recorder.hh:128-145 handleTable *)
Definition rc_handleTable (s : rec_state) (src : Z) (t : table) : res rec_state :=
  match tb_body t with
  | TPat b => rc_HandlePat s src b
  | TPmt b => rc_HandlePmt s b
  | TEit b => rc_HandleEit s b
  | TTot b => rc_HandleTot s b
  | _ => Ok s
  end.

(** The calls made by the ring during HandlePacket; it calls the observer for
    every chunk completed (ring_file_sink.hh:149-151).  The ring does not change
    its size, and the observer does not touch the ring. *)
Fixpoint rc_ring_events (s : rec_state) (evs : list ring_event) : res rec_state :=
  match evs with
  | [] => Ok s
  | e :: r =>
      let s1 := rc_put s (Ring e) in
      let* s2 := match e with EvNotify pos => rc_OnEndOfChunk s1 pos | _ => Ok s1 end in
      rc_ring_events s2 r
  end.

(** service_recorder.hh:251-281 OnPreparing *)
Definition rc_OnPreparing (s : rec_state) : res (rec_state * bool) :=
  match ck_IsReady (rc_clock s), rc_new_eit s with
  | true, Some t =>
      let s1 := rc_set_recording (rc_set_eit s (Some t) None) in
      let* (s2, now) := rc_Now s1 in
      let pos := rg_ring_pos (rc_ring s2) in
      assert (pos <? rg_ring_size (rc_ring s2)) (
      assert (pos mod rco_chunk_size o =? 0) (
      let* s3 := rc_SendChunkMessage s2 now pos in
      let s4 := rc_UpdateEventBoundary s3 now pos in
      let* e := rc_GetEvent t in
      if rc_IsUnspecifiedEventEndTime e then
        let* s5 := rc_SendBoundaryMessage s4 KStart t in Ok (rc_set_started s5 true, true)
      else
        let* end_time := rc_GetEventEndTime e in
        if now <? end_time then
          let* s5 := rc_SendBoundaryMessage s4 KStart t in Ok (rc_set_started s5 true, true)
        else Ok (rc_set_started s4 false, true)))
  | _, _ => Ok (s, true)
  end.

(** service_recorder.hh:283-325: OnRecording up to the call of the ring. *)
Definition rc_events (s : rec_state) : res rec_state :=
  let* (s1, now) := rc_Now s in
  match rc_eit s1 with
  | None => Fail AssertFail           (* a null pointer would be dereferenced; not reachable *)
  | Some old =>
      let* (eit, changed) :=
        match rc_new_eit s1 with
        | None => Ok (old, false)
        | Some new =>
            let* a := rc_GetEvent old in
            let* b := rc_GetEvent new in
            Ok (if negb (ev_id a =? ev_id b) then (old, true) else (new, false))
        end in
      let s2 := match rc_new_eit s1 with None => s1 | Some new => rc_set_eit s1 (Some new) None end in
      if rc_started s2 then
        if (changed : bool) then
          match rc_new_eit s1 with
          | None => Fail AssertFail   (* not reachable *)
          | Some new =>
              let s3 := rc_UpdateEventBoundary s2 now (rg_ring_pos (rc_ring s2)) in
              let* s4 := rc_SendBoundaryMessage s3 KEnd eit in
              rc_SendBoundaryMessage s4 KStart new
          end
        else
          let* e := rc_GetEvent eit in
          if rc_IsUnspecifiedEventEndTime e then Ok s2
          else
            let* end_time := rc_GetEventEndTime e in
            if end_time <=? now then
              let s3 := rc_UpdateEventBoundary s2 end_time (rg_ring_pos (rc_ring s2)) in
              let* s4 := rc_SendBoundaryMessage s3 KEnd eit in
              Ok (rc_set_started s4 false)
            else Ok s2
      else if changed then
        match rc_new_eit s1 with
        | None => Fail AssertFail     (* not reachable *)
        | Some new => let* s3 := rc_SendBoundaryMessage s2 KStart new in Ok (rc_set_started s3 true)
        end
      else Ok s2
  end.

(** service_recorder.hh:283-326 OnRecording *)
Definition rc_OnRecording (s : rec_state) (p : packet) : res (rec_state * bool) :=
  let* s1 := rc_events s in
  let* (r, evs, ok) := rg_HandlePacket (rc_ring s1) (bytes p) in
  let* s2 := rc_ring_events s1 evs in
  Ok (rc_set_ring s2 r, ok).

(** service_recorder.hh:84-90 *)
Definition rc_feed_clock (s : rec_state) (p : packet) : res rec_state :=
  if bl_HasPid (ck_baseline (rc_clock s)) && (bl_pid (ck_baseline (rc_clock s)) =? p_pid p) then
    match p_pcr p with
    | Some v => let* c := ck_UpdatePcr (rc_clock s) v in Ok (rc_set_clock s c)
    | None => Ok s
    end
  else Ok s.

(** service_recorder.hh:81-105 HandlePacket *)
Definition rc_HandlePacket (stage : nat) (s : rec_state) (p : packet) : res (rec_state * bool) :=
  let* s1 := rc_feed_clock s p in
  let* s2 := handle_tables rc_handleTable s1 (p_pid p) (demux_feed (rc_demux s1) stage p) in
  if rc_recording s2 then rc_OnRecording s2 p else rc_OnPreparing s2.

(** service_recorder.hh:56-68 Start *)
Definition rc_Start (s : rec_state) : res (rec_state * bool) :=
  if rco_start_pos o =? 0 then Ok (rc_put s (Msg MStart), true)
  else
    let* (r, evs, ok) := rg_SetPosition (rc_ring s) (rco_start_pos o) in
    let* s1 := rc_ring_events s evs in
    let s2 := rc_set_ring s1 r in
    if ok then Ok (rc_put s2 (Msg MStart), true) else Ok (s2, false).

(** service_recorder.hh:56-79; RingFileSink::Start (packet_sink.hh:18-20) is
    true and RingFileSink::End (ring_file_sink.hh:41-43) does nothing. *)
Definition recorder (stage : nat) : sink packet :=
  mkSink rec_state rc_Start (rc_HandlePacket stage)
    (fun s => Ok (rc_put s (Msg (MStop (rg_broken (rc_ring s))))))
    (fun s => Ok (rg_GetExitCode (rc_ring s))).

End Rc.
