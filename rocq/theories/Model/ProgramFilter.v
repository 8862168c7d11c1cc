(** ProgramFilter: /repo/src/program_filter.hh. *)
From Coq Require Import ZArith List Bool.
From Verif Require Import Base.Outcome Base.Util Model.Pcr Model.Sink Model.Ts.
Import ListNotations.
Open Scope Z_scope.

(** exit_code.hh:13 *)
Definition EXIT_RETRY : Z := 222.

(** program_filter.hh:27-39 *)
Record program_filter_option := mkPfOption {
  pfo_sid : Z;
  pfo_eid : Z;
  pfo_clock_pid : Z;
  pfo_clock_pcr : Z;
  pfo_clock_time : Z;
  pfo_audio_tags : list Z;
  pfo_video_tags : list Z;
  pfo_start_margin : Z;
  pfo_end_margin : Z;
  pfo_wait_until : option Z;
  pfo_pre_streaming : bool }.

(** program_filter.hh:579-581, 590-591: clock_pid_, clock_pcr_, clock_time_ and
    their ready flags. *)
Record pf_clock := mkPfClock {
  pc_pid : Z;
  pc_pcr : Z;
  pc_time : Z;
  pc_pcr_ready : bool;
  pc_time_ready : bool }.

(** program_filter.hh:584-587, 589: event times, PCR range, event_time_ready_. *)
Record pf_window := mkPfWindow {
  pw_start_time : Z;
  pw_end_time : Z;
  pw_start_pcr : Z;
  pw_end_pcr : Z;
  pw_ready : bool }.

(** pmt_packetizer_: its PID, the table added last, and the index of the next
    packet in the cycle.  A table of which part of the packets was sent when the
    next one is added is abandoned (TSDuck finishes the section it is in). *)
Record packetizer := mkPacketizer {
  pz_pid : Z;
  pz_table : option pmt;
  pz_index : nat }.

(** program_filter.hh:571-593 *)
Record pf_state := mkPf {
  pf_demux : list Z;
  pf_streaming : bool;            (* state_ == kStreaming *)
  pf_pats : list packet;          (* last_pat_packets_ *)
  pf_black : list Z;              (* pes_black_list_ *)
  pf_pz : packetizer;
  pf_clk : pf_clock;
  pf_pmt_pid : Z;
  pf_pcr_pid : Z;
  pf_pcr_pid_ready : bool;
  pf_win : pf_window;
  pf_stop : bool;
  pf_retry : bool }.

(** Assignments to single members. *)
Definition pf_set_stop (s : pf_state) : pf_state :=
  mkPf (pf_demux s) (pf_streaming s) (pf_pats s) (pf_black s) (pf_pz s) (pf_clk s) (pf_pmt_pid s) (pf_pcr_pid s)
    (pf_pcr_pid_ready s) (pf_win s) true (pf_retry s).
Definition pf_set_retry (s : pf_state) : pf_state :=
  mkPf (pf_demux s) (pf_streaming s) (pf_pats s) (pf_black s) (pf_pz s) (pf_clk s) (pf_pmt_pid s) (pf_pcr_pid s)
    (pf_pcr_pid_ready s) (pf_win s) (pf_stop s) true.
Definition pf_set_pats (s : pf_state) (l : list packet) : pf_state :=
  mkPf (pf_demux s) (pf_streaming s) l (pf_black s) (pf_pz s) (pf_clk s) (pf_pmt_pid s) (pf_pcr_pid s)
    (pf_pcr_pid_ready s) (pf_win s) (pf_stop s) (pf_retry s).
Definition pf_set_pz (s : pf_state) (z : packetizer) : pf_state :=
  mkPf (pf_demux s) (pf_streaming s) (pf_pats s) (pf_black s) z (pf_clk s) (pf_pmt_pid s) (pf_pcr_pid s)
    (pf_pcr_pid_ready s) (pf_win s) (pf_stop s) (pf_retry s).
Definition pf_set_clk (s : pf_state) (c : pf_clock) : pf_state :=
  mkPf (pf_demux s) (pf_streaming s) (pf_pats s) (pf_black s) (pf_pz s) c (pf_pmt_pid s) (pf_pcr_pid s)
    (pf_pcr_pid_ready s) (pf_win s) (pf_stop s) (pf_retry s).
Definition pf_set_win (s : pf_state) (w : pf_window) : pf_state :=
  mkPf (pf_demux s) (pf_streaming s) (pf_pats s) (pf_black s) (pf_pz s) (pf_clk s) (pf_pmt_pid s) (pf_pcr_pid s)
    (pf_pcr_pid_ready s) w (pf_stop s) (pf_retry s).
Definition pf_set_streaming (s : pf_state) : pf_state :=
  mkPf (pf_demux s) true (pf_pats s) (pf_black s) (pf_pz s) (pf_clk s) (pf_pmt_pid s) (pf_pcr_pid s)
    (pf_pcr_pid_ready s) (pf_win s) (pf_stop s) (pf_retry s).

(** program_filter.hh:43-62: the constructor. *)
Definition pf_init (o : program_filter_option) : pf_state :=
  mkPf (zadd PID_TOT (zadd PID_EIT (zadd PID_PAT []))) false [] [] (mkPacketizer PID_NULL None 0)
    (mkPfClock (pfo_clock_pid o) (pfo_clock_pcr o) (pfo_clock_time o) true true)
    PID_NULL PID_NULL false (mkPfWindow 0 0 0 0 false) false false.

(** program_filter.hh:532-534 NeedClockSync *)
Definition pf_NeedClockSync (s : pf_state) : bool :=
  negb (pc_time_ready (pf_clk s)) || negb (pc_pcr_ready (pf_clk s)).

(** program_filter.hh:547-559 ConvertTimeToPcr *)
Definition pf_ConvertTimeToPcr (s : pf_state) (time : Z) : res Z :=
  let c := pf_clk s in
  assert (pc_pcr_ready c) (
  assert (pc_time_ready c) (
  assert (IsValidPcr (pc_pcr c)) (
  let* ms := i64 (time - pc_time c) in
  let* ticks := i64 (ms * kPcrTicksPerMs) in
  let* pcr := i64 (pc_pcr c + ticks) in
  match while_neg pcr with
  | None => Fail Undefined
  | Some pcr => assert (0 <=? pcr) (Ok (Z.rem pcr kPcrUpperBound))
  end))).

(** program_filter.hh:536-545 UpdatePcrRange *)
Definition pf_UpdatePcrRange (s : pf_state) : res pf_state :=
  let w := pf_win s in
  assert (pw_ready w) (
  assert (pc_pcr_ready (pf_clk s)) (
  assert (pc_time_ready (pf_clk s)) (
  let* a := pf_ConvertTimeToPcr s (pw_start_time w) in
  let* b := pf_ConvertTimeToPcr s (pw_end_time w) in
  Ok (pf_set_win s (mkPfWindow (pw_start_time w) (pw_end_time w) a b (pw_ready w)))))).

(** program_filter.hh:506-517 UpdateClockPcr *)
Definition pf_UpdateClockPcr (s : pf_state) (pcr : Z) : res pf_state :=
  assert (pf_NeedClockSync s) (
  let c := pf_clk s in
  let s1 := pf_set_clk s (mkPfClock (pc_pid c) pcr (pc_time c) true (pc_time_ready c)) in
  if pw_ready (pf_win s1) && pc_time_ready (pf_clk s1) then pf_UpdatePcrRange s1 else Ok s1).

(** program_filter.hh:519-530 UpdateClockTime *)
Definition pf_UpdateClockTime (s : pf_state) (time : Z) : res pf_state :=
  assert (negb (pc_time_ready (pf_clk s))) (
  let c := pf_clk s in
  let s1 := pf_set_clk s (mkPfClock (pc_pid c) (pc_pcr c) time (pc_pcr_ready c) true) in
  if pw_ready (pf_win s1) && pc_pcr_ready (pf_clk s1) then pf_UpdatePcrRange s1 else Ok s1).

(** program_filter.hh:491-504 UpdateEventTime *)
Definition pf_UpdateEventTime (o : program_filter_option) (s : pf_state) (e : event) : res pf_state :=
  let* d := i64 (ev_duration e * MilliSecPerSec) in
  let* duration := i64 (d + pfo_end_margin o) in
  let* start := i64 (ev_start e - pfo_start_margin o) in
  let* stop := i64 (ev_start e + duration) in
  let w := pf_win s in
  let s1 := pf_set_win s (mkPfWindow start stop (pw_start_pcr w) (pw_end_pcr w) true) in
  if pc_time_ready (pf_clk s1) && pc_pcr_ready (pf_clk s1) then pf_UpdatePcrRange s1 else Ok s1.

(** program_filter.hh:267-312 HandlePat *)
Definition pf_HandlePat (o : program_filter_option) (s : pf_state) (src : Z) (t : option pat) : res pf_state :=
  if negb (src =? PID_PAT) then Ok s
  else
    match t with
    | None => Ok s
    | Some t =>
        if pat_tsid t =? 0 then Ok s
        else
          match mfind (pfo_sid o) (pat_pmts t) with
          | None => Fail AssertFail
          | Some new_pmt_pid =>
              let d := if negb (pf_pmt_pid s =? PID_NULL) then zrem (pf_pmt_pid s) (pf_demux s) else pf_demux s in
              Ok (mkPf (zadd new_pmt_pid d) (pf_streaming s) (pf_pats s) (pf_black s) (pf_pz s) (pf_clk s) new_pmt_pid
                    (pf_pcr_pid s) (pf_pcr_pid_ready s) (pf_win s) (pf_stop s) (pf_retry s))
          end
    end.

(** program_filter.hh:346-376: does the stream go to the black list? *)
Definition pf_unwanted (o : program_filter_option) (e : stream) : bool :=
  if es_video e && negb (match pfo_video_tags o with [] => true | _ => false end) then
    match es_tag e with
    | None => true
    | Some tag => negb (zmem tag (pfo_video_tags o))
    end
  else if es_audio e && negb (match pfo_audio_tags o with [] => true | _ => false end) then
    match es_tag e with
    | None => true
    | Some tag => negb (zmem tag (pfo_audio_tags o))
    end
  else false.

(** program_filter.hh:314-414 HandlePmt *)
Definition pf_HandlePmt (o : program_filter_option) (s : pf_state) (src : Z) (t : option pmt) : res pf_state :=
  match t with
  | None => Ok s
  | Some t =>
      if negb (pmt_sid t =? pfo_sid o) then Ok s
      else
        let pcr_pid := pmt_pcr_pid t in
        let c := pf_clk s in
        let c1 := if negb (pc_pid c =? pcr_pid) then mkPfClock pcr_pid (pc_pcr c) (pc_time c) false false else c in
        let black := fold_left (fun l e => if pf_unwanted o (snd e) then zadd (fst e) l else l) (pmt_streams t) [] in
        let t1 := match black with
                  | [] => t
                  | _ => mkPmt (pmt_sid t) (pmt_version t) (pmt_pcr_pid t) (pmt_ca_pids t)
                           (filter (fun e => negb (zmem (fst e) black)) (pmt_streams t))
                  end in
        Ok (mkPf (pf_demux s) (pf_streaming s) (pf_pats s) black (mkPacketizer src (Some t1) 0) c1 (pf_pmt_pid s)
              pcr_pid true (pf_win s) (pf_stop s) (pf_retry s))
  end.

(** program_filter.hh:416-470 HandleEit *)
Definition pf_HandleEit (o : program_filter_option) (s : pf_state) (t : option eit) : res pf_state :=
  match t with
  | None => Ok s
  | Some t =>
      if negb (eit_sid t =? pfo_sid o) then Ok s
      else
        match eit_events t with
        | [] => Ok (pf_set_stop s)
        | present :: rest =>
            if ev_id present =? pfo_eid o then pf_UpdateEventTime o s present
            else
              match rest with
              | [] => if pf_streaming s then Ok s else Ok (pf_set_stop s)
              | following :: _ =>
                  if ev_id following =? pfo_eid o then pf_UpdateEventTime o s following
                  else if pf_streaming s then Ok s
                  else match pfo_wait_until o with
                       | None => Ok (pf_set_stop s)
                       | Some _ => Ok s
                       end
              end
        end
  end.

(** program_filter.hh:561-569 CheckTimeLimit *)
Definition pf_CheckTimeLimit (o : program_filter_option) (s : pf_state) (time : Z) : pf_state :=
  match pfo_wait_until o with
  | Some w => if w <? time then pf_set_stop s else s
  | None => s
  end.

(** program_filter.hh:472-489 HandleTot *)
Definition pf_HandleTot (o : program_filter_option) (s : pf_state) (t : option Z) : res pf_state :=
  match t with
  | None => Ok s
  | Some time =>
      let s1 := if pf_streaming s then s else pf_CheckTimeLimit o s time in
      if pc_time_ready (pf_clk s1) then Ok s1 else pf_UpdateClockTime s1 time
  end.

(** program_filter.hh:248-265 handleTable *)
Definition pf_handleTable (o : program_filter_option) (s : pf_state) (src : Z) (t : table) : res pf_state :=
  match tb_body t with
  | TPat t => pf_HandlePat o s src t
  | TPmt t => pf_HandlePmt o s src t
  | TEit t => pf_HandleEit o s t
  | TTot t => pf_HandleTot o s t
  | _ => Ok s
  end.

Section Pf.
(** The number of packets of a PMT; a PMT section has at most 1024 bytes. *)
Variable npackets : pmt -> nat.
Variable o : program_filter_option.
Variable snk : sink packet.

(** CyclingPacketizer::getNextPacket *)
Definition pz_next (z : packetizer) : packet * packetizer :=
  match pz_table z with
  | None => (mkPacket (Raw 0) PID_NULL false None None None (fun _ => []) (fun _ => O), z)
  | Some t =>
      (mkPacket (GenPmt t (pz_index z)) (pz_pid z) (Nat.eqb (pz_index z) 0) None None None (fun _ => []) (fun _ => O),
       mkPacketizer (pz_pid z) (pz_table z)
         (if Nat.ltb (S (pz_index z)) (npackets t) then S (pz_index z) else O))
  end.
(** CyclingPacketizer::atCycleBoundary *)
Definition pz_at_boundary (z : packetizer) : bool := Nat.eqb (pz_index z) 0.

(** program_filter.hh:172-176: sending saved packets. *)
Fixpoint pf_send_all (d : sk_state snk) (ps : list packet) : res (sk_state snk * bool) :=
  match ps with
  | [] => Ok (d, true)
  | p :: r =>
      let* (d1, ok) := sk_handle snk d p in
      if ok then pf_send_all d1 r else Ok (d1, false)
  end.

(** program_filter.hh:181-188: the do-while loop; [None] when [fuel] iterations
    were not enough. *)
Fixpoint pf_send_pmt (fuel : nat) (s : pf_state) (d : sk_state snk) : option (res ((pf_state * sk_state snk) * bool)) :=
  match fuel with
  | O => None
  | S fuel' =>
      let (q, z) := pz_next (pf_pz s) in
      let s1 := pf_set_pz s z in
      if p_pid q =? pf_pmt_pid s1 then
        match sk_handle snk d q with
        | Fail f => Some (Fail f)
        | Ok (d1, false) => Some (Ok ((s1, d1), false))
        | Ok (d1, true) => if pz_at_boundary z then Some (Ok ((s1, d1), true)) else pf_send_pmt fuel' s1 d1
        end
      else Some (Fail AssertFail)
  end.

(** Enough iterations for one cycle. *)
Definition pf_pmt_fuel (s : pf_state) : nat :=
  match pz_table (pf_pz s) with Some t => S (npackets t) | None => 1%nat end.

(** program_filter.hh:107-192 WaitReady *)
Definition pf_WaitReady (s : pf_state) (d : sk_state snk) (p : packet) : res ((pf_state * sk_state snk) * bool) :=
  if pf_stop s then Ok ((pf_set_retry s, d), false)
  else
    let pid := p_pid p in
    if (pid =? PID_PAT) && pfo_pre_streaming o then
      let* (d1, ok) := sk_handle snk d p in Ok ((s, d1), ok)
    else
      let s1 := if pid =? PID_PAT then pf_set_pats s ((if p_pusi p then [] else pf_pats s) ++ [p]) else s in
      if negb (pf_pcr_pid_ready s1) || negb (pw_ready (pf_win s1)) then Ok ((s1, d), true)
      else if negb (pid =? pf_pcr_pid s1) then Ok ((s1, d), true)
      else
        match p_pcr p with
        | None => Ok ((s1, d), true)
        | Some pcr =>
            let* s2 := if pf_NeedClockSync s1 then pf_UpdateClockPcr s1 pcr else Ok s1 in
            if pf_NeedClockSync s2 then Ok ((s2, d), true)
            else
              let* c := ComparePcr pcr (pw_end_pcr (pf_win s2)) in
              if 0 <=? c then Ok ((s2, d), false)
              else
                let* c := ComparePcr pcr (pw_start_pcr (pf_win s2)) in
                if c <? 0 then Ok ((s2, d), true)
                else
                  let* (s3, d3, ok) :=
                    if pfo_pre_streaming o then Ok (s2, d, true)
                    else
                      assert (negb (match pf_pats s2 with [] => true | _ => false end)) (
                      let* (d1, ok) := pf_send_all d (pf_pats s2) in
                      if ok then Ok (pf_set_pats s2 [], d1, true) else Ok (s2, d1, false)) in
                  if negb ok then Ok ((s3, d3), false)
                  else
                    match pf_send_pmt (pf_pmt_fuel s3) s3 d3 with
                    | None => Fail Undefined
                    | Some r =>
                        let* (x4, ok) := r in
                        if negb ok then Ok (x4, false)
                        else
                          let (s4, d4) := x4 in
                          let* (d5, ok) := sk_handle snk d4 p in
                          Ok ((pf_set_streaming s4, d5), ok)
                    end
        end.

(** program_filter.hh:227-238: the tail of DoStreaming. *)
Definition pf_forward (s : pf_state) (d : sk_state snk) (p : packet) : res ((pf_state * sk_state snk) * bool) :=
  if p_pid p =? pf_pmt_pid s then
    let (q, z) := pz_next (pf_pz s) in
    assert (p_pid q =? pf_pmt_pid s) (
    let* (d1, ok) := sk_handle snk d q in Ok ((pf_set_pz s z, d1), ok))
  else if zmem (p_pid p) (pf_black s) then Ok ((s, d), true)
  else let* (d1, ok) := sk_handle snk d p in Ok ((s, d1), ok).

(** program_filter.hh:194-239 DoStreaming *)
Definition pf_DoStreaming (s : pf_state) (d : sk_state snk) (p : packet) : res ((pf_state * sk_state snk) * bool) :=
  if pf_stop s then Ok ((s, d), false)
  else if p_pid p =? pf_pcr_pid s then
    match p_pcr p with
    | None => let* (d1, ok) := sk_handle snk d p in Ok ((s, d1), ok)
    | Some pcr =>
        let* s1 := if pf_NeedClockSync s then pf_UpdateClockPcr s pcr else Ok s in
        if pf_NeedClockSync s1 then let* (d1, ok) := sk_handle snk d p in Ok ((s1, d1), ok)
        else
          let* c := ComparePcr pcr (pw_end_pcr (pf_win s1)) in
          if 0 <=? c then Ok ((s1, d), false) else pf_forward s1 d p
    end
  else pf_forward s d p.

(** program_filter.hh:88-99 HandlePacket *)
Definition pf_HandlePacket (stage : nat) (x : pf_state * sk_state snk) (p : packet) : res ((pf_state * sk_state snk) * bool) :=
  let (s, d) := x in
  let* s1 := handle_tables (pf_handleTable o) s (p_pid p) (demux_feed (pf_demux s) stage p) in
  if pf_streaming s1 then pf_DoStreaming s1 d p else pf_WaitReady s1 d p.

(** program_filter.hh:70-86 *)
Definition program_filter (stage : nat) : sink packet :=
  mkSink (pf_state * sk_state snk)
    (fun x => let* (d, ok) := sk_start snk (snd x) in Ok ((fst x, d), ok))
    (pf_HandlePacket stage)
    (fun x => let* d := sk_end snk (snd x) in Ok (fst x, d))
    (fun x => if pf_retry (fst x) then Ok EXIT_RETRY else sk_exit snk (snd x)).

End Pf.
