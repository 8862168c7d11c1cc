(** print-pes: /repo/src/pes_printer.hh. *)
From Coq Require Import ZArith List Bool.
From Verif Require Import Base.Outcome Base.Util Model.Pcr Model.Clock Model.Sink Model.Ts.
Import ListNotations.
Open Scope Z_scope.

(** tsduck_helper.hh:36-52 CheckComponentTagByRange, IsAribSubtitle and
    IsAribSuperimposedText *)
Definition CheckComponentTagByRange (v : stream) (min max : Z) : bool :=
  match es_tag v with
  | Some tag => (min <=? tag) && (tag <=? max)
  | None => false
  end.
Definition IsAribSubtitle (v : stream) : bool := CheckComponentTagByRange v 0x30 0x37.
Definition IsAribSuperimposedText (v : stream) : bool := CheckComponentTagByRange v 0x38 0x3F.

(** The label of a stream (pes_printer.hh:166-185). *)
Inductive label := KAudio | KVideo | KSubtitle | KAribSubtitle | KAribSuperimposedText | KOther.
Definition stream_label (v : stream) : label :=
  if es_audio v then KAudio
  else if es_video v then KVideo
  else if es_subtitles v then KSubtitle
  else if IsAribSubtitle v then KAribSubtitle
  else if IsAribSuperimposedText v then KAribSuperimposedText
  else KOther.

Inductive stamp := SPcr | SPts | SDts.

(** The lines printed; their text is in PesText.v.
    [LStamp k pid kind time pcr]: a time stamp, with the stream's label if it is
    known, and the time, if it is printed. *)
Inductive pp_line :=
| LStamp (k : stamp) (pid : Z) (kind : option label) (time : option Z) (pcr : Z)
| LPat (version pid : Z)
| LPatEntry (sid pid : Z)
| LCat (version : Z)
| LPmt (sid pcr_pid version : Z)
| LStream (pid : Z) (kind : label) (type : Z)
| LEit (sid version : Z)
| LEvent (index id start stop minutes : Z)
| LTot (time : Z).

(** pes_printer.hh:241-248 (pcr_pids_ is never used), the enabled PIDs of the
    demultiplexer, and the lines printed so far. *)
Record pp_state := mkPp {
  pp_pids : list Z;
  pp_sids : list Z;
  pp_pmt_pids : list Z;
  pp_clocks : list (Z * clock);
  pp_streams : list (Z * (label * Z));
  pp_done : bool;
  pp_out : list pp_line }.

(** pes_printer.hh:21-27 *)
Definition pp_init : pp_state := mkPp [PID_TOT; PID_EIT; PID_CAT; PID_PAT] [] [] [] [] false [].

Definition pp_put (s : pp_state) (l : list pp_line) : pp_state :=
  mkPp (pp_pids s) (pp_sids s) (pp_pmt_pids s) (pp_clocks s) (pp_streams s) (pp_done s) (pp_out s ++ l).

(** pes_printer.hh:70-78 Print *)
Definition pp_Print (s : pp_state) (k : stamp) (pid : Z) (kind : option label) (pcr_pid pcr : Z) : res pp_state :=
  match mfind pcr_pid (pp_clocks s) with
  | Some c =>
      if ck_IsReady c then
        let* time := ck_PcrToTime c pcr in
        let* _ := FormatPcr pcr in
        Ok (pp_put s [LStamp k pid kind (Some time) pcr])
      else
        let* _ := FormatPcr pcr in
        Ok (pp_put s [LStamp k pid kind None pcr])
  | None =>
      let* _ := FormatPcr pcr in
      Ok (pp_put s [LStamp k pid kind None pcr])
  end.

(** pes_printer.hh:225-234 ResetStates *)
Definition pp_ResetStates (s : pp_state) : pp_state :=
  mkPp (fold_left (fun l pid => zrem pid l) (pp_pmt_pids s) (pp_pids s)) [] [] (pp_clocks s) (pp_streams s) false (pp_out s).

(** pes_printer.hh:119-124: the loop of HandlePat. *)
Fixpoint pp_add_pmts (s : pp_state) (pmts : list (Z * Z)) : pp_state :=
  match pmts with
  | [] => s
  | (sid, pid) :: r =>
      pp_add_pmts (mkPp (zadd pid (pp_pids s)) (zadd sid (pp_sids s)) (pp_pmt_pids s ++ [pid]) (pp_clocks s) (pp_streams s)
        (pp_done s) (pp_out s ++ [LPatEntry sid pid])) r
  end.

(** pes_printer.hh:106-136 HandlePat *)
Definition pp_HandlePat (s : pp_state) (pid : Z) (t : option pat) : pp_state :=
  match t with
  | None => s
  | Some t =>
      let s1 := pp_put (pp_ResetStates s) [LPat (pat_version t) pid] in
      if pid =? PID_PAT then
        let s2 := pp_add_pmts s1 (pat_pmts t) in
        match pp_pmt_pids s2 with
        | [] => mkPp (pp_pids s2) (pp_sids s2) (pp_pmt_pids s2) (pp_clocks s2) (pp_streams s2) true (pp_out s2)
        | _ => s2
        end
      else pp_put s1 (map (fun e => LPatEntry (fst e) (snd e)) (pat_pmts t))
  end.

(** pes_printer.hh:138-147 HandleCat *)
Definition pp_HandleCat (s : pp_state) (t : option cat) : pp_state :=
  match t with
  | None => s
  | Some t => pp_put s [LCat (cat_version t)]
  end.

(** pes_printer.hh:165-186: the loop of HandlePmt. *)
Fixpoint pp_add_streams (s : pp_state) (pcr_pid : Z) (l : list (Z * stream)) : pp_state :=
  match l with
  | [] => s
  | (pid, v) :: r =>
      pp_add_streams (mkPp (pp_pids s) (pp_sids s) (pp_pmt_pids s) (pp_clocks s)
        (minsert pid (stream_label v, pcr_pid) (pp_streams s)) (pp_done s)
        (pp_out s ++ [LStream pid (stream_label v) (es_type v)])) pcr_pid r
  end.

(** pes_printer.hh:149-187 HandlePmt *)
Definition pp_HandlePmt (s : pp_state) (t : option pmt) : pp_state :=
  match t with
  | None => s
  | Some m =>
      let s1 := pp_put s [LPmt (pmt_sid m) (pmt_pcr_pid m) (pmt_version m)] in
      let s2 :=
        if negb (pmt_pcr_pid m =? PID_NULL)
        then mkPp (pp_pids s1) (pp_sids s1) (pp_pmt_pids s1)
               (minsert (pmt_pcr_pid m) (ck_SetPid clock_init (pmt_pcr_pid m)) (pp_clocks s1)) (pp_streams s1) (pp_done s1) (pp_out s1)
        else s1 in
      pp_add_streams s2 (pmt_pcr_pid m) (pmt_streams m)
  end.

(** pes_printer.hh:202-207: the loop of HandleEit. *)
Fixpoint pp_events (i : Z) (l : list event) : res (list pp_line) :=
  match l with
  | [] => Ok []
  | v :: r =>
      let* d := i64 (ev_duration v * MilliSecPerSec) in
      let* stop := i64 (ev_start v + d) in
      let* rest := pp_events (i + 1) r in
      Ok (LEvent i (ev_id v) (ev_start v) stop (Z.quot (ev_duration v) 60) :: rest)
  end.

(** pes_printer.hh:189-208 HandleEit *)
Definition pp_HandleEit (s : pp_state) (t : option eit) : res pp_state :=
  match t with
  | None => Ok s
  | Some e =>
      if negb (zmem (eit_sid e) (pp_sids s)) then Ok s
      else
        let* l := pp_events 0 (eit_events e) in
        Ok (pp_put s (LEit (eit_sid e) (eit_version e) :: l))
  end.

(** pes_printer.hh:220-222.  The wall clock that UpdateTime stores is never read
    here: it is 0. *)
Fixpoint pp_update_time (time : Z) (l : list (Z * clock)) : res (list (Z * clock)) :=
  match l with
  | [] => Ok []
  | (pid, c) :: r =>
      let* c1 := ck_UpdateTime c time 0 in
      let* r1 := pp_update_time time r in
      Ok ((pid, c1) :: r1)
  end.

(** pes_printer.hh:210-223 HandleTot *)
Definition pp_HandleTot (s : pp_state) (t : option Z) : res pp_state :=
  match t with
  | None => Ok s
  | Some time =>
      let s1 := pp_put s [LTot time] in
      let* clocks := pp_update_time time (pp_clocks s1) in
      Ok (mkPp (pp_pids s1) (pp_sids s1) (pp_pmt_pids s1) clocks (pp_streams s1) (pp_done s1) (pp_out s1))
  end.

(** pes_printer.hh:84-104 handleTable *)
Definition pp_handleTable (s : pp_state) (pid : Z) (t : table) : res pp_state :=
  match tb_body t with
  | TPat t => Ok (pp_HandlePat s pid t)
  | TCat t => Ok (pp_HandleCat s t)
  | TPmt t => Ok (pp_HandlePmt s t)
  | TEit t => pp_HandleEit s t
  | TTot t => pp_HandleTot s t
  | _ => Ok s
  end.

(** pes_printer.hh:34-40 *)
Definition pp_pcr (s : pp_state) (p : packet) : res pp_state :=
  match p_pcr p with
  | None => Ok s
  | Some pcr =>
      match mfind (p_pid p) (pp_clocks s) with
      | None => Ok s
      | Some c =>
          let* c1 := ck_UpdatePcr c pcr in
          pp_Print (mkPp (pp_pids s) (pp_sids s) (pp_pmt_pids s) (minsert (p_pid p) c1 (pp_clocks s)) (pp_streams s) (pp_done s) (pp_out s))
            SPcr (p_pid p) None (p_pid p) pcr
      end
  end.

(** pes_printer.hh:41-50 and 51-60 *)
Definition pp_pes (s : pp_state) (k : stamp) (pid : Z) (v : option Z) : res pp_state :=
  match v with
  | None => Ok s
  | Some v =>
      let pcr := v * kMaxPcrExt in
      assert (IsValidPcr pcr) (
      match mfind pid (pp_streams s) with
      | Some (kind, pcr_pid) => pp_Print s k pid (Some kind) pcr_pid pcr
      | None => pp_Print s k pid None PID_NULL pcr
      end)
  end.

(** pes_printer.hh:31-63 HandlePacket *)
Definition pp_HandlePacket (s : pp_state) (p : packet) : res (pp_state * bool) :=
  let* s1 := pp_pcr s p in
  let* s2 := pp_pes s1 SPts (p_pid p) (p_pts p) in
  let* s3 := pp_pes s2 SDts (p_pid p) (p_dts p) in
  let* s4 := handle_tables pp_handleTable s3 (p_pid p) (demux_feed (pp_pids s3) 0 p) in
  Ok (s4, negb (pp_done s4)).

(** PacketSink::Start, End and GetExitCode are the defaults
    (packet_sink.hh:16-26). *)
Definition pp_sink : sink packet :=
  mkSink pp_state (fun s => Ok (s, true)) pp_HandlePacket (fun s => Ok s) (fun _ => Ok EXIT_SUCCESS).
