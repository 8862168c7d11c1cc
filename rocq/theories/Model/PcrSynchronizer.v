(** sync-clocks: /repo/src/pcr_synchronizer.hh, with StdoutJsonlSink. *)
From Coq Require Import ZArith List Bool.
From Verif Require Import Base.Outcome Base.Util Model.Pcr Model.Sink Model.Ts Model.EitSection Model.ServiceScanner.
Import ListNotations.
Open Scope Z_scope.

(** pcr_synchronizer.hh:20-23 *)
Record ps_option := mkPsOption {
  pso_sids : list Z;
  pso_xsids : list Z }.

(** One element of the output array (pcr_synchronizer.hh:49-58). *)
Record clock_doc := mkClockDoc {
  cd_nid : Z;
  cd_tsid : Z;
  cd_sid : Z;
  cd_pid : Z;
  cd_pcr : Z;
  cd_time : Z }.

(** pcr_synchronizer.hh:261-273, the enabled PIDs of the demultiplexer, and the
    documents written so far. *)
Record ps_state := mkPs {
  ps_pids : list Z;
  ps_pmt_pids : list (Z * Z);
  ps_nid : Z;
  ps_tsid : Z;
  ps_pmt_count : Z;
  ps_pcr_pid_map : list (Z * Z);
  ps_pcr_pids : list Z;
  ps_pcr_map : list (Z * Z);
  ps_time : Z;
  ps_started : bool;
  ps_done : bool;
  ps_out : list (list clock_doc) }.

(** pcr_synchronizer.hh:29-32; 0 stands for ts::Time(). *)
Definition ps_init : ps_state := mkPs [PID_PAT] [] 0 0 0 [] [] [] 0 false false [].

(** pcr_synchronizer.hh:241-259 ResetStates *)
Definition ps_ResetStates (s : ps_state) : ps_state :=
  let pids := zrem PID_SDT (fold_left (fun l e => zrem (snd e) l) (ps_pmt_pids s) (zrem PID_TOT (ps_pids s))) in
  mkPs pids [] 0 0 0 [] [] [] (ps_time s) false false (ps_out s).

Section Synchronizer.
Variable o : ps_option.

(** pcr_synchronizer.hh:145-155: the services of the PAT that are selected. *)
Fixpoint ps_select (pmts : list (Z * Z)) : list (Z * Z) :=
  match pmts with
  | [] => []
  | (sid, pid) :: r =>
      if negb (ss_IsEmpty (pso_sids o)) && negb (ss_Contain (pso_sids o) sid) then ps_select r
      else if negb (ss_IsEmpty (pso_xsids o)) && ss_Contain (pso_xsids o) sid then ps_select r
      else (sid, pid) :: ps_select r
  end.

(** pcr_synchronizer.hh:123-164 HandlePat.  The loop stores the selected pairs in
    the empty map pmt_pids_, or in the map of an earlier PAT, which is empty,
    too. *)
Definition ps_HandlePat (s : ps_state) (pid : Z) (t : option pat) : ps_state :=
  if negb (pid =? PID_PAT) then s
  else match t with
  | None => s
  | Some t =>
      if pat_tsid t =? 0 then s
      else
        let s1 := match ps_pmt_pids s with [] => s | _ => ps_ResetStates s end in
        let pmt_pids := ps_select (pat_pmts t) in
        let done := match pmt_pids with [] => true | _ => ps_done s1 end in
        mkPs (zadd PID_SDT (ps_pids s1)) pmt_pids (ps_nid s1) (ps_tsid s1) (ps_pmt_count s1) (ps_pcr_pid_map s1)
          (ps_pcr_pids s1) (ps_pcr_map s1) (ps_time s1) (ps_started s1) done (ps_out s1)
  end.

End Synchronizer.

(** pcr_synchronizer.hh:177-190: the loop of HandleSdt; the results are the new
    pmt_count_ and demultiplexer PIDs. *)
Fixpoint ps_count (d : sdt) (pmts : list (Z * Z)) (count : Z) (pids : list Z) : Z * list Z :=
  match pmts with
  | [] => (count, pids)
  | (sid, pid) :: r =>
      match mfind sid (sdt_services d) with
      | None => ps_count d r count pids
      | Some v => if negb (IsAudioVideoService (sv_type v)) then ps_count d r count pids
                  else ps_count d r (count + 1) (zadd pid pids)
      end
  end.

(** pcr_synchronizer.hh:166-191 HandleSdt *)
Definition ps_HandleSdt (s : ps_state) (t : option sdt) : ps_state :=
  match t with
  | None => s
  | Some d =>
      let (count, pids) := ps_count d (ps_pmt_pids s) (ps_pmt_count s) (ps_pids s) in
      mkPs pids (ps_pmt_pids s) (sdt_onid d) (sdt_tsid d) count (ps_pcr_pid_map s)
        (ps_pcr_pids s) (ps_pcr_map s) (ps_time s) (ps_started s) (ps_done s) (ps_out s)
  end.

(** pcr_synchronizer.hh:193-221 HandlePmt *)
Definition ps_HandlePmt (s : ps_state) (pid : Z) (t : option pmt) : ps_state :=
  match t with
  | None => s
  | Some m =>
      match mfind (pmt_sid m) (ps_pmt_pids s) with
      | None => s
      | Some q =>
          if negb (q =? pid) then s
          else
            let map1 := minsert (pmt_sid m) (pmt_pcr_pid m) (ps_pcr_pid_map s) in
            let pcr_pids := if negb (pmt_pcr_pid m =? PID_NULL) then zadd (pmt_pcr_pid m) (ps_pcr_pids s) else ps_pcr_pids s in
            let pids := if zlen map1 =? ps_pmt_count s then zadd PID_TOT (ps_pids s) else ps_pids s in
            mkPs pids (ps_pmt_pids s) (ps_nid s) (ps_tsid s) (ps_pmt_count s) map1 pcr_pids (ps_pcr_map s)
              (ps_time s) (ps_started s) (ps_done s) (ps_out s)
      end
  end.

(** pcr_synchronizer.hh:223-239 HandleTot and HandleTime *)
Definition ps_HandleTot (s : ps_state) (t : option Z) : ps_state :=
  match t with
  | None => s
  | Some time =>
      mkPs (ps_pids s) (ps_pmt_pids s) (ps_nid s) (ps_tsid s) (ps_pmt_count s) (ps_pcr_pid_map s) (ps_pcr_pids s)
        (ps_pcr_map s) time true (ps_done s) (ps_out s)
  end.

Section Sink.
Variable o : ps_option.

(** pcr_synchronizer.hh:104-121 *)
Definition ps_handleTable (s : ps_state) (pid : Z) (t : table) : res ps_state :=
  match tb_body t with
  | TPat t => Ok (ps_HandlePat o s pid t)
  | TPmt t => Ok (ps_HandlePmt s pid t)
  | TSdt t => Ok (ps_HandleSdt s t)
  | TTot t => Ok (ps_HandleTot s t)
  | _ => Ok s
  end.

(** pcr_synchronizer.hh:82-98: [p_pcr] is [Some] when the packet has a valid PCR.
    The argument FormatPcr(pcr) of the log line asserts IsValidPcr. *)
Definition ps_capture (s : ps_state) (p : packet) : res (ps_state * bool) :=
  if ps_started s && zmem (p_pid p) (ps_pcr_pids s) &&
     match mfind (p_pid p) (ps_pcr_map s) with None => true | Some _ => false end
  then match p_pcr p with
  | None => Ok (s, true)
  | Some pcr =>
      let* _ := FormatPcr pcr in
      let map1 := minsert (p_pid p) pcr (ps_pcr_map s) in
      let done := zlen map1 =? zlen (ps_pcr_pids s) in
      Ok (mkPs (ps_pids s) (ps_pmt_pids s) (ps_nid s) (ps_tsid s) (ps_pmt_count s) (ps_pcr_pid_map s) (ps_pcr_pids s)
            map1 (ps_time s) (ps_started s) (if done then true else ps_done s) (ps_out s), negb done)
  end
  else Ok (s, true).

(** pcr_synchronizer.hh:71-101 HandlePacket *)
Definition ps_HandlePacket (s : ps_state) (p : packet) : res (ps_state * bool) :=
  if p_pid p =? PID_NULL then Ok (s, true)
  else
    let* s1 := handle_tables ps_handleTable s (p_pid p) (demux_feed (ps_pids s) 0 p) in
    if ps_done s1 then Ok (s1, false) else ps_capture s1 p.

(** pcr_synchronizer.hh:45-60: the loop of End. *)
Fixpoint ps_docs (s : ps_state) (time : Z) (m : list (Z * Z)) : list clock_doc :=
  match m with
  | [] => []
  | (sid, pid) :: r =>
      match mfind pid (ps_pcr_map s) with
      | None => ps_docs s time r
      | Some pcr => mkClockDoc (ps_nid s) (ps_tsid s) sid pid pcr time :: ps_docs s time r
      end
  end.

(** pcr_synchronizer.hh:36-62 End *)
Definition ps_End (s : ps_state) : res ps_state :=
  if negb (ps_done s) then Ok s
  else
    let* time := ConvertJstTimeToUnixTime (ps_time s) in
    Ok (mkPs (ps_pids s) (ps_pmt_pids s) (ps_nid s) (ps_tsid s) (ps_pmt_count s) (ps_pcr_pid_map s) (ps_pcr_pids s)
          (ps_pcr_map s) (ps_time s) (ps_started s) (ps_done s) (ps_out s ++ [ps_docs s time (ps_pcr_pid_map s)])).

(** pcr_synchronizer.hh:64-69 GetExitCode *)
Definition ps_GetExitCode (s : ps_state) : res Z :=
  Ok (if ps_done s then EXIT_SUCCESS else EXIT_FAILURE).

Definition ps_sink : sink packet :=
  mkSink ps_state (fun s => Ok (s, true)) ps_HandlePacket ps_End ps_GetExitCode.

End Sink.
