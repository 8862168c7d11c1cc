(** What filter-program does, as a function of what happened so far. *)
From Coq Require Import ZArith List Bool.
From Verif Require Import Base.Outcome Base.Util Model.Sink Model.Ts Model.ProgramFilter Spec.PcrSpec Spec.FilterSpec Spec.TuneSpec Spec.TransSpec.
Import ListNotations.
Open Scope Z_scope.

(** What happened, newest first. *)
Inductive item :=
| Tab (pid : Z) (b : body)       (* a table was heard *)
| Clk (pcr : Z)                  (* a PCR of the service was examined *)
| PatPkt (p : packet)            (* a PAT packet came while waiting *)
| PmtSent                        (* a PMT packet was output while streaming *)
| Begun.                         (* streaming began *)
Definition past := list item.

Fixpoint tabs (h : past) : history :=
  match h with
  | [] => []
  | Tab pid b :: r => (pid, b) :: tabs r
  | _ :: r => tabs r
  end.
Fixpoint begun (h : past) : bool :=
  match h with [] => false | Begun :: _ => true | _ :: r => begun r end.

(** The packets of the latest PAT. *)
Fixpoint pats (h : past) : list packet :=
  match h with
  | [] => []
  | PatPkt p :: r => (if p_pusi p then [] else pats r) ++ [p]
  | _ :: r => pats r
  end.

(** Circular comparison as far as the code gets it right: [v] is at or after [e]
    if it is numerically, by less than half a cycle. *)
Definition reached (v e : Z) : bool := (e <=? v) && (2 * (v - e) <? pcr_cycle).

Section Program.
Variable npackets : pmt -> nat.
Variable o : program_filter_option.

(** The service's latest PMT and the PID it came on. *)
Definition service_pmt_from (x : Z * body) : option (Z * pmt) :=
  match x with
  | (pid, TPmt (Some t)) => if pmt_sid t =? pfo_sid o then Some (pid, t) else None
  | _ => None
  end.
Definition pmt_now (h : past) : option (Z * pmt) := latest service_pmt_from (tabs h).

(** The event, if an EIT p/f of the service has it as present or following. *)
Definition event_in (x : Z * body) : option event :=
  match snd x with
  | TEit (Some t) =>
      if eit_sid t =? pfo_sid o then
        match eit_events t with
        | [] => None
        | e :: r =>
            if ev_id e =? pfo_eid o then Some e
            else match r with
                 | [] => None
                 | f :: _ => if ev_id f =? pfo_eid o then Some f else None
                 end
        end
      else None
  | _ => None
  end.
Definition event_now (h : past) : option event := latest event_in (tabs h).

(** The clock: PID, PCR and time.  A PMT with another PCR PID resets it; then the
    first TOT gives the time and every PCR the PCR, until both are there. *)
Fixpoint clock_now (h : past) : Z * option Z * option Z :=
  match h with
  | [] => (pfo_clock_pid o, Some (pfo_clock_pcr o), Some (pfo_clock_time o))
  | x :: r =>
      let '(pid, pcr, time) := clock_now r in
      match x with
      | Tab src (TPmt (Some t)) =>
          if (pmt_sid t =? pfo_sid o) && negb (pmt_pcr_pid t =? pid) then (pmt_pcr_pid t, None, None) else (pid, pcr, time)
      | Tab _ (TTot (Some t)) => (pid, pcr, match time with None => Some t | Some _ => time end)
      | Clk v => match pcr, time with Some _, Some _ => (pid, pcr, time) | _, _ => (pid, Some v, time) end
      | _ => (pid, pcr, time)
      end
  end.

(** The PCR window. *)
Definition to_pcr (pcr time t : Z) : Z := (pcr + 27000 * (t - time)) mod pcr_cycle.
Definition window (h : past) : option (Z * Z) :=
  match clock_now h, event_now h with
  | (_, Some pcr, Some time), Some e =>
      Some (to_pcr pcr time (ev_start e - pfo_start_margin o),
            to_pcr pcr time (ev_start e + (ev_duration e * 1000 + pfo_end_margin o)))
  | _, _ => None
  end.

(** Reasons to give up: an EIT of the service without events; before the
    beginning, an EIT without the event (if it has one event only or there is no
    time limit), or a TOT after the time limit. *)
Definition gives_up (x : item) (before : past) : bool :=
  match x with
  | Tab pid (TEit (Some t)) =>
      (eit_sid t =? pfo_sid o) &&
      match eit_events t with
      | [] => true
      | e :: r =>
          negb (begun before) &&
          match event_in (pid, TEit (Some t)) with
          | Some _ => false
          | None => match r, pfo_wait_until o with [], _ => true | _, None => true | _, _ => false end
          end
      end
  | Tab _ (TTot (Some t)) =>
      negb (begun before) && match pfo_wait_until o with Some w => w <? t | None => false end
  | _ => false
  end.
Fixpoint given_up (h : past) : bool :=
  match h with [] => false | x :: r => given_up r || gives_up x r end.

(** Streams to be removed: a video (audio) stream when video (audio) tags were
    asked for and it does not have one of them. *)
Definition tagged (tags : list Z) (e : stream) : bool :=
  match es_tag e with Some t => existsb (Z.eqb t) tags | None => false end.
Definition asked (tags : list Z) : bool := match tags with [] => false | _ => true end.
Definition unwanted (e : stream) : bool :=
  if es_video e && asked (pfo_video_tags o) then negb (tagged (pfo_video_tags o) e)
  else es_audio e && asked (pfo_audio_tags o) && negb (tagged (pfo_audio_tags o) e).
Definition removed (m : pmt) (pid : Z) : bool :=
  existsb (fun x => (fst x =? pid) && unwanted (snd x)) (pmt_streams m).
(** The PMT without them; it is the original one if there are none. *)
Definition reduced (m : pmt) : pmt :=
  if existsb (fun x => unwanted (snd x)) (pmt_streams m) then
    mkPmt (pmt_sid m) (pmt_version m) (pmt_pcr_pid m) (pmt_ca_pids m)
      (filter (fun x => negb (unwanted (snd x))) (pmt_streams m))
  else m.

(** The [i]-th packet of a PMT on a PID, and all of them. *)
Definition pmt_packet (pid : Z) (m : pmt) (i : nat) : packet :=
  mkPacket (GenPmt m i) pid (Nat.eqb i 0) None None None (fun _ => []) (fun _ => O).
Definition pmt_cycle (pid : Z) (m : pmt) : list packet := map (pmt_packet pid m) (seq 0 (npackets m)).
(** How many PMT packets were output while streaming since the latest PMT. *)
Fixpoint pmt_count (h : past) : nat :=
  match h with
  | [] => O
  | PmtSent :: r => S (pmt_count r)
  | Tab pid b :: r => match service_pmt_from (pid, b) with Some _ => O | None => pmt_count r end
  | _ :: r => pmt_count r
  end.

(** The PMT PID according to the latest PAT; 0x1FFF before. *)
Definition pmt_pid (h : past) : Z :=
  match latest (listing (pfo_sid o)) (tabs h) with Some (_, pid) => pid | None => 0x1FFF end.

(** The PCR in a packet, if it belongs to the service. *)
Definition service_pcr (h : past) (p : packet) : option Z :=
  match pmt_now h with
  | Some (_, m) => if p_pid p =? pmt_pcr_pid m then p_pcr p else None
  | None => None
  end.

(** ** What is done with a packet: the packets output, how it goes on, the past.
    The tables in the packet are already in the past [h]. *)

(** Beginning: the latest PAT (unless it was output before), the PMT, and the
    packet.  It takes a PAT packet and a PMT that came on the current PMT PID. *)
Definition begin (h : past) (p : packet) : list packet * verdict * past :=
  let first := if pfo_pre_streaming o then [] else pats h in
  match pmt_now h with
  | None => ([], Go, h)
  | Some (src, m) =>
      if negb (pfo_pre_streaming o) && (match pats h with [] => true | _ => false end) then ([], Boom AssertFail, h)
      else if src =? pmt_pid h then (first ++ pmt_cycle src (reduced m) ++ [p], Go, Begun :: h)
      else (first, Boom AssertFail, h)
  end.

Definition waiting (h : past) (p : packet) : list packet * verdict * past :=
  if given_up h then ([], Halt, h)
  else if (p_pid p =? 0) && pfo_pre_streaming o then ([p], Go, h)
  else
    let h1 := if p_pid p =? 0 then PatPkt p :: h else h in
    match event_now h, service_pcr h p with
    | Some _, Some v =>
        match window (Clk v :: h1) with
        | None => ([], Go, Clk v :: h1)
        | Some (s, e) =>
            if reached v e then ([], Halt, Clk v :: h1)
            else if reached v s then begin (Clk v :: h1) p
            else ([], Go, Clk v :: h1)
        end
    | _, _ => ([], Go, h1)
    end.

(** PMT packets are replaced, those of removed streams dropped, the others output. *)
Definition pass (h : past) (p : packet) : list packet * verdict * past :=
  match pmt_now h with
  | None => ([], Go, h)
  | Some (src, m) =>
      if p_pid p =? pmt_pid h then
        if src =? p_pid p then
          ([pmt_packet src (reduced m) (pmt_count h mod npackets (reduced m))], Go, PmtSent :: h)
        else ([], Boom AssertFail, h)
      else if removed m (p_pid p) then ([], Go, h)
      else ([p], Go, h)
  end.

Definition streaming (h : past) (p : packet) : list packet * verdict * past :=
  if given_up h then ([], Halt, h)
  else
    match pmt_now h with
    | None => ([], Go, h)
    | Some (_, m) =>
        if p_pid p =? pmt_pcr_pid m then
          match p_pcr p with
          | None => ([p], Go, h)
          | Some v =>
              match window (Clk v :: h) with
              | None => ([p], Go, Clk v :: h)
              | Some (_, e) => if reached v e then ([], Halt, Clk v :: h) else pass (Clk v :: h) p
              end
          end
        else pass h p
    end.

Definition react (h : past) (p : packet) : list packet * verdict * past :=
  if begun h then streaming h p else waiting h p.

Definition base_pids : list Z := [0x00; 0x12; 0x14].
(** The tables [ts] of a packet added to the past. *)
Definition hear (h : past) (p : packet) (ts : list table) : past :=
  rev (map (fun t => Tab (p_pid p) (tb_body t)) ts) ++ h.
(** A PAT without the service fails an assertion. *)
Definition bad_pat (p : packet) (ts : list table) : Prop :=
  exists t, In t ts /\ missing (pfo_sid o) (p_pid p, tb_body t) = true.

(** What makes it fail, other than such a PAT; [h] includes the tables of the
    packet.  While streaming: a packet of the PMT PID, when the latest PMT came on
    another PID.  At the beginning: a PMT that came on another PID than the current
    PMT PID, or no PAT packet. *)
Definition troubled (h : past) (p : packet) : Prop :=
  given_up h = false /\ exists src m, pmt_now h = Some (src, m) /\
  ((begun h = true /\ p_pid p = pmt_pid h /\ src <> pmt_pid h /\
      (p_pid p = pmt_pcr_pid m -> exists v s e, p_pcr p = Some v /\ window (Clk v :: h) = Some (s, e) /\ reached v e = false)) \/
   (begun h = false /\ (p_pid p = 0 -> pfo_pre_streaming o = false) /\
      exists v s e, p_pid p = pmt_pcr_pid m /\ p_pcr p = Some v /\ window (Clk v :: h) = Some (s, e) /\
        reached v e = false /\ reached v s = true /\
        (src <> pmt_pid h \/ (pfo_pre_streaming o = false /\ p_pid p <> 0 /\ pats h = [])))).

(** A step in the sense of [TransSpec.trans]; [stage] numbers the demultiplexer. *)
Definition program_step (stage : nat) (h : past) (p : packet) (qs : list packet) (v : verdict) (h' : past) : Prop :=
  exists ts, delivered base_pids (pfo_sid o) stage (tabs h) p ts /\
    ((bad_pat p ts /\ (qs, v, h') = ([], Boom AssertFail, h)) \/
     (~ bad_pat p ts /\ (qs, v, h') = react (hear h p ts) p)).

(** Values within the ranges of their encodings: PCRs, 40-bit times, BCD
    durations; margins and the initial clock likewise. *)
Definition sane_option : Prop :=
  0 <= pfo_clock_pcr o < pcr_cycle /\ Z.abs (pfo_clock_time o) < 2 ^ 44 /\
  Z.abs (pfo_start_margin o) < 2 ^ 44 /\ Z.abs (pfo_end_margin o) < 2 ^ 44.
Definition sane_table (b : body) : Prop :=
  match b with
  | TEit (Some t) => Forall (fun e => 0 <= ev_start e < 2 ^ 44 /\ 0 <= ev_duration e < 2 ^ 30) (eit_events t)
  | TTot (Some t) => 0 <= t < 2 ^ 44
  | _ => True
  end.
Definition sane_packet (stage : nat) (p : packet) : Prop :=
  (forall v, p_pcr p = Some v -> 0 <= v < pcr_cycle) /\
  (forall t, In t (p_tabs p stage) -> sane_table (tb_body t)).

End Program.

(** The packets of the latest PAT in an input, on top of those of [acc]. *)
Fixpoint latest_pat (acc : list packet) (ps : list packet) : list packet :=
  match ps with
  | [] => acc
  | p :: r => latest_pat (if p_pid p =? 0 then (if p_pusi p then [] else acc) ++ [p] else acc) r
  end.
Definition pat_packets (ps : list packet) : list packet := filter (fun p => p_pid p =? 0) ps.

(** Tables that do not upset the program filter: a PAT lists the service with the
    one PMT PID [mpid], and the PMT of the service comes on that PID. *)
Definition steady (o : program_filter_option) (mpid pid : Z) (b : body) : Prop :=
  missing (pfo_sid o) (pid, b) = false /\
  (forall t q, listing (pfo_sid o) (pid, b) = Some (t, q) -> q = mpid) /\
  (forall src m, service_pmt_from o (pid, b) = Some (src, m) -> pid = mpid).

(** Changes of the clock in the past: a PMT with another PCR PID than before. *)
Definition resets (o : program_filter_option) (x : item) (before : past) : bool :=
  match x with
  | Tab _ (TPmt (Some t)) => (pmt_sid t =? pfo_sid o) && negb (pmt_pcr_pid t =? fst (fst (clock_now o before)))
  | _ => false
  end.

(** The PCRs examined, newest first. *)
Fixpoint clks (h : past) : list Z :=
  match h with [] => [] | Clk v :: r => v :: clks r | _ :: r => clks r end.
Definition is_tot (x : item) : bool := match x with Tab _ (TTot (Some _)) => true | _ => false end.
(** The pair of PCR and time that a clock reset before [new] is set from: the
    first TOT, with the last PCR before it or the first after it. *)
Inductive paired (new : past) : option Z -> option Z -> Prop :=
| P_wait : existsb is_tot new = false -> paired new (hd_error (clks new)) None
| P_set : forall b pid t a, new = b ++ Tab pid (TTot (Some t)) :: a -> existsb is_tot a = false ->
    paired new (match clks a with v :: _ => Some v | [] => hd_error (rev (clks b)) end) (Some t).

(** A stream that is not wanted. *)
Definition excluded (o : program_filter_option) (e : stream) : Prop :=
  (es_video e = true /\ pfo_video_tags o <> [] /\ ~ (exists t, es_tag e = Some t /\ In t (pfo_video_tags o))) \/
  (es_audio e = true /\ ~ (es_video e = true /\ pfo_video_tags o <> []) /\ pfo_audio_tags o <> [] /\
     ~ (exists t, es_tag e = Some t /\ In t (pfo_audio_tags o))).
