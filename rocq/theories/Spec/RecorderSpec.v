(** What record-service outputs and records. *)
From Coq Require Import ZArith List Bool.
From Verif Require Import Base.Outcome Base.Util Model.Clock Model.Ts Model.RingFileSink Model.ServiceRecorder
  Spec.ClockSpec Spec.FilterSpec Spec.TuneSpec Spec.FileSpec.
Import ListNotations.
Open Scope Z_scope.

(** The messages, and the calls of the ring, in a trace. *)
Fixpoint messages (tr : list entry) : list message :=
  match tr with
  | [] => []
  | Msg m :: r => m :: messages r
  | Ring _ :: r => messages r
  end.
Fixpoint ring_calls (tr : list entry) : list ring_event :=
  match tr with
  | [] => []
  | Msg _ :: r => ring_calls r
  | Ring e :: r => e :: ring_calls r
  end.

(** The order of messages, as an automaton.  [During id]: the event [id] has
    started and not ended. *)
Inductive phase := Fresh | Prepared | Quiet | During (id : Z) | Stopped.

Definition next (q : phase) (m : message) : option phase :=
  match q, m with
  | Fresh, MStart => Some Prepared
  | Prepared, MChunk _ _ => Some Quiet
  | Quiet, MChunk _ _ => Some Quiet
  | Quiet, MEvent KStart _ _ _ e _ _ => Some (During (ev_id e))
  | During id, MChunk _ _ => Some (During id)
  | During id, MEvent KUpdate _ _ _ e _ _ => if ev_id e =? id then Some (During id) else None
  | During id, MEvent KEnd _ _ _ e _ _ => if ev_id e =? id then Some Quiet else None
  | Prepared, MStop _ | Quiet, MStop _ | During _, MStop _ => Some Stopped
  | _, _ => None
  end.

(** [parse ms]: the phase after the messages [ms], if they are in order. *)
Definition parse (ms : list message) : option phase :=
  fold_left (fun q m => match q with Some q => next q m | None => None end) ms (Some Fresh).

(** Where the next event record has to start: at the end of the last one, or at
    the first chunk. *)
Definition boundary (ms : list message) : option (Z * Z) :=
  fold_left (fun b m =>
    match m with
    | MChunk t p => match b with None => Some (t, p) | _ => b end
    | MEvent KEnd _ _ _ _ t p => Some (t, p)
    | _ => b
    end) ms None.
Definition contiguous (ms : list message) : Prop :=
  forall a x y z e t p b, ms = a ++ MEvent KStart x y z e t p :: b -> boundary a = Some (t, p).

Fixpoint chunk_positions (ms : list message) : list Z :=
  match ms with
  | [] => []
  | MChunk _ p :: r => p :: chunk_positions r
  | _ :: r => chunk_positions r
  end.

(** Every report of the ring is answered at once by a chunk message with the
    reported position (0 at the end of the ring), after an event-update with the
    same time and position if an event is running. *)
Definition answered (ring_size : Z) (tr : list entry) : Prop :=
  forall a p b, tr = a ++ Ring (EvNotify p) :: b ->
    let pos := if p =? ring_size then 0 else p in
    exists t r,
      (parse (messages a) = Some Quiet /\ b = Msg (MChunk t pos) :: r) \/
      (exists id x y z e, parse (messages a) = Some (During id) /\ ev_id e = id /\
         b = Msg (MEvent KUpdate x y z e t pos) :: Msg (MChunk t pos) :: r).

Section Record.
Variable sid : Z.
Variable stage : nat.
Variable local : nat -> Z.

(** The PCR PID according to the latest PMT of the service. *)
Definition clock_pid (h : history) : Z :=
  match latest (service_pmt sid) h with Some m => pmt_pcr_pid m | None => 0x1FFF end.
(** An EIT of the service with an event. *)
Definition service_eit (x : Z * body) : option eit :=
  match snd x with
  | TEit (Some t) => if eit_sid t =? sid then match eit_events t with [] => None | _ => Some t end else None
  | _ => None
  end.

(** What a table and a packet mean for the clock; the [n]-th TOT takes the [n]-th
    reading of the wall clock. *)
Definition clock_table (h : history) (ops : list clock_op) (x : Z * body) : list clock_op :=
  match service_pmt sid x, snd x with
  | Some m, _ => if (clock_pid h =? 0x1FFF) || negb (clock_pid h =? pmt_pcr_pid m) then [OpSetPid (pmt_pcr_pid m)] else []
  | _, TTot (Some t) => [OpTime t (local (List.length (filter is_time ops)))]
  | _, _ => []
  end.
Definition clock_packet (h : history) (p : packet) : list clock_op :=
  if negb (clock_pid h =? 0x1FFF) && (clock_pid h =? p_pid p) then
    match p_pcr p with Some v => [OpPcr v] | None => [] end
  else [].

(** Noting tables one after the other. *)
Fixpoint note (h : history) (ops : list clock_op) (pid : Z) (ts : list table) : history * list clock_op :=
  match ts with
  | [] => (h, ops)
  | t :: r => let x := (pid, tb_body t) in note (x :: h) (ops ++ clock_table h ops x) pid r
  end.

(** Recording starts after the first packet at which the clock is ready and an
    event is known. *)
Definition ready (h : history) (ops : list clock_op) : Prop :=
  seen ops true true /\ latest service_eit h <> None.

Definition hears (h : history) (p : packet) (ts : list table) : Prop := delivered [0; 0x12; 0x14] sid stage h p ts.

(** [record h ops ps r]: of the input [ps], with past [h] and [ops], the packets
    [r] are recorded; [None]: recording does not start. *)
Inductive record : history -> list clock_op -> list packet -> option (list packet) -> Prop :=
| R_end : forall h ops, record h ops [] None
| R_ready : forall h ops p ps ts h' ops', hears h p ts -> note h (ops ++ clock_packet h p) (p_pid p) ts = (h', ops') ->
    ready h' ops' -> record h ops (p :: ps) (Some ps)
| R_wait : forall h ops p ps ts h' ops' r, hears h p ts -> note h (ops ++ clock_packet h p) (p_pid p) ts = (h', ops') ->
    ~ ready h' ops' -> record h' ops' ps r -> record h ops (p :: ps) r.

End Record.

(** Tables as they are broadcast: PCRs are PCR values, times are before the year
    2400, durations under 34 years; every PAT lists the service. *)
Definition sound_table (sid : Z) (pid : Z) (b : body) : Prop :=
  missing sid (pid, b) = false /\
  match b with
  | TEit (Some t) => Forall (fun e => 0 <= ev_start e < 2 ^ 44 /\ 0 <= ev_duration e < 2 ^ 30) (eit_events t)
  | TTot (Some t) => 0 <= t < 2 ^ 44
  | _ => True
  end.
Definition sound_packet (sid : Z) (stage : nat) (p : packet) : Prop :=
  (forall v, p_pcr p = Some v -> 0 <= v < 2 ^ 33 * 300) /\
  (forall t, In t (p_tabs p stage) -> sound_table sid (p_pid p) (tb_body t)).
