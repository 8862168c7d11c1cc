(** filter-program in real time: packets that come at known times, a program that
    is on air from one time to another. *)
From Coq Require Import ZArith List Bool.
From Verif Require Import Base.Outcome Base.Util Model.Sink Model.Ts Model.ProgramFilter Spec.PcrSpec Spec.FilterSpec Spec.TuneSpec Spec.ProgramSpec.
Import ListNotations.
Open Scope Z_scope.

Section OnAir.
Variable npackets : pmt -> nat.
Variable o : program_filter_option.
Variable stage : nat.
(** The PID of the PMT of the service, the PMT, and the event. *)
Variable mpid : Z.
Variable m : pmt.
Variable e : event.

(** Times are counted in ticks of 27 MHz.  The PCR of the service at the time [t] is
    [(K + t) mod pcr_cycle]; the clock given to filter-program agrees with that. *)
Variable K : Z.
Definition right_clock : Prop := pfo_clock_pcr o = (K + 27000 * pfo_clock_time o) mod pcr_cycle.

(** A packet and the time it comes at. *)
Definition timed (x : packet * Z) : Prop :=
  p_pid (fst x) = pfo_clock_pid o -> forall v, p_pcr (fst x) = Some v -> v = (K + snd x) mod pcr_cycle.
Definition has_pcr (x : packet * Z) : Prop := p_pid (fst x) = pfo_clock_pid o /\ p_pcr (fst x) <> None.

(** When the program starts and ends, with the margins. *)
Definition start_tick : Z := 27000 * (ev_start e - pfo_start_margin o).
Definition end_tick : Z := 27000 * (ev_start e + (ev_duration e * 1000 + pfo_end_margin o)).

(** Less than half a turn of the PCR (about 13 hours) apart; in the same turn. *)
Definition near (t u : Z) : Prop := 2 * Z.abs (t - u) < pcr_cycle.
Definition same_turn (t u : Z) : Prop := (K + t) / pcr_cycle = (K + u) / pcr_cycle.

(** Tables of normal operation: PATs have the service on [mpid]; its PMT comes
    there and is [m]; the event is [e]; nothing is a reason to give up. *)
Definition normal (started : bool) (p : packet) : Prop :=
  forall t, In t (p_tabs p stage) -> let x := (p_pid p, tb_body t) in
    steady o mpid (p_pid p) (tb_body t) /\
    (forall src m', service_pmt_from o x = Some (src, m') -> m' = m) /\
    (forall e', event_in o x = Some e' -> e' = e) /\
    gives_up o (Tab (p_pid p) (tb_body t)) (if started then [Begun] else []) = false.

(** A packet brings a table of a kind. *)
Definition brings {B} (f : Z * body -> option B) (p : packet) : Prop :=
  exists t y, In t (p_tabs p stage) /\ f (p_pid p, tb_body t) = Some y.

(** What is output for the packets of the program: PMT packets are replaced by those
    of the reduced PMT, in turn (anew with each PMT); packets of removed streams are
    left out (but for packets of the PCR PID without a PCR). *)
Definition restarts (p : packet) : bool :=
  existsb (fun t => match service_pmt_from o (p_pid p, tb_body t) with Some _ => true | None => false end) (p_tabs p stage).
Fixpoint shown (i : nat) (ps : list packet) : list packet :=
  match ps with
  | [] => []
  | p :: r =>
      let i := if restarts p then O else i in
      if (p_pid p =? pfo_clock_pid o) && (match p_pcr p with None => true | Some _ => false end) then p :: shown i r
      else if p_pid p =? mpid then pmt_packet mpid (reduced o m) (i mod npackets (reduced o m)) :: shown (S i) r
      else if removed o m (p_pid p) then shown i r
      else p :: shown i r
  end.

(** The packets [pre] come before the program, [x] is the first packet with a PCR in
    it, [mid] is the rest of it, [post] begins with the first PCR after it. *)
Record on_air (pre : list (packet * Z)) (x : packet * Z) (mid post : list (packet * Z)) : Prop := {
  oa_pid : ~ In mpid base_pids;
  oa_pcr_pid : pmt_pcr_pid m = pfo_clock_pid o;
  oa_not_pat : pfo_clock_pid o <> 0;
  oa_clock : right_clock;
  oa_timed : Forall timed (pre ++ x :: mid ++ firstn 1 post);
  oa_near : forall y, In y (pre ++ x :: mid ++ firstn 1 post) -> has_pcr y -> near (snd y) start_tick /\ near (snd y) end_tick;
  oa_order : start_tick < end_tick;
  oa_before : forall y, In y pre -> has_pcr y -> snd y < start_tick;
  oa_first : has_pcr x /\ start_tick <= snd x /\ same_turn start_tick (snd x);
  oa_within : forall y, In y (x :: mid) -> has_pcr y -> snd y < end_tick;
  oa_after : forall y r, post = y :: r -> has_pcr y /\ end_tick <= snd y /\ same_turn end_tick (snd y);
  oa_tables : Forall (normal false) (map fst (pre ++ [x])) /\ Forall (normal true) (map fst (mid ++ firstn 1 post));
  oa_heard : exists a b, map fst pre = a ++ b /\
    (exists p, In p a /\ brings (listing (pfo_sid o)) p) /\
    (exists p, In p b /\ brings (service_pmt_from o) p) /\
    (exists p, In p (a ++ b) /\ p_pid p = 0x12 /\ brings (event_in o) p) }.

(** What is output: the PAT packets, the PMT, and the packets of the program. *)
Definition programme (pre : list (packet * Z)) (x : packet * Z) (mid : list (packet * Z)) : list packet :=
  (if pfo_pre_streaming o then pat_packets (map fst pre) else latest_pat [] (map fst pre)) ++
  pmt_cycle npackets mpid (reduced o m) ++ [fst x] ++ shown 0 (map fst mid).
End OnAir.
