(** filter-program on a whole transport stream: the tables of a normal broadcast, a
    program that is on air from one time to another, and what is recorded of it. *)
From Coq Require Import ZArith List Bool.
From Verif Require Import Base.Outcome Base.Util Model.Sink Model.Ts Model.ProgramFilter Spec.PcrSpec Spec.FilterSpec Spec.ProgramSpec Spec.OnAirSpec.
Import ListNotations.
Open Scope Z_scope.

Section Broadcast.
Variable npackets : pmt -> nat.
Variable o : program_filter_option.
(** The PAT, the PID of the PMT of the service, the PMT, the PIDs of the EMMs
    (from the CAT), the event; times as in OnAirSpec. *)
Variable t : pat.
Variable mpid : Z.
Variable m : pmt.
Variable ca : list Z.
Variable e : event.
Variable K : Z.
Notation sid := (pfo_sid o).

(** The PIDs of the service. *)
Definition own_pids : list Z := pmt_pcr_pid m :: pmt_ca_pids m ++ map fst (pmt_entries m) ++ ca.
Definition passes (pid : Z) : bool := zmem pid (si_pids ++ mpid :: own_pids).

(** The tables on PID 0, on PID 1 and on the PID of the PMT. *)
Definition regular (p : packet) : Prop :=
  In (p_pid p) [0; 1; mpid] -> forall b, In b (map tb_body (p_tabs p 0)) ->
  match b with
  | TPat (Some t') => t' = t
  | TPmt (Some m') => pmt_sid m' = sid -> m' = m
  | TCat (Some c) => cat_ca_pids c = ca
  | TTot (Some _) => False
  | _ => True
  end.

(** The packet completes a table. *)
Definition completes (pid : Z) (b : body) (p : packet) : Prop := p_pid p = pid /\ In b (map tb_body (p_tabs p 0)).

(** What is left of a packet when other services are taken out: PAT packets are
    replaced by packets of a PAT with this service only. *)
Definition taken (p : packet) : list packet :=
  if p_pid p =? 0 then [gen_pat p (only_service sid t mpid)] else if passes (p_pid p) then [p] else [].
Definition taken_all (ps : list packet) : list packet := flat_map taken ps.
Definition pats_of (ps : list packet) : list packet := taken_all (filter (fun p => p_pid p =? 0) ps).

(** The stream: packets [a] before the first PAT, which is completed by [y]; [z]
    completes the PMT; [x] is the first packet with a PCR in the time of the program,
    [mid] is the rest of that time, [post] begins with the first PCR after it. *)
Record broadcast (a : list (packet * Z)) (y : packet * Z) (b : list (packet * Z)) (z : packet * Z) (c : list (packet * Z))
    (x : packet * Z) (mid post : list (packet * Z)) : Prop := {
  bc_listed : pat_tsid t <> 0 /\ pmt_pid_of sid t = Some mpid;
  bc_mpid : ~ In mpid [0; 1; 0x12; 0x14; 0x1FFF];
  bc_pids : ~ In 0 own_pids /\ ~ In 0x1FFF own_pids;
  bc_regular : Forall regular (map fst (a ++ y :: b ++ z :: c ++ x :: mid ++ firstn 1 post));
  bc_first : forall p, In p a -> ~ completes 0 (TPat (Some t)) (fst p);
  bc_pat : completes 0 (TPat (Some t)) (fst y) /\ (1 <= p_regen (fst y) 1)%nat;
  bc_pmt : pmt_sid m = sid /\ completes mpid (TPmt (Some m)) (fst z);
  bc_cat : ca = [] \/ exists p c', In p (a ++ y :: b ++ z :: c) /\ completes 1 (TCat (Some c')) (fst p);
  (** For the program filter's own demultiplexer (number 1). *)
  bc_heard : exists p q, In p (b ++ z :: c) /\ In q (b ++ z :: c) /\
    p_pid (fst p) = mpid /\ brings 1 (service_pmt_from o) (fst p) /\ p_pid (fst q) = 0x12 /\ brings 1 (event_in o) (fst q);
  bc_normal : (forall p, In p (a ++ y :: b ++ z :: c ++ [x]) -> p_pid (fst p) <> 0 -> passes (p_pid (fst p)) = true -> normal o 1 mpid m e false (fst p)) /\
    forall p, In p (mid ++ firstn 1 post) -> p_pid (fst p) <> 0 -> passes (p_pid (fst p)) = true -> normal o 1 mpid m e true (fst p);
  (** Times. *)
  bc_pcr_pid : pmt_pcr_pid m = pfo_clock_pid o;
  bc_clock : right_clock o K;
  bc_timed : Forall (timed o K) (a ++ y :: b ++ z :: c ++ x :: mid ++ firstn 1 post);
  bc_near : forall p, In p (a ++ y :: b ++ z :: c ++ x :: mid ++ firstn 1 post) -> has_pcr o p -> near (snd p) (start_tick o e) /\ near (snd p) (end_tick o e);
  bc_order : start_tick o e < end_tick o e;
  bc_before : forall p, In p (a ++ y :: b ++ z :: c) -> has_pcr o p -> snd p < start_tick o e;
  bc_begin : has_pcr o x /\ start_tick o e <= snd x /\ same_turn K (start_tick o e) (snd x);
  bc_within : forall p, In p (x :: mid) -> has_pcr o p -> snd p < end_tick o e;
  bc_after : forall p r, post = p :: r -> has_pcr o p /\ end_tick o e <= snd p /\ same_turn K (end_tick o e) (snd p) }.

(** What is recorded: the latest PAT packet before the program (all of them since
    the first PAT, with --pre-streaming), the PMT, and the packets of the program
    that belong to the service, without the streams that are not wanted. *)
Definition recorded (y : packet * Z) (b : list (packet * Z)) (z : packet * Z) (c : list (packet * Z)) (x : packet * Z) (mid : list (packet * Z)) : list packet :=
  let pats := pats_of (map fst (y :: b ++ z :: c)) in
  (if pfo_pre_streaming o then pats else skipn (List.length pats - 1) pats) ++
  pmt_cycle npackets mpid (reduced o m) ++ [fst x] ++ shown npackets o 1 mpid m 0 (taken_all (map fst mid)).
End Broadcast.
