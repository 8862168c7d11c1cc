(** What filter-service does, as a function of the tables heard so far. *)
From Coq Require Import ZArith List Bool.
From Verif Require Import Base.Outcome Model.Sink Model.Ts Spec.FeedSpec.
Import ListNotations.
Open Scope Z_scope.

(** The tables heard so far with the PID they came on, newest first. *)
Definition history := list (Z * body).

Fixpoint latest {A B} (f : A -> option B) (h : list A) : option B :=
  match h with
  | [] => None
  | x :: r => match f x with Some v => Some v | None => latest f r end
  end.

(** The PMT PID that a PAT gives for a service; a later entry overrides an
    earlier one; id 0 is the network, not a service. *)
Definition pmt_pid_of (sid : Z) (t : pat) : option Z :=
  if sid =? 0 then None
  else latest (fun e => if fst e =? sid then Some (snd e) else None) (rev (pat_entries t)).

(** Usable PATs: intact, on PID 0, with a transport stream id other than 0. *)
Definition usable_pat (x : Z * body) : option pat :=
  match x with
  | (pid, TPat (Some t)) => if (pid =? 0) && negb (pat_tsid t =? 0) then Some t else None
  | _ => None
  end.

Section Filter.
Variable sid : Z.
Variable limit : option Z.

(** A PAT that lists the service, with the PMT PID. *)
Definition listing (x : Z * body) : option (pat * Z) :=
  match usable_pat x with
  | Some t => match pmt_pid_of sid t with Some pid => Some (t, pid) | None => None end
  | None => None
  end.
(** A PAT that does not. *)
Definition missing (x : Z * body) : bool :=
  match usable_pat x with
  | Some t => match pmt_pid_of sid t with Some _ => false | None => true end
  | None => false
  end.
Definition service_pmt (x : Z * body) : option pmt :=
  match snd x with
  | TPmt (Some t) => if pmt_sid t =? sid then Some t else None
  | _ => None
  end.
Definition a_cat (x : Z * body) : option cat :=
  match snd x with TCat (Some t) => Some t | _ => None end.
Definition a_tot (x : Z * body) : option Z :=
  match snd x with TTot (Some t) => Some t | _ => None end.

(** The PIDs forwarded. *)
Definition si_pids : list Z := [0x00; 0x01; 0x10; 0x11; 0x12; 0x13; 0x14; 0x24; 0x29].
Definition wanted (h : history) (pid : Z) : Prop :=
  (exists t pmt_pid, latest listing h = Some (t, pmt_pid) /\ (In pid si_pids \/ pid = pmt_pid)) \/
  (exists m, latest service_pmt h = Some m /\
     (pid = pmt_pcr_pid m \/ In pid (pmt_ca_pids m) \/ In pid (map fst (pmt_entries m)))) \/
  (exists c, latest a_cat h = Some c /\ In pid (cat_ca_pids c)).

(** The PIDs on which tables are heard: PAT, CAT, the TOT if there is a time
    limit, and the current PMT PID.  A PID that was the PMT PID and no longer is
    falls silent, even one of the first three; 0x1FFF does not. *)
Definition listens (h : history) (pid : Z) : Prop :=
  (exists t, latest listing h = Some (t, pid)) \/
  ((pid = 0 \/ pid = 1 \/ (pid = 0x14 /\ limit <> None)) /\
     ~ (exists x t, In x h /\ listing x = Some (t, pid))) \/
  (pid = 0x1FFF /\ exists x t, In x h /\ listing x = Some (t, pid)).

(** Reasons to stop. *)
Definition over (h : history) : Prop :=
  (exists x, In x h /\ missing x = true) \/
  (exists x t l, In x h /\ a_tot x = Some t /\ limit = Some l /\ l <= t).

(** The PAT sent in place of the one received. *)
Definition only_service (t : pat) (pmt_pid : Z) : pat :=
  mkPat (pat_tsid t) (pat_version t) (filter (fun e => fst e =? 0) (pat_entries t) ++ [(sid, pmt_pid)]).

(** [heard h p h']: [h'] is the history once the tables of [p] are heard;
    [stage] numbers the demultiplexer. *)
Definition heard (stage : nat) (h : history) (p : packet) (h' : history) : Prop :=
  (listens h (p_pid p) /\ h' = rev (map (fun t => (p_pid p, tb_body t)) (p_tabs p stage)) ++ h) \/
  (~ listens h (p_pid p) /\ h' = h).

(** What is done with a packet, [h] including its own tables. *)
Inductive action := Skip | Send (q : packet) | Stop | Crash (f : fault).

Inductive decide (h : history) (p : packet) : action -> Prop :=
| D_throw : limit = None -> (exists x t, In x h /\ a_tot x = Some t) -> decide h p (Crash Uncaught)
| D_stop : (limit = None -> forall x, In x h -> a_tot x = None) -> over h -> decide h p Stop
| D_skip : (limit = None -> forall x, In x h -> a_tot x = None) -> ~ over h ->
    ~ wanted h (p_pid p) -> decide h p Skip
| D_pat : forall t pmt_pid, (limit = None -> forall x, In x h -> a_tot x = None) -> ~ over h ->
    wanted h (p_pid p) -> p_pid p = 0 -> latest listing h = Some (t, pmt_pid) ->
    decide h p (Send (gen_pat p (only_service t pmt_pid)))
| D_no_pat : (limit = None -> forall x, In x h -> a_tot x = None) -> ~ over h ->
    wanted h (p_pid p) -> p_pid p = 0 -> latest listing h = None -> decide h p (Crash AssertFail)
| D_null : (limit = None -> forall x, In x h -> a_tot x = None) -> ~ over h ->
    wanted h (p_pid p) -> p_pid p = 0x1FFF -> decide h p (Crash AssertFail)
| D_send : (limit = None -> forall x, In x h -> a_tot x = None) -> ~ over h ->
    wanted h (p_pid p) -> p_pid p <> 0 -> p_pid p <> 0x1FFF -> decide h p (Send p).

(** A whole input in front of a downstream sink [k] in state [d]: the packets
    sent downstream (the last one may have been refused), how it ends, the final
    history and the final downstream state. *)
Inductive ending := Exhausted | Stopped | Refused | Crashed (f : fault).

Inductive filtered (stage : nat) (k : sink packet) :
  history -> sk_state k -> list packet -> list packet -> ending -> history -> sk_state k -> Prop :=
| F_nil : forall h d, filtered stage k h d [] [] Exhausted h d
| F_skip : forall h d p h' ps out e he de, heard stage h p h' -> decide h' p Skip ->
    filtered stage k h' d ps out e he de -> filtered stage k h d (p :: ps) out e he de
| F_send : forall h d p h' q d' ps out e he de, heard stage h p h' -> decide h' p (Send q) ->
    sk_handle k d q = Ok (d', true) ->
    filtered stage k h' d' ps out e he de -> filtered stage k h d (p :: ps) (q :: out) e he de
| F_refused : forall h d p h' q d' ps, heard stage h p h' -> decide h' p (Send q) ->
    sk_handle k d q = Ok (d', false) -> filtered stage k h d (p :: ps) [q] Refused h' d'
| F_sink_crash : forall h d p h' q f ps, heard stage h p h' -> decide h' p (Send q) ->
    sk_handle k d q = Fail f -> filtered stage k h d (p :: ps) [q] (Crashed f) h' d
| F_stop : forall h d p h' ps, heard stage h p h' -> decide h' p Stop ->
    filtered stage k h d (p :: ps) [] Stopped h' d
| F_crash : forall h d p h' f ps, heard stage h p h' -> decide h' p (Crash f) ->
    filtered stage k h d (p :: ps) [] (Crashed f) h' d.

(** The history after some packets, none of which stops the command. *)
Inductive listened (stage : nat) : history -> list packet -> history -> Prop :=
| L_nil : forall h, listened stage h [] h
| L_cons : forall h p h1 ps h2, heard stage h p h1 -> listened stage h1 ps h2 -> listened stage h (p :: ps) h2.

(** What upsets the command: a TOT when there is no time limit; a null packet that
    is wanted; a packet of PID 0 that is wanted before any PAT lists the service. *)
Definition upset (h : history) (p : packet) : Prop :=
  (limit = None /\ exists x t, In x h /\ a_tot x = Some t) \/
  (~ over h /\ wanted h (p_pid p) /\ (p_pid p = 0x1FFF \/ (p_pid p = 0 /\ latest listing h = None))).

(** The exit code, given the one of the downstream sink: 1 instead of 0 if a PAT
    without the service was heard. *)
Definition exit_code (h : history) (downstream code : Z) : Prop :=
  (downstream = 0 /\ (exists x, In x h /\ missing x = true) /\ code = 1) \/
  (~ (downstream = 0 /\ exists x, In x h /\ missing x = true) /\ code = downstream).

End Filter.

(** The output is the input with packets removed, PAT packets replaced by PAT
    packets that list only the service, and all else unchanged. *)
Definition stands_for (sid : Z) (p q : packet) : Prop :=
  (p_pid p <> 0 /\ q = p) \/
  (p_pid p = 0 /\ exists t pmt_pid, q = gen_pat p t /\
     filter (fun e => negb (fst e =? 0)) (pat_entries t) = [(sid, pmt_pid)]).

Inductive thinned (sid : Z) : list packet -> list packet -> Prop :=
| T_nil : forall ps, thinned sid ps []
| T_drop : forall p ps out, thinned sid ps out -> thinned sid (p :: ps) out
| T_keep : forall p q ps out, stands_for sid p q -> thinned sid ps out -> thinned sid (p :: ps) (q :: out).

(** Tables that cannot upset the filter: no PID of the service's tables is 0x1FFF,
    no PCR, ECM, EMM or stream PID is 0, and without a time limit a TOT comes
    only on its own PID 0x14, which is not the PMT PID. *)
Definition tame (sid : Z) (limit : option Z) (x : Z * body) : Prop :=
  match snd x with
  | TPat (Some t) => forall pid, pmt_pid_of sid t = Some pid -> pid <> 0x1FFF /\ pid <> 0x14
  | TPmt (Some t) => forall pid, (pid = pmt_pcr_pid t \/ In pid (pmt_ca_pids t) \/ In pid (map fst (pmt_entries t))) ->
      pid <> 0 /\ pid <> 0x1FFF
  | TCat (Some t) => forall pid, In pid (cat_ca_pids t) -> pid <> 0 /\ pid <> 0x1FFF
  | TTot (Some _) => limit <> None \/ fst x = 0x14
  | _ => True
  end.

(** The packets in a list of calls. *)
Fixpoint sent {P} (log : list (call P)) : list P :=
  match log with
  | [] => []
  | CPacket p _ :: r => p :: sent r
  | _ :: r => sent r
  end.
