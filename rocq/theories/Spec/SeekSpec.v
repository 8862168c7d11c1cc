(** What seek-start outputs, as a function of the input. *)
From Coq Require Import ZArith List Bool.
From Verif Require Import Base.Util Model.Sink Model.Ts Model.StartSeeker Spec.PcrSpec Spec.FilterSpec Spec.TransSpec Spec.ProgramSpec.
Import ListNotations.
Open Scope Z_scope.

(** A sink in a state from which it accepts whatever comes. *)
Definition willing {P} (k : sink P) (d : sk_state k) : Prop :=
  forall qs, exists d1 d2 c, hand k d qs = (qs, Outcome.Ok (d1, true)) /\ sk_end k d1 = Outcome.Ok d2 /\ sk_exit k d2 = Outcome.Ok c.

(** Batches for a sink: each until the sink refuses. *)
Fixpoint hand_batches {P} (k : sink P) (d : sk_state k) (bs : list (list P)) : list P * Outcome.res (sk_state k) :=
  match bs with
  | [] => ([], Outcome.Ok d)
  | b :: bs =>
      match hand k d b with
      | (out, Outcome.Ok (d1, _)) => let (out1, r) := hand_batches k d1 bs in (out ++ out1, r)
      | (out, Outcome.Fail f) => (out, Outcome.Fail f)
      end
  end.

(** The tables heard, with the PID they came on, newest first. *)
Definition tables := list (Z * table).

Section Seek.
Variable o : start_seeker_option.
Variable stage : nat.

Definition bodies (h : tables) : history := map (fun x => (fst x, tb_body (snd x))) h.
Definition pmt_of (h : tables) : option pmt := latest (service_pmt (sso_sid o)) (bodies h).

(** The PIDs of the video (audio) streams. *)
Definition av_pids (f : stream -> bool) (m : pmt) (pid : Z) : Prop :=
  exists e, In (pid, e) (pmt_streams m) /\ f e = true.
(** The PMT [m] after [m0] has other video or audio streams; a PMT without any
    such stream before is not counted. *)
Definition changed_by (m0 m : pmt) : Prop :=
  exists f, (f = es_video \/ f = es_audio) /\ (exists pid, av_pids f m0 pid) /\ ~ (forall pid, av_pids f m0 pid <-> av_pids f m pid).
Definition changes (x : Z * table) (before : tables) : Prop :=
  exists m0 m, pmt_of before = Some m0 /\ service_pmt (sso_sid o) (fst x, tb_body (snd x)) = Some m /\ changed_by m0 m.

(** [transition h j]: the latest change was by a table that starts at packet [j]. *)
Inductive transition : tables -> Z -> Prop :=
| T_here : forall x r, changes x r -> transition (x :: r) (tb_first (snd x))
| T_before : forall x r j, ~ changes x r -> transition r j -> transition (x :: r) j.

(** Where the latest PAT with the service starts. *)
Definition pat_start (h : tables) : Z :=
  match latest (fun x => match listing (sso_sid o) (fst x, tb_body (snd x)) with Some _ => Some (tb_first (snd x)) | None => None end) h with
  | Some i => i
  | None => 0
  end.

(** The PCR of a packet if it belongs to the service (0x1FFF means no PCR). *)
Definition pcr_of (h : tables) (p : packet) : option Z :=
  match pmt_of h with
  | Some m => if negb (pmt_pcr_pid m =? 0x1FFF) && (p_pid p =? pmt_pcr_pid m) then p_pcr p else None
  | None => None
  end.

(** While there is no change: tables are heard on PID 0 and on the PMT PID. *)
Definition hears (h : tables) (p : packet) (ts : list table) : Prop :=
  TuneSpec.delivered [0] (sso_sid o) stage (bodies h) p ts.

Definition add (h : tables) (p : packet) (ts : list table) : tables := rev (map (fun t => (p_pid p, t)) ts) ++ h.

(** The whole input, or a PAT packet and then the input from another packet;
    [held] packets are held back until this is known. *)
Inductive outcome := Whole (held : Z) | Cut (pat from held : Z).

Definition held_of (r : outcome) : Z := match r with Whole n => n | Cut _ _ n => n end.

(** [seek h base n ps r]: [n] packets were held back, [base] is the first PCR
    among them. *)
Inductive seek : tables -> option Z -> Z -> list packet -> outcome -> Prop :=
| K_end : forall h base n, seek h base n [] (Whole n)
| K_found : forall h base n p ps ts j, hears h p ts -> transition (add h p ts) j -> 0 < j ->
    seek h base n (p :: ps) (Cut (pat_start (add h p ts)) j (n + 1))
| K_packets : forall h base n p ps ts, hears h p ts -> (forall j, ~ transition (add h p ts) j) ->
    sso_max_packets o <> 0 -> n + 1 = sso_max_packets o -> seek h base n (p :: ps) (Whole (n + 1))
| K_base : forall h n p ps ts v r, hears h p ts -> (forall j, ~ transition (add h p ts) j) ->
    n + 1 <> sso_max_packets o -> pcr_of (add h p ts) p = Some v ->
    seek (add h p ts) (Some v) (n + 1) ps r -> seek h None n (p :: ps) r
| K_duration : forall h b n p ps ts v, hears h p ts -> (forall j, ~ transition (add h p ts) j) ->
    n + 1 <> sso_max_packets o -> pcr_of (add h p ts) p = Some v ->
    reached v ((b + ticks_per_ms * sso_max_duration o) mod pcr_cycle) = true -> seek h (Some b) n (p :: ps) (Whole (n + 1))
| K_within : forall h b n p ps ts v r, hears h p ts -> (forall j, ~ transition (add h p ts) j) ->
    n + 1 <> sso_max_packets o -> pcr_of (add h p ts) p = Some v ->
    reached v ((b + ticks_per_ms * sso_max_duration o) mod pcr_cycle) = false ->
    seek (add h p ts) (Some b) (n + 1) ps r -> seek h (Some b) n (p :: ps) r
| K_other : forall h base n p ps ts r, hears h p ts -> (forall j, ~ transition (add h p ts) j) ->
    n + 1 <> sso_max_packets o -> pcr_of (add h p ts) p = None ->
    seek (add h p ts) base (n + 1) ps r -> seek h base n (p :: ps) r.

(** The output. *)
Definition seek_output (ps : list packet) (r : outcome) : list packet :=
  match r with
  | Whole _ => ps
  | Cut i j _ => match znth i ps with Some p => [p] | None => [] end ++ zdrop j ps
  end.
(** The output in batches: a refusal of the sink ends a batch, not the output. *)
Definition batches (ps : list packet) (r : outcome) : list (list packet) :=
  match r with
  | Whole n => [ztake n ps; zdrop n ps]
  | Cut i j n => [match znth i ps with Some p => [p] | None => [] end; zdrop j (ztake n ps); zdrop n ps]
  end.

(** Input in order: every usable PAT lists the service, PCRs are in range, and
    tables start at a packet up to the current one, on its PID; a PMT does not
    start at the very first packet. *)
Definition orderly (ps : list packet) : Prop :=
  forall n p, znth n ps = Some p ->
    (forall v, p_pcr p = Some v -> 0 <= v < pcr_cycle) /\
    (forall t, In t (p_tabs p stage) ->
       missing (sso_sid o) (p_pid p, tb_body t) = false /\
       0 <= tb_first t <= n /\ (exists q, znth (tb_first t) ps = Some q /\ p_pid q = p_pid p) /\
       (service_pmt (sso_sid o) (p_pid p, tb_body t) <> None -> 0 < tb_first t)).
(** The same without the first condition; the PMTs of the service do not come on
    PID 0. *)
Definition ordered (ps : list packet) : Prop :=
  forall n p, znth n ps = Some p ->
    (forall v, p_pcr p = Some v -> 0 <= v < pcr_cycle) /\
    (forall t, In t (p_tabs p stage) ->
       0 <= tb_first t <= n /\ (exists q, znth (tb_first t) ps = Some q /\ p_pid q = p_pid p) /\
       (service_pmt (sso_sid o) (p_pid p, tb_body t) <> None -> 0 < tb_first t /\ p_pid p <> 0)).
(** A usable PAT without the service is heard while there is no change. *)
Inductive loses : tables -> list packet -> Prop :=
| L_here : forall h p ps ts t, hears h p ts -> In t ts -> missing (sso_sid o) (p_pid p, tb_body t) = true -> loses h (p :: ps)
| L_later : forall h p ps ts, hears h p ts -> (forall j, ~ transition (add h p ts) j) -> loses (add h p ts) ps -> loses h (p :: ps).
Definition sane_seek : Prop := 0 <= sso_max_duration o < 2 ^ 44 /\ 0 <= sso_max_packets o.

End Seek.
