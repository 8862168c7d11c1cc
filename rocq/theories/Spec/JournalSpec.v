(** Every message of record-service, with what it says about the event, the time
    and the position. *)
From Coq Require Import ZArith List Bool.
From Verif Require Import Base.Outcome Base.Util Model.Clock Model.Ts Model.ServiceRecorder
  Spec.ClockSpec Spec.FilterSpec Spec.RecorderSpec.
Import ListNotations.
Open Scope Z_scope.

(** Times of day are Japanese times in milliseconds since 1858-11-17, which is
    40587 days before 1970-01-01; time stamps are Unix times. *)
Definition stamp (time : Z) : Z := time - 40587 * 86400000 - 9 * 3600000.

(** The present event of an EIT, and when it ends, if that is known. *)
Definition present (t : eit) : option event := hd_error (eit_events t).
Definition ends_at (t : eit) : option Z :=
  match present t with
  | Some e => if 0 <? ev_duration e then Some (ev_start e + 1000 * ev_duration e) else None
  | None => None
  end.
Definition other_event (a b : eit) : bool :=
  match present a, present b with
  | Some x, Some y => negb (ev_id x =? ev_id y)
  | _, _ => false
  end.

(** A message about the present event of [t]. *)
Definition about (k : kind) (t : eit) (time pos : Z) : list message :=
  match present t with
  | Some e => [MEvent k (eit_onid t) (eit_tsid t) (eit_sid t) e (stamp time) pos]
  | None => []
  end.

(** What a recording knows: the EIT in force, whether its event is being
    recorded, and the time and position of the last boundary between events. *)
Record desk := mkDesk { d_eit : eit; d_running : bool; d_since : Z * Z }.

(** At a packet, received at the time [now] and to be recorded at [pos]; [news]
    is the last EIT of the service among its tables.  An EIT naming another event
    ends the running event and starts the new one, here and now; when no event is
    running, the new one starts where the last one ended.  A running event also
    ends when its end time has come; it has then ended at that time. *)
Definition turn (d : desk) (news : option eit) (now pos : Z) : list message * desk :=
  let t := match news with Some t => t | None => d_eit d end in
  if other_event (d_eit d) t then
    if d_running d then (about KEnd (d_eit d) now pos ++ about KStart t now pos, mkDesk t true (now, pos))
    else (about KStart t (fst (d_since d)) (snd (d_since d)), mkDesk t true (d_since d))
  else
    match (if d_running d then ends_at t else None) with
    | Some z => if z <=? now then (about KEnd t z pos, mkDesk t false (z, pos)) else ([], mkDesk t true (d_since d))
    | None => ([], mkDesk t (d_running d) (d_since d))
    end.

Section Journal.
Variables (sid : Z) (stage : nat).
(** The readings of the wall clock, by number, and the contents of packets. *)
Variable local : nat -> Z.
Variable bytes : packet -> list Z.
(** Chunk size, ring size, start position. *)
Variables cs ring start : Z.

(** The time told by the stream clock after the calls [ops], when the wall clock
    shows [wall]; see C04 and C57. *)
Definition tells (ops : list clock_op) (wall now : Z) : Prop :=
  exists c, ck_run clock_init ops = Ok c /\ ck_Now c wall = Ok now.

(** Noting tables, with [n] the number of readings of the wall clock so far. *)
Definition clock_call (h : history) (n : nat) (x : Z * body) : list clock_op :=
  match service_pmt sid x, snd x with
  | Some m, _ => if (clock_pid sid h =? 0x1FFF) || negb (clock_pid sid h =? pmt_pcr_pid m) then [OpSetPid (pmt_pcr_pid m)] else []
  | _, TTot (Some t) => [OpTime t (local n)]
  | _, _ => []
  end.
Fixpoint heed (h : history) (n : nat) (ops : list clock_op) (pid : Z) (ts : list table) : history * nat * list clock_op :=
  match ts with
  | [] => (h, n, ops)
  | t :: r =>
      let x := (pid, tb_body t) in
      let l := clock_call h n x in
      heed (x :: h) (n + List.length (filter is_time l)) (ops ++ l) pid r
  end.

(** The past after a packet. *)
Definition after (h : history) (n : nat) (ops : list clock_op) (p : packet) (ts : list table) (h' : history) (n' : nat) (ops' : list clock_op) : Prop :=
  hears sid stage h p ts /\ heed h n (ops ++ clock_packet sid h p) (p_pid p) ts = (h', n', ops').

(** The EIT of the service that came last with a packet. *)
Definition news (p : packet) (ts : list table) : option eit :=
  latest (service_eit sid) (rev (map (fun t => (p_pid p, tb_body t)) ts)).

(** A chunk completed: an update of the running event, and the chunk message;
    both with the time now and the position after the chunk. *)
Definition chunk_messages (d : desk) (now w : Z) : list message :=
  let q := (start + cs * (w / cs)) mod ring in
  (if d_running d then about KUpdate (d_eit d) now q else []) ++ [MChunk (stamp now) q].

(** [recording h n ops d w ps ms ok]: after [w] bytes recorded, the packets [ps]
    bring the messages [ms]; not [ok]: a packet was refused, and nothing follows. *)
Inductive recording : history -> nat -> list clock_op -> desk -> Z -> list packet -> list message -> bool -> Prop :=
| J_end : forall h n ops d w, recording h n ops d w [] [] true
| J_packet : forall h n ops d w p ps ts h' n' ops' now d' ms ms' ok,
    after h n ops p ts h' n' ops' -> tells ops' (local n') now ->
    turn d (news p ts) now ((start + w) mod ring) = (ms, d') ->
    (w + zlen (bytes p)) / cs = w / cs ->
    recording h' (S n') ops' d' (w + zlen (bytes p)) ps ms' ok ->
    recording h n ops d w (p :: ps) (ms ++ ms') ok
| J_chunk : forall h n ops d w p ps ts h' n' ops' now now2 d' ms ms' ok,
    after h n ops p ts h' n' ops' -> tells ops' (local n') now -> tells ops' (local (S n')) now2 ->
    turn d (news p ts) now ((start + w) mod ring) = (ms, d') ->
    (w + zlen (bytes p)) / cs <> w / cs ->
    recording h' (S (S n')) ops' d' (w + zlen (bytes p)) ps ms' ok ->
    recording h n ops d w (p :: ps) (ms ++ chunk_messages d' now2 (w + zlen (bytes p)) ++ ms') ok
| J_refused : forall h n ops d w p ps ts h' n' ops' now d' ms,
    after h n ops p ts h' n' ops' -> tells ops' (local n') now ->
    turn d (news p ts) now ((start + w) mod ring) = (ms, d') ->
    recording h n ops d w (p :: ps) ms false
| J_chunk_refused : forall h n ops d w p ps ts h' n' ops' now now2 d' ms,
    after h n ops p ts h' n' ops' -> tells ops' (local n') now -> tells ops' (local (S n')) now2 ->
    turn d (news p ts) now ((start + w) mod ring) = (ms, d') ->
    (w + zlen (bytes p)) / cs <> w / cs ->
    recording h n ops d w (p :: ps) (ms ++ chunk_messages d' now2 (w + zlen (bytes p))) false.

(** Until recording starts, at the end of the first packet with which the clock is
    ready and an EIT of the service known, there is no message.  Then come the
    first chunk message, and the start of the event unless it is already over. *)
Definition over (t : eit) (now : Z) : bool := match ends_at t with Some z => z <=? now | None => false end.

Inductive waiting : history -> nat -> list clock_op -> list packet -> list message -> bool -> Prop :=
| W_end : forall h n ops, waiting h n ops [] [] true
| W_wait : forall h n ops p ps ts h' n' ops' ms ok,
    after h n ops p ts h' n' ops' -> ~ ready sid h' ops' ->
    waiting h' n' ops' ps ms ok -> waiting h n ops (p :: ps) ms ok
| W_start : forall h n ops p ps ts h' n' ops' t now ms ok,
    after h n ops p ts h' n' ops' -> seen ops' true true -> latest (service_eit sid) h' = Some t ->
    tells ops' (local n') now ->
    recording h' (S n') ops' (mkDesk t (negb (over t now)) (now, start)) 0 ps ms ok ->
    waiting h n ops (p :: ps)
      (MChunk (stamp now) start :: (if over t now then [] else about KStart t now start) ++ ms) ok.

End Journal.
