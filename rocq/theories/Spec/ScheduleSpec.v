(** record-service and the schedule of a broadcaster: which messages start and end
    the programs, and where in the recording. *)
From Coq Require Import ZArith List Bool.
From Verif Require Import Base.Outcome Base.Util Model.Clock Model.Ts Model.ServiceRecorder
  Spec.ClockSpec Spec.FilterSpec Spec.RecorderSpec Spec.JournalSpec.
Import ListNotations.
Open Scope Z_scope.

(** The starts and ends of events in a list of messages: event ID, time stamp and
    position. *)
Definition mark : Type := kind * Z * Z * Z.
Fixpoint marks (ms : list message) : list mark :=
  match ms with
  | [] => []
  | MEvent KUpdate _ _ _ _ _ _ :: r => marks r
  | MEvent k _ _ _ e t p :: r => (k, ev_id e, t, p) :: marks r
  | _ :: r => marks r
  end.

(** What is heard with a packet: the last EIT of the service that came with it, if
    any, and the time told by the clock. *)
Definition moment : Type := option eit * Z.

Section Diary.
Variables (sid : Z) (stage : nat) (local : nat -> Z).
(** The chunk size. *)
Variable cs : Z.

(** [diary h n ops w ps log]: after [w] bytes recorded, with past [h] and [ops] and
    [n] readings of the wall clock, [log] is heard with the packets [ps].  The wall
    clock is read for every packet, and again when a chunk is completed. *)
Inductive diary : history -> nat -> list clock_op -> Z -> list packet -> list moment -> Prop :=
| D_end : forall h n ops w, diary h n ops w [] []
| D_packet : forall h n ops w p ps ts h' n' ops' now log,
    after sid stage local h n ops p ts h' n' ops' -> tells ops' (local n') now ->
    diary h' (if (w + 188) / cs =? w / cs then S n' else S (S n')) ops' (w + 188) ps log ->
    diary h n ops w (p :: ps) ((news sid p ts, now) :: log).

(** [begins h n ops ps t now log]: recording starts, with the EIT [t] in force, at
    the time [now], and then [log] is heard with the packets recorded. *)
Inductive begins : history -> nat -> list clock_op -> list packet -> eit -> Z -> list moment -> Prop :=
| B_wait : forall h n ops p ps ts h' n' ops' t now log,
    after sid stage local h n ops p ts h' n' ops' -> ~ ready sid h' ops' ->
    begins h' n' ops' ps t now log -> begins h n ops (p :: ps) t now log
| B_start : forall h n ops p ps ts h' n' ops' t now log,
    after sid stage local h n ops p ts h' n' ops' -> seen ops' true true -> latest (service_eit sid) h' = Some t ->
    tells ops' (local n') now -> diary h' (S n') ops' 0 ps log -> begins h n ops (p :: ps) t now log.
End Diary.

Section Schedule.
(** The programs, one after the other: their event IDs, and when they start; each
    ends when the next one starts. *)
Variable id : nat -> Z.
Variable at_ : nat -> Z.

Definition schedule : Prop := forall i, at_ i < at_ (S i) /\ id (S i) <> id i.
(** The EIT [t] announces the program [i] as the present event. *)
Definition names (i : nat) (t : eit) : Prop :=
  exists e, present t = Some e /\ ev_id e = id i /\ ev_start e = at_ i /\ 0 < ev_duration e /\ at_ i + 1000 * ev_duration e = at_ (S i).

(** [announced i log j]: with the EIT in force naming the program [i], the EITs in
    [log] name the programs up to [j], in order and none left out.  They may come
    before the program starts or later; but before it ends. *)
Inductive announced : nat -> list moment -> nat -> Prop :=
| A_end : forall i, announced i [] i
| A_none : forall i now r j, announced i r j -> announced i ((None, now) :: r) j
| A_same : forall i t now r j, names i t -> announced i r j -> announced i ((Some t, now) :: r) j
| A_next : forall i t now r j, names (S i) t -> now < at_ (S (S i)) -> announced (S i) r j -> announced i ((Some t, now) :: r) j.

Definition unannounced (i : nat) (x : option eit) : Prop := forall t, x = Some t -> ~ names i t.
(** Nothing that ends the program before [i]. *)
Definition quiet (i : nat) (x : moment) : Prop := snd x < at_ i /\ unannounced i (fst x).

Section Positions.
(** Start position and size of the ring. *)
Variables start ring : Z.

(** [edge log i time pos]: the boundary between program [i] and the one before it is
    at the first packet received when the program [i] had started, or with an EIT
    naming it; its time is that of the packet if the EIT came with this packet, or
    else the start of the program. *)
Inductive edge (log : list moment) (i : nat) : Z -> Z -> Prop :=
| Edge_news : forall (a : list moment) t now r, log = a ++ (Some t, now) :: r -> Forall (quiet i) a -> names i t ->
    edge log i now ((start + 188 * zlen a) mod ring)
| Edge_time : forall (a : list moment) x now r, log = a ++ (x, now) :: r -> Forall (quiet i) a -> unannounced i x -> at_ i <= now ->
    edge log i (at_ i) ((start + 188 * zlen a) mod ring).

(** What is reported of the programs [i] to [j], of which [i] has been started. *)
Inductive reported (log : list moment) : nat -> nat -> list mark -> Prop :=
| E_on : forall i, Forall (quiet (S i)) log -> reported log i i []
| E_over : forall i time pos, edge log (S i) time pos -> reported log i i [(KEnd, id i, stamp time, pos)]
| E_next : forall i j time pos l, edge log (S i) time pos -> reported log (S i) j l ->
    reported log i j ((KEnd, id i, stamp time, pos) :: (KStart, id (S i), stamp time, pos) :: l).
End Positions.
End Schedule.
