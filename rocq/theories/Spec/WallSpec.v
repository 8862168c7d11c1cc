(** The wall clock of the machine, and what record-service makes of it. *)
From Coq Require Import ZArith List Bool.
From Verif Require Import Base.Outcome Base.Util Model.Clock Model.Ts Model.RingFileSink Model.ServiceRecorder Model.Main
  Spec.ClockSpec Spec.FilterSpec Spec.RecorderSpec.
Import ListNotations.
Open Scope Z_scope.

(** The same machine with another wall clock: the [n]-th reading gives [local n]. *)
Definition with_wall (sys : system) (local : nat -> Z) : system :=
  mkSystem (sy_path sys) (sy_fd sys) (sy_reads sys) (sy_writes sys) (sy_flushes sys) local (sy_file_fd sys) (sy_ops sys).

(** record-service is the only command whose output has times of its own. *)
Definition keeps_time (c : command) : Prop := match c with RecordService _ _ _ _ _ => True | _ => False end.

Section Wall.
Variables (sid : Z) (stage : nat).

(** [note] wants readings of the wall clock, which say nothing about when the
    stream clock is ready. *)
Definition still : nat -> Z := fun _ => 0.

(** The past after a packet. *)
Definition past (h : history) (ops : list clock_op) (p : packet) (h' : history) (ops' : list clock_op) : Prop :=
  exists ts, hears sid stage h p ts /\ note sid still h (ops ++ clock_packet sid h p) (p_pid p) ts = (h', ops').

(** The stream clock is ready after each of the packets. *)
Inductive steady : history -> list clock_op -> list packet -> Prop :=
| S_end : forall h ops, steady h ops []
| S_packet : forall h ops p ps h' ops', past h ops p h' ops' -> seen ops' true true -> steady h' ops' ps -> steady h ops (p :: ps).

(** The stream clock, once recording has started, does not stop being ready. *)
Inductive holds : history -> list clock_op -> list packet -> Prop :=
| H_end : forall h ops, holds h ops []
| H_wait : forall h ops p ps h' ops', past h ops p h' ops' -> ~ ready sid h' ops' -> holds h' ops' ps -> holds h ops (p :: ps)
| H_start : forall h ops p ps h' ops', past h ops p h' ops' -> ready sid h' ops' -> steady h' ops' ps -> holds h ops (p :: ps).

End Wall.

(** What is the same in two traces but for the time of events: the calls on the
    file, and the positions of the chunk messages. *)
Definition same_recording (a b : list entry) : Prop :=
  ring_calls a = ring_calls b /\ chunk_positions (messages a) = chunk_positions (messages b).
