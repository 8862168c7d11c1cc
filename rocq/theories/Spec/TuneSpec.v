(** Which PIDs a program listens to, when it follows the PMT of one service. *)
From Coq Require Import ZArith List Bool.
From Verif Require Import Model.Ts Spec.FilterSpec.
Import ListNotations.
Open Scope Z_scope.

(** [base] are the PIDs listened to from the beginning.  A PID that was the PMT
    PID and no longer is falls silent, even one of the base; 0x1FFF does not. *)
Definition tuned (base : list Z) (sid : Z) (h : history) (pid : Z) : Prop :=
  (exists t, latest (listing sid) h = Some (t, pid)) \/
  (In pid base /\ ~ (exists x t, In x h /\ listing sid x = Some (t, pid))) \/
  (pid = 0x1FFF /\ exists x t, In x h /\ listing sid x = Some (t, pid)).

(** The tables of a packet are heard, or not. *)
Definition delivered (base : list Z) (sid : Z) (stage : nat) (h : history) (p : packet) (ts : list table) : Prop :=
  (tuned base sid h (p_pid p) /\ ts = p_tabs p stage) \/ (~ tuned base sid h (p_pid p) /\ ts = []).
