(** Specification vocabulary for PCR values: a PCR is a real count of 27 MHz
    ticks reduced modulo the 33-bit*300 cycle (ISO/IEC 13818-1). *)
From Coq Require Import ZArith List Bool.
Import ListNotations.
Open Scope Z_scope.

Definition pcr_cycle : Z := 2 ^ 33 * 300.

(** The PCR carried by the stream at real tick [t]. *)
Definition pcr_at (t : Z) : Z := t mod pcr_cycle.

(** Two instants are close when less than half a cycle apart. *)
Definition close (t1 t2 : Z) : Prop := 2 * Z.abs (t1 - t2) < pcr_cycle.

(** Ticks per millisecond and per second. *)
Definition ticks_per_ms : Z := 27000.
Definition ticks_per_s : Z := 27000000.

(** Forward distance on the PCR circle. *)
Definition pcr_ahead (from to : Z) : Z := (to - from) mod pcr_cycle.

(** Reading a decimal numeral, most significant digit first. *)
From Coq Require Import Ascii String.
Definition char_val (c : ascii) : Z := Z.of_nat (nat_of_ascii c) - 48.
Fixpoint read_dec_from (acc : Z) (s : string) : Z :=
  match s with
  | EmptyString => acc
  | String c r => read_dec_from (10 * acc + char_val c) r
  end.
Definition read_dec (s : string) : Z := read_dec_from 0 s.
Fixpoint all_digits (s : string) : Prop :=
  match s with
  | EmptyString => True
  | String c r => 0 <= char_val c <= 9 /\ all_digits r
  end.
