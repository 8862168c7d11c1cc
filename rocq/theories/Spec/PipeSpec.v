(** From the input file to standard output. *)
From Coq Require Import ZArith List Bool.
From Verif Require Import Base.Outcome Base.Util Model.Sink Model.Ts Model.ProgramFilter Spec.OptionSpec Spec.ProgramSpec.
Import ListNotations.
Open Scope Z_scope.

(** The packets that TSDuck makes of a list of 188-byte packets, [h] being the
    earlier ones, newest first. *)
Fixpoint views {P} (view : list (list Z) -> list Z -> P) (h : list (list Z)) (bs : list (list Z)) : list P :=
  match bs with
  | [] => []
  | b :: r => view h b :: views view (b :: h) r
  end.

(** A sink that takes everything and does nothing. *)
Definition anything : sink packet :=
  mkSink unit (fun s => Ok (s, true)) (fun s _ => Ok (s, true)) Ok (fun _ => Ok 0).

(** The PID in the header of a packet. *)
Definition pid_bytes (b : list Z) : Z :=
  match b with
  | _ :: x :: y :: _ => (x mod 32) * 256 + y
  | _ => -1
  end.

Definition is_byte (x : Z) : Prop := 0 <= x < 256.
Definition ts_packet (b : list Z) : Prop := zlen b = 188 /\ Forall is_byte b.

(** TSDuck does not change the bytes of a packet, reads the PID from its header,
    and every packet it makes has 188 bytes. *)
Definition faithful (view : list (list Z) -> list Z -> packet) (bytes : packet -> list Z) : Prop :=
  (forall h b, ts_packet b -> bytes (view h b) = b) /\ (forall h b, ts_packet b -> p_pid (view h b) = pid_bytes b) /\
  (forall p, zlen (bytes p) = 188).

(** Some of the packets [bs] are dropped; those with PID 0 are replaced by packets
    of the same size; nothing else is changed. *)
Inductive kept : list (list Z) -> list (list Z) -> Prop :=
| K_none : forall bs, kept bs []
| K_drop : forall b bs out, kept bs out -> kept (b :: bs) out
| K_keep : forall b bs out, pid_bytes b <> 0 -> kept bs out -> kept (b :: bs) (b :: out)
| K_pat : forall b q bs out, pid_bytes b = 0 -> zlen q = 188 -> kept bs out -> kept (b :: bs) (q :: out).

(** filter-program's exit code before the service filter's: 222 if it gave up
    before it began. *)
Definition program_code (o : ProgramFilter.program_filter_option) (h : past) : Z := if given_up o h && negb (begun h) then 222 else 0.

(** The ids given with an option, or none. *)
Definition ids_given (arg : option (list (list Z))) (ns : list Z) : Prop :=
  match arg with
  | None => ns = []
  | Some strs => Forall2 numeral strs ns /\ Forall (fun n => n <= 65535) ns
  end.
