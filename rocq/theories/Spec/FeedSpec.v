(** What a sink is allowed to see, stated on the list of calls it receives. *)
From Coq Require Import ZArith List Bool.
From Verif Require Import Base.Outcome Model.Sink.
Import ListNotations.
Open Scope Z_scope.

(** A call together with the sink's answer. *)
Inductive call (P : Type) :=
| CStart (ok : bool)
| CPacket (p : P) (ok : bool)
| CEnd
| CExit (code : Z).
Arguments CStart {P}. Arguments CPacket {P}. Arguments CEnd {P}. Arguments CExit {P}.

(** Any sink, instrumented to record its calls. *)
Definition logged {P} (k : sink P) : sink P :=
  mkSink (sk_state k * list (call P))
    (fun s => let* (s1, ok) := sk_start k (fst s) in Ok ((s1, snd s ++ [CStart ok]), ok))
    (fun s p => let* (s1, ok) := sk_handle k (fst s) p in Ok ((s1, snd s ++ [CPacket p ok]), ok))
    (fun s => let* s1 := sk_end k (fst s) in Ok (s1, snd s ++ [CEnd]))
    (fun s => sk_exit k (fst s)).

(** The protocol: Start; if it fails nothing else and exit code 1; otherwise a
    prefix of the packets, all accepted but possibly the last, and all of the
    packets if none was refused; then End once. *)
Inductive protocol {P} (ps : list P) : list (call P) -> Prop :=
| Proto_nostart : protocol ps [CStart false]
| Proto_all : protocol ps (CStart true :: map (fun p => CPacket p true) ps ++ [CEnd])
| Proto_refused : forall before p after, ps = before ++ p :: after ->
    protocol ps (CStart true :: map (fun p => CPacket p true) before ++ [CPacket p false; CEnd]).

(** None of the sink's functions fails. *)
Definition never_fails {P} (k : sink P) : Prop :=
  (forall s, exists r, sk_start k s = Ok r) /\ (forall s p, exists r, sk_handle k s p = Ok r) /\
  (forall s, exists r, sk_end k s = Ok r) /\ (forall s, exists r, sk_exit k s = Ok r).

(** Nor does it ever refuse. *)
Definition never_refuses {P} (k : sink P) : Prop :=
  (forall s s' b, sk_start k s = Ok (s', b) -> b = true) /\ (forall s p s' b, sk_handle k s p = Ok (s', b) -> b = true).
