(** Programs that stand between a source and a sink: for each packet they hand a
    list of packets to the sink, up to the first one it refuses, and then go on,
    stop or crash. *)
From Coq Require Import ZArith List Bool.
From Verif Require Import Base.Outcome Model.Sink.
Import ListNotations.
Open Scope Z_scope.

Inductive verdict := Go | Halt | Boom (f : fault).
Inductive ending := AtEnd | Halted | Refused | Crashed (f : fault).

(** Handing packets to a sink: the packets handed (the last one may have been
    refused), the new state and whether all were accepted. *)
Fixpoint hand {P} (k : sink P) (d : sk_state k) (qs : list P) : list P * res (sk_state k * bool) :=
  match qs with
  | [] => ([], Ok (d, true))
  | q :: r =>
      match sk_handle k d q with
      | Ok (d1, true) => let (out, x) := hand k d1 r in (q :: out, x)
      | Ok (d1, false) => ([q], Ok (d1, false))
      | Fail f => ([q], Fail f)
      end
  end.

Section Trans.
Context {P H : Type}.
(** [step h p qs v h']: with past [h], the packet [p] makes the program hand out
    [qs] and then proceed as [v]; the past is then [h']. *)
Variable step : H -> P -> list P -> verdict -> H -> Prop.

(** [trans k h d ps out e h' d']: on the input [ps], the packets [out] are handed
    to [k]; [e] tells how it ends. *)
Inductive trans (k : sink P) : H -> sk_state k -> list P -> list P -> ending -> H -> sk_state k -> Prop :=
| X_end : forall h d, trans k h d [] [] AtEnd h d
| X_go : forall h d p ps qs h' out d' out' e he de, step h p qs Go h' -> hand k d qs = (out, Ok (d', true)) ->
    trans k h' d' ps out' e he de -> trans k h d (p :: ps) (out ++ out') e he de
| X_halt : forall h d p ps qs h' out d', step h p qs Halt h' -> hand k d qs = (out, Ok (d', true)) ->
    trans k h d (p :: ps) out Halted h' d'
| X_boom : forall h d p ps qs f h' out d', step h p qs (Boom f) h' -> hand k d qs = (out, Ok (d', true)) ->
    trans k h d (p :: ps) out (Crashed f) h' d'
| X_refused : forall h d p ps qs v h' out d', step h p qs v h' -> hand k d qs = (out, Ok (d', false)) ->
    trans k h d (p :: ps) out Refused h' d'
| X_sink : forall h d p ps qs v h' out f, step h p qs v h' -> hand k d qs = (out, Fail f) ->
    trans k h d (p :: ps) out (Crashed f) h' d.

End Trans.
