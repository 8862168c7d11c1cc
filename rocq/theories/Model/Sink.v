(** PacketSink and PacketSource: /repo/src/packet_sink.hh:14-29,
    /repo/src/packet_source.hh:17-51. *)
From Coq Require Import ZArith List Bool.
From Verif Require Import Base.Outcome Base.Util.
Import ListNotations.
Open Scope Z_scope.

(** stdlib.h *)
Definition EXIT_SUCCESS : Z := 0.
Definition EXIT_FAILURE : Z := 1.

(** packet_sink.hh:14-29: a sink is its state and its four virtual functions.
    [P] is the type of packets. *)
Record sink (P : Type) := mkSink {
  sk_state : Type;
  sk_start : sk_state -> res (sk_state * bool);
  sk_handle : sk_state -> P -> res (sk_state * bool);
  sk_end : sk_state -> res sk_state;
  sk_exit : sk_state -> res Z }.
Arguments mkSink {P}.
Arguments sk_state {P} s.
Arguments sk_start {P} s _.
Arguments sk_handle {P} s _ _.
Arguments sk_end {P} s _.
Arguments sk_exit {P} s _.

(** packet_source.hh:46: a source is its state and GetNextPacket. *)
Record source (P : Type) := mkSource {
  sr_state : Type;
  sr_next : sr_state -> res (sr_state * option P) }.
Arguments mkSource {P}.
Arguments sr_state {P} s.
Arguments sr_next {P} s _.

(** packet_source.hh:34-38: the while loop.  [None] means that [fuel] was not
    enough for the loop to end. *)
Fixpoint feed_loop {P} (src : source P) (snk : sink P) (fuel : nat)
    (x : sr_state src) (s : sk_state snk) : option (res (sk_state snk)) :=
  match fuel with
  | O => None
  | S fuel' =>
      match sr_next src x with
      | Fail f => Some (Fail f)
      | Ok (_, None) => Some (Ok s)
      | Ok (x1, Some p) =>
          match sk_handle snk s p with
          | Fail f => Some (Fail f)
          | Ok (s1, true) => feed_loop src snk fuel' x1 s1
          | Ok (s1, false) => Some (Ok s1)
          end
      end
  end.

(** packet_source.hh:26-43 FeedPackets.  The result is the exit code and the
    final sink state. *)
Definition FeedPackets {P} (src : source P) (snk : sink P) (fuel : nat)
    (x : sr_state src) (s : sk_state snk) : option (res (Z * sk_state snk)) :=
  match sk_start snk s with
  | Fail f => Some (Fail f)
  | Ok (s1, false) => Some (Ok (EXIT_FAILURE, s1))
  | Ok (s1, true) =>
      match feed_loop src snk fuel x s1 with
      | None => None
      | Some r => Some (
          let* s2 := r in
          let* s3 := sk_end snk s2 in
          let* code := sk_exit snk s3 in
          Ok (code, s3))
      end
  end.

(** A source that delivers a given list of packets. *)
Definition list_source (P : Type) : source P :=
  mkSource (list P) (fun l => match l with [] => Ok ([], None) | p :: r => Ok (r, Some p) end).
