(** A live input pauses: the results of the read calls so far are known, the next
    call has not returned yet, and nobody knows what it will return. *)
From Coq Require Import ZArith List Bool.
From Verif Require Import Base.Outcome Base.Util Model.Sink Model.FileSource Model.Commands.
Import ListNotations.
Open Scope Z_scope.

(** [loops src k x d x' d']: some turns of the loop of FeedPackets: each gets a
    packet and hands it to the sink, which accepts it. *)
Inductive loops {P} (src : source P) (k : sink P) : sr_state src -> sk_state k -> sr_state src -> sk_state k -> Prop :=
| L_here : forall x d, loops src k x d x d
| L_turn : forall x d x1 p d1 x2 d2, sr_next src x = Ok (x1, Some p) -> sk_handle k d p = Ok (d1, true) ->
    loops src k x1 d1 x2 d2 -> loops src k x d x2 d2.

(** Before any read call after [reads] is made, the sink has got to the state
    [d], whatever those later calls will return. *)
Definition by_then {P} (view : list (list Z) -> list Z -> P) (k : sink P) (reads : list read_result) (d0 d : sk_state k) : Prop :=
  forall later, exists d1 x h left, sk_start k d0 = Ok (d1, true) /\
    loops file_source (viewed view k) (fs_init (reads ++ later)) ([], d1) x (h, d) /\ fs_reads x = left ++ later.

(** The command ends by itself: it makes none of the later read calls. *)
Definition ends_anyway {R} (command : list read_result -> nat -> R) (reads : list read_result) (n : nat) : Prop :=
  forall later m, (n <= m)%nat -> command (reads ++ later) m = command reads n.

(** The sink refuses to start or refuses a packet. *)
Definition refuses {P} (k : sink P) (d0 : sk_state k) : Prop :=
  (exists d, sk_start k d0 = Ok (d, false)) \/ exists d p d', sk_handle k d p = Ok (d', false).

(** A sink that collects the packets. *)
Definition collects : sink (list Z) :=
  mkSink (list (list Z)) (fun s => Ok (s, true)) (fun s p => Ok (s ++ [p], true)) (fun s => Ok s) (fun _ => Ok 0).
