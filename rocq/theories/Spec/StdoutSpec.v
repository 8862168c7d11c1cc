(** Write schedules and the bytes that should appear. *)
From Coq Require Import ZArith List.
From Verif Require Import Base.Outcome Base.Util Model.StdoutSink.
Import ListNotations.
Open Scope Z_scope.

(** write(2) accepts zero or more bytes, or fails. *)
Definition write_ok (w : write_result) : Prop :=
  match w with Wrote n => 0 <= n | WriteError => True end.
Definition no_error (w : write_result) : Prop :=
  match w with Wrote n => 0 <= n | WriteError => False end.

Definition is_prefix {A} (a b : list A) : Prop := exists c, b = a ++ c.

Definition is_packet (p : list Z) : Prop := zlen p = 188.

(** A write that takes the whole 16 KiB buffer or fails. *)
Definition all_or_nothing (w : write_result) : Prop :=
  match w with Wrote n => 16384 <= n | WriteError => True end.

(** HandlePacket for one packet after the other, until one is refused. *)
Fixpoint so_run (s : stdout_state) (ps : list (list Z)) : res (stdout_state * bool) :=
  match ps with
  | [] => Ok (s, true)
  | p :: r =>
      let* (s1, ok) := so_HandlePacket s p in
      if ok then so_run s1 r else Ok (s1, false)
  end.

(** [used] is what a piece of the run has consumed of the write results: without
    an error if it went well, ending with its first error otherwise. *)
Definition consumed (w w' : list write_result) (ok : bool) : Prop :=
  exists used, w = used ++ w' /\
    if ok then ~ In WriteError used else exists u, used = u ++ [WriteError] /\ ~ In WriteError u.

(** [puts w b o ok w']: writing [b] with write(2) until all of it is written
    ([ok]) or a call fails; [o] gets out, [w'] are the results left. *)
Inductive puts : list write_result -> list Z -> list Z -> bool -> list write_result -> Prop :=
| puts_done : forall w, puts w [] [] true w
| puts_free : forall b, b <> [] -> puts [] b b true []
| puts_error : forall w b, b <> [] -> puts (WriteError :: w) b [] false w
| puts_some : forall n w b o ok w', b <> [] -> puts w (zdrop n b) o ok w' -> puts (Wrote n :: w) b (ztake n b ++ o) ok w'.

(** [copies w bs o]: [bs] is written in blocks of 16384 bytes.  After a failure
    there is one more attempt with the whole block, and that is the end. *)
Inductive copies : list write_result -> list Z -> list Z -> Prop :=
| copies_last : forall w bs o ok w', zlen bs < 16384 -> puts w bs o ok w' -> copies w bs o
| copies_block : forall w bs o w1 o1, 16384 <= zlen bs -> puts w (ztake 16384 bs) o true w1 -> copies w1 (zdrop 16384 bs) o1 -> copies w bs (o ++ o1)
| copies_failed : forall w bs o w1 o1 ok w2, 16384 <= zlen bs -> puts w (ztake 16384 bs) o false w1 -> puts w1 (ztake 16384 bs) o1 ok w2 -> copies w bs (o ++ o1).
