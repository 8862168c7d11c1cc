(** PesPrinter with the readings of the wall clock that Clock::UpdateTime takes.
    Model/PesPrinter.v leaves them out (Props/WallProps.v, C93_print_pes, says
    why this is all the same).  Only what differs is given here. *)
From Coq Require Import ZArith List Bool.
From Verif Require Import Base.Outcome Base.Util Model.Pcr Model.Clock Model.Sink Model.Ts Model.PesPrinter.
Import ListNotations.
Open Scope Z_scope.

Section Wall.
(** What the [n]-th call of ts::Time::CurrentLocalTime() returns. *)
Variable local : nat -> Z.

(** pes_printer.hh:220-222 *)
Fixpoint pw_update_time (n : nat) (time : Z) (l : list (Z * clock)) : res (nat * list (Z * clock)) :=
  match l with
  | [] => Ok (n, [])
  | (pid, c) :: r =>
      let* c1 := ck_UpdateTime c time (local n) in
      let* x := pw_update_time (S n) time r in
      Ok (fst x, (pid, c1) :: snd x)
  end.

(** pes_printer.hh:210-223 HandleTot *)
Definition pw_HandleTot (s : nat * pp_state) (t : option Z) : res (nat * pp_state) :=
  match t with
  | None => Ok s
  | Some time =>
      let s1 := pp_put (snd s) [LTot time] in
      let* x := pw_update_time (fst s) time (pp_clocks s1) in
      Ok (fst x, mkPp (pp_pids s1) (pp_sids s1) (pp_pmt_pids s1) (snd x) (pp_streams s1) (pp_done s1) (pp_out s1))
  end.

(** pes_printer.hh:84-104 handleTable *)
Definition pw_handleTable (s : nat * pp_state) (pid : Z) (t : table) : res (nat * pp_state) :=
  match tb_body t with
  | TTot t => pw_HandleTot s t
  | _ => let* s1 := pp_handleTable (snd s) pid t in Ok (fst s, s1)
  end.

(** pes_printer.hh:31-63 HandlePacket *)
Definition pw_HandlePacket (s : nat * pp_state) (p : packet) : res ((nat * pp_state) * bool) :=
  let* s1 := pp_pcr (snd s) p in
  let* s2 := pp_pes s1 SPts (p_pid p) (p_pts p) in
  let* s3 := pp_pes s2 SDts (p_pid p) (p_dts p) in
  let* s4 := handle_tables pw_handleTable (fst s, s3) (p_pid p) (demux_feed (pp_pids s3) 0 p) in
  Ok (s4, negb (pp_done (snd s4))).

Definition pw_sink : sink packet :=
  mkSink (nat * pp_state) (fun s => Ok (s, true)) pw_HandlePacket (fun s => Ok s) (fun _ => Ok EXIT_SUCCESS).
End Wall.
