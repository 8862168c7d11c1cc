(** ClockBaseline and Clock: /repo/src/base.hh:68-264. *)
From Coq Require Import ZArith List Bool.
From Verif Require Import Base.Outcome Base.Util Model.Pcr.
Import ListNotations.
Open Scope Z_scope.

(** ts::PID_NULL *)
Definition PID_NULL : Z := 0x1FFF.

(** base.hh:140-144: the members of ClockBaseline. *)
Record baseline := mkBaseline {
  bl_time : Z;
  bl_pcr : Z;
  bl_pid : Z;
  bl_pcr_ready : bool;
  bl_time_ready : bool }.

(** base.hh:70, 140-144: default construction (0 stands for ts::Time()). *)
Definition baseline_init : baseline := mkBaseline 0 0 PID_NULL false false.

(** base.hh:109-111 ClockBaseline::IsReady *)
Definition bl_IsReady (b : baseline) : bool := bl_pcr_ready b && bl_time_ready b.

(** base.hh:105-107 ClockBaseline::HasPid *)
Definition bl_HasPid (b : baseline) : bool := negb (bl_pid b =? PID_NULL).

(** base.hh:88-92 ClockBaseline::PcrToTime (C++ division truncates). *)
Definition bl_PcrToTime (b : baseline) (pcr : Z) : res Z :=
  assert (bl_IsReady b) (
  let delta_ms := Z.quot (pcr - bl_pcr b) kPcrTicksPerMs in
  i64 (bl_time b + delta_ms)).

(** base.hh:98-100, program_filter.hh:554-556: [while (pcr < 0) pcr += kPcrUpperBound].
    The loop body is iterated at most [|pcr| / kPcrUpperBound + 1] times; leaving
    with a value that is still negative would be reported as [None]. *)
Definition while_neg (pcr : Z) : option Z :=
  let fuel := Z.to_pos (Z.abs pcr / kPcrUpperBound + 1) in
  let r := Pos.iter (fun p => if p <? 0 then p + kPcrUpperBound else p) pcr fuel in
  if r <? 0 then None else Some r.

(** base.hh:94-103 ClockBaseline::TimeToPcr *)
Definition bl_TimeToPcr (b : baseline) (time : Z) : res Z :=
  assert (bl_IsReady b) (
  let* ms := i64 (time - bl_time b) in
  let* ticks := i64 (ms * kPcrTicksPerMs) in
  let* pcr := i64 (bl_pcr b + ticks) in
  match while_neg pcr with
  | None => Fail Undefined
  | Some pcr => assert (0 <=? pcr) (Ok (Z.rem pcr kPcrUpperBound))
  end).

(** base.hh:113-117 *)
Definition bl_SetPid (b : baseline) (pid : Z) : baseline :=
  mkBaseline (bl_time b) (bl_pcr b) pid false false.
(** base.hh:119-124 *)
Definition bl_SetPcr (b : baseline) (pcr : Z) : res baseline :=
  assert (IsValidPcr pcr) (Ok (mkBaseline (bl_time b) pcr (bl_pid b) true (bl_time_ready b))).
(** base.hh:126-130 *)
Definition bl_SetTime (b : baseline) (time : Z) : baseline :=
  mkBaseline time (bl_pcr b) (bl_pid b) (bl_pcr_ready b) true.
(** base.hh:132-135 *)
Definition bl_Invalidate (b : baseline) : baseline :=
  mkBaseline (bl_time b) (bl_pcr b) (bl_pid b) false false.

(** base.hh:258-263: the members of Clock. *)
Record clock := mkClock {
  ck_baseline : baseline;
  ck_local : Z;              (* baseline_local_time_ *)
  ck_last_pcr : Z;
  ck_gap_count : Z;          (* uint8_t *)
  ck_ready : bool;
  ck_wrap : bool }.

(** base.hh:151 Clock() *)
Definition clock_init : clock := mkClock baseline_init 0 0 0 false false.
(** base.hh:153 Clock(const ClockBaseline&) *)
Definition clock_of_baseline (b : baseline) : clock := mkClock b 0 0 0 false false.

(** base.hh:149 *)
Definition kPcrGapCountThreshold : Z := 4.

(** base.hh:165-167 *)
Definition ck_IsReady (c : clock) : bool := ck_ready c && bl_IsReady (ck_baseline c).

(** base.hh:169-182 Clock::Now; [local] is what ts::Time::CurrentLocalTime()
    returns. *)
Definition ck_Now (c : clock) (local : Z) : res Z :=
  if ck_IsReady c then
    if ck_wrap c then
      let last_pcr := ck_last_pcr c + kPcrUpperBound in
      assert (0 <? last_pcr) (bl_PcrToTime (ck_baseline c) last_pcr)
    else bl_PcrToTime (ck_baseline c) (ck_last_pcr c)
  else
    let* delta := i64 (local - ck_local c) in
    i64 (bl_time (ck_baseline c) + delta).

(** base.hh:184-187 *)
Definition ck_SetPid (c : clock) (pid : Z) : clock :=
  mkClock (bl_SetPid (ck_baseline c) pid) (ck_local c) (ck_last_pcr c) (ck_gap_count c) false (ck_wrap c).

(** base.hh:253-256 SyncPcr *)
Definition ck_SyncPcr (c : clock) : res clock :=
  let* b := bl_SetPcr (ck_baseline c) (ck_last_pcr c) in
  Ok (mkClock b (ck_local c) (ck_last_pcr c) (ck_gap_count c) (ck_ready c) false).

(** base.hh:189-195 *)
Definition ck_UpdateTime (c : clock) (time local : Z) : res clock :=
  let c1 := mkClock (bl_SetTime (ck_baseline c) time) local (ck_last_pcr c) (ck_gap_count c) (ck_ready c) (ck_wrap c) in
  if ck_ready c1 then ck_SyncPcr c1 else Ok c1.

(** base.hh:246-251 *)
Definition ck_Invalidate (c : clock) : clock :=
  mkClock (bl_Invalidate (ck_baseline c)) (ck_local c) 0 (ck_gap_count c) false false.

(** base.hh:239-244 ComputeDelta *)
Definition ComputeDelta (pcr base_pcr : Z) : Z :=
  if pcr <? base_pcr then kPcrUpperBound - base_pcr + pcr else pcr - base_pcr.

(** base.hh:217-226: the tail of Clock::UpdatePcr. *)
Definition ck_accept (c : clock) (pcr gap_count : Z) : res clock :=
  let wrap := if pcr <? ck_last_pcr c then true else ck_wrap c in
  let c1 := mkClock (ck_baseline c) (ck_local c) pcr gap_count true wrap in
  if bl_IsReady (ck_baseline c1) then Ok c1 else ck_SyncPcr c1.

(** base.hh:197-227 Clock::UpdatePcr; [pcr_gap_count_++] wraps at 256. *)
Definition ck_UpdatePcr (c : clock) (pcr : Z) : res clock :=
  assert (IsValidPcr pcr) (
  if ck_IsReady c then
    let gap := ComputeDelta pcr (ck_last_pcr c) in
    assert (0 <=? gap) (
    if kPcrTicksPerSec <=? gap then
      let n := u8 (ck_gap_count c + 1) in
      let c1 := mkClock (ck_baseline c) (ck_local c) (ck_last_pcr c) n (ck_ready c) (ck_wrap c) in
      if n <=? kPcrGapCountThreshold then Ok c1 else Ok (ck_Invalidate c1)
    else ck_accept c pcr 0)
  else ck_accept c pcr (ck_gap_count c)).

(** base.hh:229-231 *)
Definition ck_TimeToPcr (c : clock) (time : Z) : res Z := bl_TimeToPcr (ck_baseline c) time.

(** base.hh:233-236 *)
Definition ck_PcrToTime (c : clock) (pcr : Z) : res Z :=
  assert (IsValidPcr pcr) (bl_PcrToTime (ck_baseline c) pcr).

(** The public mutators, as operations. *)
Inductive clock_op :=
| OpSetPid (pid : Z)
| OpTime (time local : Z)
| OpPcr (pcr : Z).

Definition ck_step (c : clock) (op : clock_op) : res clock :=
  match op with
  | OpSetPid pid => Ok (ck_SetPid c pid)
  | OpTime time local => ck_UpdateTime c time local
  | OpPcr pcr => ck_UpdatePcr c pcr
  end.

Fixpoint ck_run (c : clock) (ops : list clock_op) : res clock :=
  match ops with
  | [] => Ok c
  | op :: r => let* c1 := ck_step c op in ck_run c1 r
  end.
