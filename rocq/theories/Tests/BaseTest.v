(** /repo/test/base_test.cc, tsduck_helper_test.cc, eit_collector_test.cc and
    logo_collector_test.cc on the model; see TestBase.v. *)
From Coq Require Import ZArith List Bool.
From Verif Require Import Base.Outcome Base.Util Model.Pcr Model.Clock Model.Sink Model.EitSection Model.EitCollector.
From Verif Require Import Model.Logo Spec.FeedSpec Tests.TestBase.
Import ListNotations.
Open Scope Z_scope.

(** Clock(ClockBaseline) after SetPid, SetPcr and SetTime(ts::Time()), a time that
    the model writes 0 (Clock.v); the local time is not looked at. *)
Definition clock_from (pcr : Z) (ops : list clock_op) : res clock :=
  let* b := bl_SetPcr (bl_SetPid baseline_init 0x100) pcr in
  ck_run (clock_of_baseline (bl_SetTime b 0)) ops.
Definition ready (r : res clock) : res bool := let* c := r in Ok (ck_IsReady c).
Definition now (r : res clock) : res Z := let* c := r in ck_Now c 0.

(** base_test.cc:7-21 *)
Example ClockTest_PcrWrapAround :
  let c := clock_from (kPcrUpperBound - kPcrTicksPerMs) in
  ready (c [OpPcr (kPcrUpperBound - kPcrTicksPerMs)]) = Ok true /\
  now (c [OpPcr (kPcrUpperBound - kPcrTicksPerMs)]) = Ok 0 /\
  now (c [OpPcr (kPcrUpperBound - kPcrTicksPerMs); OpPcr 0]) = Ok 1.
Proof. repeat split; vm_compute; reflexivity. Qed.

(** base_test.cc:23-49 *)
Example ClockTest_Invalidate :
  let c ops := clock_from 0 (OpPcr 0 :: ops) in
  let s := OpPcr kPcrTicksPerSec in
  ready (c []) = Ok true /\ now (c []) = Ok 0 /\
  ready (c [s]) = Ok true /\ ready (c [s; s]) = Ok true /\ ready (c [s; s; s]) = Ok true /\
  ready (c [s; s; s; s]) = Ok true /\ kPcrGapCountThreshold = 4 /\
  ready (c [s; s; s; s; s]) = Ok false /\
  ready (c [s; s; s; s; s; OpPcr 0]) = Ok false /\
  ready (c [s; s; s; s; s; OpPcr 0; OpTime 0 0]) = Ok true /\
  now (c [s; s; s; s; s; OpPcr 0; OpTime 0 0]) = Ok 0.
Proof. repeat split; vm_compute; reflexivity. Qed.

(** tsduck_helper_test.cc:6-14 *)
Example TsduckHelperTest_ConvertUnixTimeToJstTime : ConvertUnixTimeToJstTime 0 = Ok (UnixEpoch + kJstTzOffset).
Proof. vm_compute. reflexivity. Qed.
Example TsduckHelperTest_ConvertJstTimeToUnixTime : ConvertJstTimeToUnixTime (UnixEpoch + kJstTzOffset) = Ok 0.
Proof. vm_compute. reflexivity. Qed.

Definition with_events (data : list Z) : eit_section := mkEit 0 0 0 0 0 0 0 0 0 0 data (zlen data).

(** tsduck_helper_test.cc:16-39.  The expected start time shows that
    ts::DecodeMJD of five zeros is 1970-01-01. *)
Example TsduckHelperTest_MakeEventsJsonValue :
  MakeEventsJsonValue (fun b => match b with [0; 0; 0; 0; 0] => Some UnixEpoch | _ => None end)
    (with_events [0x00; 0x01; 0x00; 0x00; 0x00; 0x00; 0x00; 0x12; 0x34; 0x56; 0x00; 0x00])
  = Ok [mkEvent 1 (Some (-9 * 3600000)) (Some (12 * 3600000 + 34 * 60000 + 56000)) false []].
Proof. vm_compute. reflexivity. Qed.

(** tsduck_helper_test.cc:41-64 *)
Example TsduckHelperTest_MakeEventsJsonValue_UndefinedStartTimeAndDuration :
  MakeEventsJsonValue mjd (with_events [0x00; 0x01; 0xFF; 0xFF; 0xFF; 0xFF; 0xFF; 0xFF; 0xFF; 0xFF; 0x00; 0x00])
  = Ok [mkEvent 1 None None false []].
Proof. vm_compute. reflexivity. Qed.

(** eit_collector_test.cc.  All tests construct the collector with the default
    option (eit_collector.hh:23-30). *)
Definition kEmptyOption : eit_option := mkEitOption [] [] 30000 false true true.
Definition collect (ps : list (list delivery)) : option (Z * list eit_doc * Z) :=
  match ec_new kEmptyOption with
  | Ok s => outcome (eit_sink mjd kEmptyOption) s ec_out ps
  | Fail _ => None
  end.
Definition tot (s : Z) : list delivery := [DTot (Some (UnixEpoch + 1580860800000 + s * 1000))].

(** eit_collector_test.cc:16-27 *)
Example EitCollectorTest_NoPacket : collect [] = Some (EXIT_SUCCESS, [], 0).
Proof. vm_compute. reflexivity. Qed.
(** eit_collector_test.cc:29-51 *)
Example EitCollectorTest_TimedOut : collect [tot 0; tot 5] = Some (EXIT_SUCCESS, [], 0).
Proof. vm_compute. reflexivity. Qed.
(** eit_collector_test.cc:53-77 *)
Example EitCollectorTest_Streaming : collect [tot 0; tot 5; tot 10] = Some (EXIT_SUCCESS, [], 0).
Proof. vm_compute. reflexivity. Qed.

(** logo_collector_test.cc:9-20 *)
Example LogoCollectorTest_NoPacket : lg_run [] [] = Ok [].
Proof. vm_compute. reflexivity. Qed.
