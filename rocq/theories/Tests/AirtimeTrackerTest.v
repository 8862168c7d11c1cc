(** /repo/test/airtime_tracker_test.cc on the model; see TestBase.v. *)
From Coq Require Import ZArith List Bool.
From Verif Require Import Base.Outcome Base.Util Model.Pcr Model.Sink Model.Ts Model.AirtimeTracker Spec.FeedSpec Tests.TestBase.
Import ListNotations.
Open Scope Z_scope.

Definition run (o : at_option) : list packet -> option (Z * list airtime_doc * Z) :=
  outcome (at_sink o) at_init at_out.
Definition kOption : at_option := mkAtOption 0x0003 0x0004.

(** airtime_tracker_test.cc:15-26 *)
Example AirtimeTrackerTest_NoPacket : run kOption
    []
  = Some (EXIT_SUCCESS, [], 0).
Proof. vm_compute. reflexivity. Qed.

(** airtime_tracker_test.cc:28-58 *)
Example AirtimeTrackerTest_Present : run kOption
    [
      pk 0x0012 0 None [mkTable (TEit (Some (mkEit 0x0003 0x0002 0x0001 1 [mkEvent 0x0004 (UnixEpoch + 32400000) 1 0; mkEvent 0x0005 (UnixEpoch + 32401000) 3600 0]))) 0] ]
  = Some (EXIT_SUCCESS, [
      mkAirtimeDoc 1 2 3 4 0 1000 ], 0).
Proof. vm_compute. reflexivity. Qed.

(** airtime_tracker_test.cc:60-90 *)
Example AirtimeTrackerTest_Following : run kOption
    [
      pk 0x0012 0 None [mkTable (TEit (Some (mkEit 0x0003 0x0002 0x0001 1 [mkEvent 0x0003 (UnixEpoch + 32400000) 1 0; mkEvent 0x0004 (UnixEpoch + 32401000) 1 0]))) 0] ]
  = Some (EXIT_SUCCESS, [
      mkAirtimeDoc 1 2 3 4 1000 1000 ], 0).
Proof. vm_compute. reflexivity. Qed.

(** airtime_tracker_test.cc:92-153 *)
Example AirtimeTrackerTest_Changes : run kOption
    [
      pk 0x0012 0 None [mkTable (TEit (Some (mkEit 0x0003 0x0002 0x0001 1 [mkEvent 0x0003 (UnixEpoch + 32400000) 1 0; mkEvent 0x0004 (UnixEpoch + 32401000) 1 0]))) 0];
      pk 0x0012 1 None [mkTable (TEit (Some (mkEit 0x0003 0x0002 0x0001 2 [mkEvent 0x0003 (UnixEpoch + 32400000) 2 0; mkEvent 0x0004 (UnixEpoch + 32402000) 1 0]))) 1];
      pk 0x0012 3 None [mkTable (TEit (Some (mkEit 0x0003 0x0002 0x0001 3 [mkEvent 0x0004 (UnixEpoch + 32402000) 1 0; mkEvent 0x0005 (UnixEpoch + 32403000) 1 0]))) 2] ]
  = Some (EXIT_SUCCESS, [
      mkAirtimeDoc 1 2 3 4 1000 1000;
      mkAirtimeDoc 1 2 3 4 2000 1000;
      mkAirtimeDoc 1 2 3 4 2000 1000 ], 0).
Proof. vm_compute. reflexivity. Qed.

(** airtime_tracker_test.cc:155-181 *)
Example AirtimeTrackerTest_EitSidUnmatched : run kOption
    [
      pk 0x0012 0 None [mkTable (TEit (Some (mkEit 0x1000 0x0002 0x0001 1 [mkEvent 0x0003 (UnixEpoch + 32400000) 1 0; mkEvent 0x0004 (UnixEpoch + 32401000) 1 0]))) 0] ]
  = Some (EXIT_SUCCESS, [], 0).
Proof. vm_compute. reflexivity. Qed.

(** airtime_tracker_test.cc:183-209 *)
Example AirtimeTrackerTest_EventNotFound : run kOption
    [
      pk 0x0012 0 None [mkTable (TEit (Some (mkEit 0x0003 0x0002 0x0001 1 [mkEvent 0x1000 (UnixEpoch + 32400000) 1 0; mkEvent 0x2000 (UnixEpoch + 32401000) 1 0]))) 0] ]
  = Some (EXIT_SUCCESS, [], 0).
Proof. vm_compute. reflexivity. Qed.
