(** /repo/test/service_recorder_test.cc on the model; see TestBase.v. *)
From Coq Require Import ZArith List Bool.
From Verif Require Import Base.Outcome Base.Util Model.Pcr Model.Sink Model.Ts Model.RingFileSink Model.ServiceRecorder Spec.FeedSpec Tests.TestBase.
Import ListNotations.
Open Scope Z_scope.

(** Two chunks of two buffers.  The tests do not look at the bytes of the packets. *)
Definition kChunkSize : Z := kRingBufferSize * 2.
Definition kOption : recorder_option := mkRcOption 3 kChunkSize 2 0.
Definition bytes (p : packet) : list Z := repeat 0 188.

Definition messages (s : rec_state) : list message :=
  flat_map (fun x => match x with Msg m => [m] | Ring _ => [] end) (rc_trace s).

Definition run (ps : list packet) : option (Z * list message * Z) :=
  match rc_new kOption [] with
  | Ok s => outcome (recorder kOption (fun _ => 0) bytes 0) s messages ps
  | Fail _ => None
  end.

(** An event by its identifier, its start (Unix time, ms) and its duration (ms). *)
Definition event_of (id start duration : Z) : event := mkEvent id (UnixEpoch + start + 9 * MilliSecPerHour) (duration / 1000) 0.

(** The mock ring of the test EventProgress ends both chunks when it is given a
    packet of PID 0x0FFD; the ring of the model does so after 175 packets. *)
Definition fill : list packet := repeat (pk 0x0FFD 0 None []) 175.

(** service_recorder_test.cc:20-48 *)
Example ServiceRecorderTest_NoPacket : run
    []
  = Some (EXIT_SUCCESS, [
      MStart;
      MStop false ], 0).
Proof. vm_compute. reflexivity. Qed.

(** service_recorder_test.cc:50-137 *)
Example ServiceRecorderTest_EventStart : run
    [
      pk 0x0000 0 None [mkTable (TPat (Some (mkPat 0x0002 1 [(0x0003, 0x0101)]))) 0];
      pk 0x0101 0 None [mkTable (TPmt (Some (mkPmt 0x0003 1 0x0901 [] [(0x0301, video None)]))) 1];
      pk 0x0014 0 None [mkTable (TTot (Some (UnixEpoch + 1609459200000))) 2];
      pk 0x0901 0 (Some 0) [];
      pk 0x0012 0 None [mkTable (TEit (Some (mkEit 0x0003 0x0002 0x0001 1 [mkEvent 0x0004 (UnixEpoch + 1609459200000) 1 0; mkEvent 0x0005 (UnixEpoch + 1609459201000) 3600 0]))) 4];
      pk 0x0301 0 None [] ]
  = Some (EXIT_SUCCESS, [
      MStart;
      MChunk 1609426800000 0;
      MEvent KStart 1 2 3 (event_of 4 1609426800000 1000) 1609426800000 0;
      MStop false ], 0).
Proof. vm_compute. reflexivity. Qed.

(** service_recorder_test.cc:139-276 *)
Example ServiceRecorderTest_EventProgress : run
    ([
      pk 0x0000 0 None [mkTable (TPat (Some (mkPat 0x0002 1 [(0x0003, 0x0101)]))) 0];
      pk 0x0101 0 None [mkTable (TPmt (Some (mkPmt 0x0003 1 0x0901 [] [(0x0301, video None)]))) 1];
      pk 0x0014 0 None [mkTable (TTot (Some (UnixEpoch + 1609459200000))) 2];
      pk 0x0901 0 (Some 0) [];
      pk 0x0012 0 None [mkTable (TEit (Some (mkEit 0x0003 0x0002 0x0001 1 [mkEvent 0x0004 (UnixEpoch + 1609459200000) 1 0; mkEvent 0x0005 (UnixEpoch + 1609459201000) 3600 0]))) 4] ] ++ fill ++ [
      pk 0x0301 0 None [] ])
  = Some (EXIT_SUCCESS, [
      MStart;
      MChunk 1609426800000 0;
      MEvent KStart 1 2 3 (event_of 4 1609426800000 1000) 1609426800000 0;
      MEvent KUpdate 1 2 3 (event_of 4 1609426800000 1000) 1609426800000 16384;
      MChunk 1609426800000 16384;
      MEvent KUpdate 1 2 3 (event_of 4 1609426800000 1000) 1609426800000 0;
      MChunk 1609426800000 0;
      MStop false ], 0).
Proof. vm_compute. reflexivity. Qed.

(** service_recorder_test.cc:278-415 *)
Example ServiceRecorderTest_EventEnd : run
    [
      pk 0x0000 0 None [mkTable (TPat (Some (mkPat 0x0002 1 [(0x0003, 0x0101)]))) 0];
      pk 0x0101 0 None [mkTable (TPmt (Some (mkPmt 0x0003 1 0x0901 [] [(0x0301, video None)]))) 1];
      pk 0x0014 0 None [mkTable (TTot (Some (UnixEpoch + 1609459200000))) 2];
      pk 0x0901 0 (Some 0) [];
      pk 0x0012 0 None [mkTable (TEit (Some (mkEit 0x0003 0x0002 0x0001 1 [mkEvent 0x0004 (UnixEpoch + 1609459200000) 1 0; mkEvent 0x0005 (UnixEpoch + 1609459201000) 1 0]))) 4];
      pk 0x0901 0 (Some 1) [];
      pk 0x0301 0 None [];
      pk 0x0901 0 (Some 27000000) [];
      pk 0x0012 1 None [mkTable (TEit (Some (mkEit 0x0003 0x0002 0x0001 2 [mkEvent 0x0005 (UnixEpoch + 1609459201000) 1 0; mkEvent 0x0006 (UnixEpoch + 1609459202000) 1 0]))) 8] ]
  = Some (EXIT_SUCCESS, [
      MStart;
      MChunk 1609426800000 0;
      MEvent KStart 1 2 3 (event_of 4 1609426800000 1000) 1609426800000 0;
      MEvent KEnd 1 2 3 (event_of 4 1609426800000 1000) 1609426801000 376;
      MEvent KStart 1 2 3 (event_of 5 1609426801000 1000) 1609426801000 376;
      MStop false ], 0).
Proof. vm_compute. reflexivity. Qed.

(** service_recorder_test.cc:417-553 *)
Example ServiceRecorderTest_EventStartBeforeEventEnd : run
    [
      pk 0x0000 0 None [mkTable (TPat (Some (mkPat 0x0002 1 [(0x0003, 0x0101)]))) 0];
      pk 0x0101 0 None [mkTable (TPmt (Some (mkPmt 0x0003 1 0x0901 [] [(0x0301, video None)]))) 1];
      pk 0x0014 0 None [mkTable (TTot (Some (UnixEpoch + 1609459200000))) 2];
      pk 0x0901 0 (Some 0) [];
      pk 0x0012 0 None [mkTable (TEit (Some (mkEit 0x0003 0x0002 0x0001 1 [mkEvent 0x0004 (UnixEpoch + 1609459200000) 1 0; mkEvent 0x0005 (UnixEpoch + 1609459201000) 3600 0]))) 4];
      pk 0x0301 0 None [];
      pk 0x0012 1 None [mkTable (TEit (Some (mkEit 0x0003 0x0002 0x0001 2 [mkEvent 0x0006 (UnixEpoch + 1609459200000) 1 0; mkEvent 0x0007 (UnixEpoch + 1609459201000) 3600 0]))) 6] ]
  = Some (EXIT_SUCCESS, [
      MStart;
      MChunk 1609426800000 0;
      MEvent KStart 1 2 3 (event_of 4 1609426800000 1000) 1609426800000 0;
      MEvent KEnd 1 2 3 (event_of 4 1609426800000 1000) 1609426800000 188;
      MEvent KStart 1 2 3 (event_of 6 1609426800000 1000) 1609426800000 188;
      MStop false ], 0).
Proof. vm_compute. reflexivity. Qed.

(** service_recorder_test.cc:555-651 *)
Example ServiceRecorderTest_FirstEventAlreadyEnded : run
    [
      pk 0x0000 0 None [mkTable (TPat (Some (mkPat 0x0002 1 [(0x0003, 0x0101)]))) 0];
      pk 0x0101 0 None [mkTable (TPmt (Some (mkPmt 0x0003 1 0x0901 [] [(0x0301, video None)]))) 1];
      pk 0x0014 0 None [mkTable (TTot (Some (UnixEpoch + 1609459201000))) 2];
      pk 0x0901 0 (Some 0) [];
      pk 0x0012 0 None [mkTable (TEit (Some (mkEit 0x0003 0x0002 0x0001 1 [mkEvent 0x0004 (UnixEpoch + 1609459200000) 1 0; mkEvent 0x0005 (UnixEpoch + 1609459201000) 1 0]))) 4];
      pk 0x0301 0 None [];
      pk 0x0012 1 None [mkTable (TEit (Some (mkEit 0x0003 0x0002 0x0001 2 [mkEvent 0x0005 (UnixEpoch + 1609459201000) 1 0; mkEvent 0x0006 (UnixEpoch + 1609459202000) 1 0]))) 6] ]
  = Some (EXIT_SUCCESS, [
      MStart;
      MChunk 1609426801000 0;
      MEvent KStart 1 2 3 (event_of 5 1609426801000 1000) 1609426801000 0;
      MStop false ], 0).
Proof. vm_compute. reflexivity. Qed.

(** service_recorder_test.cc:653-793 *)
Example ServiceRecorderTest_UnspecifiedEventEnd : run
    [
      pk 0x0000 0 None [mkTable (TPat (Some (mkPat 0x0002 1 [(0x0003, 0x0101)]))) 0];
      pk 0x0101 0 None [mkTable (TPmt (Some (mkPmt 0x0003 1 0x0901 [] [(0x0301, video None)]))) 1];
      pk 0x0014 0 None [mkTable (TTot (Some (UnixEpoch + 1609459200000))) 2];
      pk 0x0901 0 (Some 0) [];
      pk 0x0012 0 None [mkTable (TEit (Some (mkEit 0x0003 0x0002 0x0001 1 [mkEvent 0x0004 (UnixEpoch + 1609459200000) 0 0; mkEvent 0x0005 (UnixEpoch + 1609459200000) 0 0]))) 4];
      pk 0x0301 0 None [];
      pk 0x0901 1 (Some 27000000) [];
      pk 0x0014 1 None [mkTable (TTot (Some (UnixEpoch + 1609459201000))) 7];
      pk 0x0301 1 None [];
      pk 0x0012 1 None [mkTable (TEit (Some (mkEit 0x0003 0x0002 0x0001 2 [mkEvent 0x0005 (UnixEpoch + 1609459200000) 0 0; mkEvent 0x0006 (UnixEpoch + 1609459200000) 0 0]))) 9] ]
  = Some (EXIT_SUCCESS, [
      MStart;
      MChunk 1609426800000 0;
      MEvent KStart 1 2 3 (event_of 4 1609426800000 0) 1609426800000 0;
      MEvent KEnd 1 2 3 (event_of 4 1609426800000 0) 1609426801000 752;
      MEvent KStart 1 2 3 (event_of 5 1609426800000 0) 1609426801000 752;
      MStop false ], 0).
Proof. vm_compute. reflexivity. Qed.
