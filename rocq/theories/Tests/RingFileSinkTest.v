(** /repo/test/ring_file_sink_test.cc on the model; see TestBase.v. *)
From Coq Require Import ZArith List Bool.
From Verif Require Import Base.Outcome Base.Util Model.Sink Model.FileSource Model.RingFileSink Spec.FeedSpec.
Import ListNotations.
Open Scope Z_scope.

Definition kNumChunks : Z := 2.
Definition kChunkSize : Z := kRingBufferSize * 2.
Definition kRingSize : Z := kChunkSize * kNumChunks.

(** The number of packets that reach a size. *)
Definition enough (size : Z) : Z := size / 188 + 1.

(** The calls, with the number of bytes in place of the bytes written. *)
Inductive seen :=
| Write (n : Z)
| FailedWrite
| Sync
| FailedSync
| Trunc (size : Z)
| FailedTrunc
| Seek (offset : Z)
| FailedSeek
| OnEndOfChunk (pos : Z).
Definition see (e : ring_event) : seen :=
  match e with
  | EvWrite bs => Write (zlen bs)
  | EvWriteFail => FailedWrite
  | EvSync => Sync
  | EvSyncFail => FailedSync
  | EvTrunc n => Trunc n
  | EvTruncFail => FailedTrunc
  | EvSeek n => Seek n
  | EvSeekFail => FailedSeek
  | EvNotify p => OnEndOfChunk p
  end.

(** The exit code and the calls made on the file and on the observer when [n]
    packets are fed, the sink starting at [start], the file operations having
    the results [ops] and succeeding when [ops] is used up. *)
Definition run (start : Z) (ops : list Z) (n : Z) : option (Z * list seen) :=
  match rg_session kChunkSize kNumChunks start ops (repeat (repeat 0xFF 188) (Z.to_nat n)) with
  | Ok (r, evs, _) => Some (rg_GetExitCode r, map see evs)
  | Fail _ => None
  end.

(** ring_file_sink_test.cc:29-38 *)
Example RingFileSinkTest_MaxValues :
  kMaxChunkSize = 0x7FFFE000 /\ kMaxNumChunks = 0x7FFFFFFF /\
  match rg_new kMaxChunkSize kMaxNumChunks [] with Ok r => rg_ring_size r = 0x3FFFEFFF80002000 | Fail _ => False end.
Proof. repeat split; vm_compute; reflexivity. Qed.
(** ring_file_sink_test.cc:40-61 *)
Example RingFileSinkTest_EmptyFile : run 0 [] 0 = Some (EXIT_SUCCESS, []).
Proof. vm_compute. reflexivity. Qed.
(** ring_file_sink_test.cc:63-88 *)
Example RingFileSinkTest_OnePacket : run 0 [] 1 = Some (EXIT_SUCCESS, []).
Proof. vm_compute. reflexivity. Qed.
(** ring_file_sink_test.cc:90-120 *)
Example RingFileSinkTest_ReachBufferSize :
  run 0 [] (enough kRingBufferSize) = Some (EXIT_SUCCESS, [Write kRingBufferSize]).
Proof. vm_compute. reflexivity. Qed.
(** ring_file_sink_test.cc:122-160 *)
Example RingFileSinkTest_ReachChunkSize :
  run 0 [] (enough kChunkSize)
  = Some (EXIT_SUCCESS, [Write kRingBufferSize; Write kRingBufferSize; Sync; OnEndOfChunk kChunkSize]).
Proof. vm_compute. reflexivity. Qed.
(** ring_file_sink_test.cc:162-233 *)
Example RingFileSinkTest_ReachRingSize :
  run 0 [] (enough kRingSize)
  = Some (EXIT_SUCCESS,
      [Write kRingBufferSize; Write kRingBufferSize; Sync; OnEndOfChunk kChunkSize;
       Write kRingBufferSize; Write kRingBufferSize; Sync; OnEndOfChunk kRingSize; Trunc kRingSize; Seek 0]).
Proof. vm_compute. reflexivity. Qed.
(** ring_file_sink_test.cc:235-261 *)
Example RingFileSinkTest_FailWriteInFlush :
  run 0 [-1] (enough kRingBufferSize) = Some (EXIT_FAILURE, [FailedWrite]).
Proof. vm_compute. reflexivity. Qed.
(** ring_file_sink_test.cc:263-303 *)
Example RingFileSinkTest_FailSyncInFlush :
  run 0 [8192; 8192; -1] (enough kChunkSize)
  = Some (EXIT_FAILURE, [Write kRingBufferSize; Write kRingBufferSize; FailedSync]).
Proof. vm_compute. reflexivity. Qed.
(** ring_file_sink_test.cc:305-371 *)
Example RingFileSinkTest_FailTruncInFlush :
  run 0 [8192; 8192; 0; 8192; 8192; 0; -1] (enough kRingSize)
  = Some (EXIT_FAILURE,
      [Write kRingBufferSize; Write kRingBufferSize; Sync; OnEndOfChunk kChunkSize;
       Write kRingBufferSize; Write kRingBufferSize; Sync; OnEndOfChunk (kChunkSize * 2); FailedTrunc]).
Proof. vm_compute. reflexivity. Qed.
(** ring_file_sink_test.cc:373-441 *)
Example RingFileSinkTest_FailSeekInFlush :
  run 0 [8192; 8192; 0; 8192; 8192; 0; 0; -1] (enough kRingSize)
  = Some (EXIT_FAILURE,
      [Write kRingBufferSize; Write kRingBufferSize; Sync; OnEndOfChunk kChunkSize;
       Write kRingBufferSize; Write kRingBufferSize; Sync; OnEndOfChunk (kChunkSize * 2); Trunc kRingSize; FailedSeek]).
Proof. vm_compute. reflexivity. Qed.
(** ring_file_sink_test.cc:443-469 *)
Example RingFileSinkTest_SetPosition : run kChunkSize [] 0 = Some (EXIT_SUCCESS, [Seek kChunkSize]).
Proof. vm_compute. reflexivity. Qed.
