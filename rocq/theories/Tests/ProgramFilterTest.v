(** /repo/test/program_filter_test.cc on the model; see TestBase.v. *)
From Coq Require Import ZArith List Bool.
From Verif Require Import Base.Outcome Base.Util Model.Pcr Model.Sink Model.Ts Model.ProgramFilter Spec.FeedSpec Tests.TestBase.
Import ListNotations.
Open Scope Z_scope.

(** A PMT of one packet. *)
Definition run (o : program_filter_option) : list packet -> Z -> list (Z * option Z) -> Z -> bool :=
  passes (fun k => program_filter (fun _ => 1%nat) o k 0) (fun d => (pf_init o, d)) (fun s => snd (snd s)).
(** program_filter_test.cc:14-17; ts::Time() is 1970-01-01 on Linux. *)
Definition kOption : program_filter_option := mkPfOption 0x0001 0x1001 0x0901 0 UnixEpoch [] [] 0 0 None false.

(** program_filter_test.cc:18-36 *)
Example ProgramFilterTest_NoPacket : run kOption
    []
    EXIT_SUCCESS [] 0 = true.
Proof. vm_compute. reflexivity. Qed.

(** program_filter_test.cc:38-146 *)
Example ProgramFilterTest_WaitReady : run kOption
    [
      pk 0x0000 0 None [mkTable (TPat (Some (mkPat 0x1234 1 [(0x0001, 0x0101); (0x0002, 0x0102)]))) 0];
      pk 0x0101 0 None [mkTable (TPmt (Some (mkPmt 0x0001 1 0x0901 [] [(0x0301, video None); (0x0302, audio None)]))) 1];
      pk 0x0012 0 None [mkTable (TEit (Some (mkEit 0x0001 0x1234 0x0001 1 [mkEvent 0x1000 (UnixEpoch + 0) 1 0; mkEvent 0x1001 (UnixEpoch + 1000) 3600 0]))) 2];
      pk 0x0901 0 (Some 0) [];
      pk 0x0301 0 None [];
      pk 0x0302 0 None [];
      pk 0x0901 1 (Some 27000000) [];
      pk 0x0301 1 None [];
      pk 0x0302 1 None [];
      pk 0x0000 1 None [];
      pk 0x0101 1 None [];
      pk 0x0301 2 None [];
      pk 0x0302 2 None [] ]
    EXIT_SUCCESS [
      (0x0000, Some 0);
      (0x0101, Some 0);
      (0x0901, Some 1);
      (0x0301, Some 1);
      (0x0302, Some 1);
      (0x0000, Some 1);
      (0x0101, Some 1);
      (0x0301, Some 2);
      (0x0302, Some 2) ] 0 = true.
Proof. vm_compute. reflexivity. Qed.

(** program_filter_test.cc:148-260 *)
Example ProgramFilterTest_AlreadyStarted : run kOption
    [
      pk 0x0000 0 None [mkTable (TPat (Some (mkPat 0x1234 1 [(0x0001, 0x0101); (0x0002, 0x0102)]))) 0];
      pk 0x0101 0 None [mkTable (TPmt (Some (mkPmt 0x0001 1 0x0901 [] [(0x0301, video None); (0x0302, audio None)]))) 1];
      pk 0x0012 0 None [mkTable (TEit (Some (mkEit 0x0001 0x1234 0x0001 1 [mkEvent 0x1001 (UnixEpoch + 0) 3600 0; mkEvent 0x1002 (UnixEpoch + 3600000) 3600 0]))) 2];
      pk 0x0901 0 (Some 0) [];
      pk 0x0301 0 None [];
      pk 0x0302 0 None [];
      pk 0x0000 1 None [];
      pk 0x0101 1 None [];
      pk 0x0901 1 (Some 27000000) [];
      pk 0x0301 1 None [];
      pk 0x0302 1 None [] ]
    EXIT_SUCCESS [
      (0x0000, Some 0);
      (0x0101, Some 0);
      (0x0901, Some 0);
      (0x0301, Some 0);
      (0x0302, Some 0);
      (0x0000, Some 1);
      (0x0101, Some 1);
      (0x0901, Some 1);
      (0x0301, Some 1);
      (0x0302, Some 1) ] 0 = true.
Proof. vm_compute. reflexivity. Qed.

(** program_filter_test.cc:262-395 *)
Example ProgramFilterTest_EndStreaming : run kOption
    [
      pk 0x0000 0 None [mkTable (TPat (Some (mkPat 0x1234 1 [(0x0001, 0x0101); (0x0002, 0x0102)]))) 0];
      pk 0x0101 0 None [mkTable (TPmt (Some (mkPmt 0x0001 1 0x0901 [] [(0x0301, video None); (0x0302, audio None)]))) 1];
      pk 0x0012 0 None [mkTable (TEit (Some (mkEit 0x0001 0x1234 0x0001 1 [mkEvent 0x1001 (UnixEpoch + 0) 3600 0; mkEvent 0x1002 (UnixEpoch + 3600000) 3600 0]))) 2];
      pk 0x0901 0 (Some 0) [];
      pk 0x0301 0 None [];
      pk 0x0302 0 None [];
      pk 0x0000 1 None [];
      pk 0x0101 1 None [];
      pk 0x0901 1 (Some 27000000) [];
      pk 0x0301 1 None [];
      pk 0x0302 1 None [];
      pk 0x0901 2 (Some 97199999999) [];
      pk 0x0301 2 None [];
      pk 0x0302 2 None [];
      pk 0x0901 3 (Some 97200000000) [];
      pk 0x0301 3 None [];
      pk 0x0302 3 None [] ]
    EXIT_SUCCESS [
      (0x0000, Some 0);
      (0x0101, Some 0);
      (0x0901, Some 0);
      (0x0301, Some 0);
      (0x0302, Some 0);
      (0x0000, Some 1);
      (0x0101, Some 1);
      (0x0901, Some 1);
      (0x0301, Some 1);
      (0x0302, Some 1);
      (0x0901, Some 2);
      (0x0301, Some 2);
      (0x0302, Some 2) ] 2 = true.
Proof. vm_compute. reflexivity. Qed.

(** program_filter_test.cc:397-582 *)
Example ProgramFilterTest_UpdatePcrRange : run kOption
    [
      pk 0x0000 0 None [mkTable (TPat (Some (mkPat 0x1234 1 [(0x0001, 0x0101); (0x0002, 0x0102)]))) 0];
      pk 0x0101 0 None [mkTable (TPmt (Some (mkPmt 0x0001 1 0x0901 [] [(0x0301, video None); (0x0302, audio None)]))) 1];
      pk 0x0012 0 None [mkTable (TEit (Some (mkEit 0x0001 0x1234 0x0001 1 [mkEvent 0x1001 (UnixEpoch + 0) 3600 0; mkEvent 0x1002 (UnixEpoch + 3600000) 3600 0]))) 2];
      pk 0x0901 0 (Some 0) [];
      pk 0x0301 0 None [];
      pk 0x0302 0 None [];
      pk 0x0000 1 None [];
      pk 0x0101 1 None [];
      pk 0x0901 1 (Some 27000000) [];
      pk 0x0301 1 None [];
      pk 0x0302 1 None [];
      pk 0x0901 2 (Some 97199999999) [];
      pk 0x0301 2 None [];
      pk 0x0302 2 None [];
      pk 0x0012 2 None [mkTable (TEit (Some (mkEit 0x0001 0x1234 0x0001 2 [mkEvent 0x1001 (UnixEpoch + 0) 7200 0; mkEvent 0x1002 (UnixEpoch + 7200000) 3600 0]))) 14];
      pk 0x0901 3 (Some 97200000000) [];
      pk 0x0301 3 None [];
      pk 0x0302 3 None [];
      pk 0x0901 4 (Some 194399999999) [];
      pk 0x0301 4 None [];
      pk 0x0302 4 None [];
      pk 0x0901 5 (Some 194400000000) [];
      pk 0x0301 5 None [];
      pk 0x0302 5 None [] ]
    EXIT_SUCCESS [
      (0x0000, Some 0);
      (0x0101, Some 0);
      (0x0901, Some 0);
      (0x0301, Some 0);
      (0x0302, Some 0);
      (0x0000, Some 1);
      (0x0101, Some 1);
      (0x0901, Some 1);
      (0x0301, Some 1);
      (0x0302, Some 1);
      (0x0901, Some 2);
      (0x0301, Some 2);
      (0x0302, Some 2);
      (0x0012, Some 2);
      (0x0901, Some 3);
      (0x0301, Some 3);
      (0x0302, Some 3);
      (0x0901, Some 4);
      (0x0301, Some 4);
      (0x0302, Some 4) ] 2 = true.
Proof. vm_compute. reflexivity. Qed.

(** program_filter_test.cc:584-623 *)
Example ProgramFilterTest_NoEventInEit : run kOption
    [
      pk 0x0000 0 None [mkTable (TPat (Some (mkPat 0x1234 1 [(0x0001, 0x0101); (0x0002, 0x0102)]))) 0];
      pk 0x0101 0 None [mkTable (TPmt (Some (mkPmt 0x0001 1 0x0901 [] [(0x0301, video None); (0x0302, audio None)]))) 1];
      pk 0x0012 0 None [mkTable (TEit (Some (mkEit 0x0001 0x1234 0x0001 1 []))) 2] ]
    EXIT_RETRY [] 0 = true.
Proof. vm_compute. reflexivity. Qed.

(** program_filter_test.cc:625-666 *)
Example ProgramFilterTest_NoFollowingEventInEit : run kOption
    [
      pk 0x0000 0 None [mkTable (TPat (Some (mkPat 0x1234 1 [(0x0001, 0x0101); (0x0002, 0x0102)]))) 0];
      pk 0x0101 0 None [mkTable (TPmt (Some (mkPmt 0x0001 1 0x0901 [] [(0x0301, video None); (0x0302, audio None)]))) 1];
      pk 0x0012 0 None [mkTable (TEit (Some (mkEit 0x0001 0x1234 0x0001 1 [mkEvent 0x1000 (UnixEpoch + 0) 1 0]))) 2] ]
    EXIT_RETRY [] 0 = true.
Proof. vm_compute. reflexivity. Qed.

(** program_filter_test.cc:668-756 *)
Example ProgramFilterTest_StartPcrUnderflow : run (mkPfOption 0x0001 0x1001 0x0901 0 (UnixEpoch + 3 * MilliSecPerHour) [] [] 0 0 None false)
    [
      pk 0x0000 0 None [mkTable (TPat (Some (mkPat 0x1234 1 [(0x0001, 0x0101)]))) 0];
      pk 0x0101 0 None [mkTable (TPmt (Some (mkPmt 0x0001 1 0x0901 [] [(0x0301, video None)]))) 1];
      pk 0x0012 0 None [mkTable (TEit (Some (mkEit 0x0001 0x1234 0x0001 1 [mkEvent 0x1001 (UnixEpoch + 3600000) 3600 0; mkEvent 0x1002 (UnixEpoch + 7200000) 3600 0]))) 2];
      pk 0x0901 0 (Some (kPcrUpperBound - 2 * MilliSecPerHour * kPcrTicksPerMs)) [];
      pk 0x0000 1 None [];
      pk 0x0101 1 None [];
      pk 0x0301 0 None [] ]
    EXIT_SUCCESS [
      (0x0000, Some 0);
      (0x0101, Some 0);
      (0x0901, Some 0);
      (0x0000, Some 1);
      (0x0101, Some 1);
      (0x0301, Some 0) ] 0 = true.
Proof. vm_compute. reflexivity. Qed.

(** program_filter_test.cc:758-844 *)
Example ProgramFilterTest_EndPcrOverflow : run (mkPfOption 0x0001 0x1001 0x0901 0 (UnixEpoch + 2 * MilliSecPerHour) [] [] 0 0 None false)
    [
      pk 0x0000 0 None [mkTable (TPat (Some (mkPat 0x1234 1 [(0x0001, 0x0101)]))) 0];
      pk 0x0101 0 None [mkTable (TPmt (Some (mkPmt 0x0001 1 0x0901 [] [(0x0301, video None)]))) 1];
      pk 0x0012 0 None [mkTable (TEit (Some (mkEit 0x0001 0x1234 0x0001 1 [mkEvent 0x1001 (UnixEpoch + 3600000) 3600 0; mkEvent 0x1002 (UnixEpoch + 7200000) 3600 0]))) 2];
      pk 0x0901 0 (Some (kPcrUpperBound - 1 * MilliSecPerHour * kPcrTicksPerMs)) [];
      pk 0x0000 1 None [];
      pk 0x0101 1 None [];
      pk 0x0301 0 None [] ]
    EXIT_SUCCESS [
      (0x0000, Some 0);
      (0x0101, Some 0);
      (0x0901, Some 0);
      (0x0000, Some 1);
      (0x0101, Some 1);
      (0x0301, Some 0) ] 0 = true.
Proof. vm_compute. reflexivity. Qed.

(** program_filter_test.cc:846-917 *)
Example ProgramFilterTest_PreStreaming : run (mkPfOption 0x0001 0x1001 0x0901 0 UnixEpoch [] [] 0 0 None true)
    [
      pk 0x0000 0 None [mkTable (TPat (Some (mkPat 0x1234 1 [(0x0001, 0x0101); (0x0002, 0x0102)]))) 0];
      pk 0x0101 0 None [mkTable (TPmt (Some (mkPmt 0x0001 1 0x0901 [] [(0x0301, video None); (0x0302, audio None)]))) 1];
      pk 0x0012 0 None [mkTable (TEit (Some (mkEit 0x0001 0x1234 0x0001 1 [mkEvent 0x1001 (UnixEpoch + 0) 3600 0; mkEvent 0x1002 (UnixEpoch + 3600000) 3600 0]))) 2];
      pk 0x0901 0 (Some 0) [];
      pk 0x0000 1 None [] ]
    EXIT_SUCCESS [(0x0000, Some 0); (0x0101, Some 0); (0x0901, Some 0); (0x0000, Some 1)] 0 = true.
Proof. vm_compute. reflexivity. Qed.

(** program_filter_test.cc:919-1036 *)
Example ProgramFilterTest_AbnormalPcrPackets : run kOption
    [
      pk 0x0000 0 None [mkTable (TPat (Some (mkPat 0x1234 1 [(0x0001, 0x0101); (0x0002, 0x0102)]))) 0];
      pk 0x0101 0 None [mkTable (TPmt (Some (mkPmt 0x0001 1 0x0901 [] [(0x0301, video None); (0x0302, audio None)]))) 1];
      pk 0x0012 0 None [mkTable (TEit (Some (mkEit 0x0001 0x1234 0x0001 1 [mkEvent 0x1000 (UnixEpoch + 0) 1 0; mkEvent 0x1001 (UnixEpoch + 1000) 3600 0]))) 2];
      pk 0x0901 0 (Some 0) [];
      pk 0x0301 0 None [];
      pk 0x0302 0 None [];
      pk 0x0901 1 None [];
      pk 0x0901 2 None [];
      pk 0x0901 3 (Some 27000000) [];
      pk 0x0301 1 None [];
      pk 0x0302 1 None [];
      pk 0x0000 1 None [];
      pk 0x0101 1 None [];
      pk 0x0901 4 None [];
      pk 0x0301 2 None [];
      pk 0x0302 2 None [] ]
    EXIT_SUCCESS [
      (0x0000, Some 0);
      (0x0101, Some 0);
      (0x0901, Some 3);
      (0x0301, Some 1);
      (0x0302, Some 1);
      (0x0000, Some 1);
      (0x0101, Some 1);
      (0x0901, Some 4);
      (0x0301, Some 2);
      (0x0302, Some 2) ] 0 = true.
Proof. vm_compute. reflexivity. Qed.

(** program_filter_test.cc:1038-1117 *)
Example ProgramFilterTest_PmtSidUnmatched : run kOption
    [
      pk 0x0000 0 None [mkTable (TPat (Some (mkPat 0x1234 1 [(0x0001, 0x0101); (0x0002, 0x0102)]))) 0];
      pk 0x0101 0 None [mkTable (TPmt (Some (mkPmt 0x0001 1 0x0901 [] [(0x0301, video None); (0x0302, audio None)]))) 1];
      pk 0x0012 0 None [mkTable (TEit (Some (mkEit 0x0001 0x1234 0x0001 1 [mkEvent 0x1001 (UnixEpoch + 0) 3600 0; mkEvent 0x1002 (UnixEpoch + 1000) 3600 0]))) 2];
      pk 0x0901 0 (Some 0) [];
      pk 0x0101 1 None [mkTable (TPmt (Some (mkPmt 0x0000 2 0x0ABC [] []))) 4];
      pk 0x0301 0 None [];
      pk 0x0302 0 None [] ]
    EXIT_SUCCESS [
      (0x0000, Some 0);
      (0x0101, Some 0);
      (0x0901, Some 0);
      (0x0101, Some 1);
      (0x0301, Some 0);
      (0x0302, Some 0) ] 0 = true.
Proof. vm_compute. reflexivity. Qed.

(** program_filter_test.cc:1119-1200 *)
Example ProgramFilterTest_EitSidUnmatched : run kOption
    [
      pk 0x0000 0 None [mkTable (TPat (Some (mkPat 0x1234 1 [(0x0001, 0x0101); (0x0002, 0x0102)]))) 0];
      pk 0x0101 0 None [mkTable (TPmt (Some (mkPmt 0x0001 1 0x0901 [] [(0x0301, video None); (0x0302, audio None)]))) 1];
      pk 0x0012 0 None [mkTable (TEit (Some (mkEit 0x0001 0x1234 0x0001 1 [mkEvent 0x1001 (UnixEpoch + 0) 3600 0; mkEvent 0x1002 (UnixEpoch + 1000) 3600 0]))) 2];
      pk 0x0901 0 (Some 0) [];
      pk 0x0012 1 None [mkTable (TEit (Some (mkEit 0x0000 0x1234 0x0001 2 []))) 4];
      pk 0x0301 0 None [];
      pk 0x0302 0 None [] ]
    EXIT_SUCCESS [
      (0x0000, Some 0);
      (0x0101, Some 0);
      (0x0901, Some 0);
      (0x0012, Some 1);
      (0x0301, Some 0);
      (0x0302, Some 0) ] 0 = true.
Proof. vm_compute. reflexivity. Qed.

(** program_filter_test.cc:1202-1311 *)
Example ProgramFilterTest_ResyncClockBeforeStreaming : run kOption
    [
      pk 0x0000 0 None [mkTable (TPat (Some (mkPat 0x1234 1 [(0x0001, 0x0101); (0x0002, 0x0102)]))) 0];
      pk 0x0101 0 None [mkTable (TPmt (Some (mkPmt 0x0001 1 0x0902 [] [(0x0301, video None); (0x0302, audio None)]))) 1];
      pk 0x0012 0 None [mkTable (TEit (Some (mkEit 0x0001 0x1234 0x0001 1 [mkEvent 0x1000 (UnixEpoch + 0) 1 0; mkEvent 0x1001 (UnixEpoch + 1000) 3600 0]))) 2];
      pk 0x0902 0 (Some 100000000000) [];
      pk 0x0014 0 None [mkTable (TTot (Some (UnixEpoch + 0))) 4];
      pk 0x0301 0 None [];
      pk 0x0302 0 None [];
      pk 0x0014 1 None [mkTable (TTot (Some (UnixEpoch + 3600000))) 7];
      pk 0x0902 1 (Some 100027000000) [];
      pk 0x0301 1 None [];
      pk 0x0302 1 None [];
      pk 0x0000 1 None [];
      pk 0x0101 1 None [];
      pk 0x0301 2 None [];
      pk 0x0302 2 None [] ]
    EXIT_SUCCESS [
      (0x0000, Some 0);
      (0x0101, Some 0);
      (0x0902, Some 1);
      (0x0301, Some 1);
      (0x0302, Some 1);
      (0x0000, Some 1);
      (0x0101, Some 1);
      (0x0301, Some 2);
      (0x0302, Some 2) ] 0 = true.
Proof. vm_compute. reflexivity. Qed.

(** program_filter_test.cc:1313-1451 *)
Example ProgramFilterTest_ResyncClockWhileStreaming : run kOption
    [
      pk 0x0000 0 None [mkTable (TPat (Some (mkPat 0x1234 1 [(0x0001, 0x0101); (0x0002, 0x0102)]))) 0];
      pk 0x0101 0 None [mkTable (TPmt (Some (mkPmt 0x0001 1 0x0901 [] [(0x0301, video None); (0x0302, audio None)]))) 1];
      pk 0x0012 0 None [mkTable (TEit (Some (mkEit 0x0001 0x1234 0x0001 1 [mkEvent 0x1001 (UnixEpoch + 0) 3600 0; mkEvent 0x1002 (UnixEpoch + 3600000) 3600 0]))) 2];
      pk 0x0901 0 (Some 0) [];
      pk 0x0301 0 None [];
      pk 0x0302 0 None [];
      pk 0x0000 1 None [mkTable (TPat (Some (mkPat 0x1234 2 [(0x0001, 0x0101); (0x0002, 0x0102)]))) 6];
      pk 0x0101 1 None [mkTable (TPmt (Some (mkPmt 0x0001 2 0x0902 [] [(0x0301, video None); (0x0302, audio None)]))) 7];
      pk 0x0902 0 (Some 100027000000) [];
      pk 0x0301 1 None [];
      pk 0x0302 1 None [];
      pk 0x0902 1 (Some 197200000000) [];
      pk 0x0301 2 None [];
      pk 0x0302 2 None [];
      pk 0x0014 0 None [mkTable (TTot (Some (UnixEpoch + 3600000))) 14];
      pk 0x0902 2 (Some 197200000001) [];
      pk 0x0301 3 None [];
      pk 0x0302 3 None [] ]
    EXIT_SUCCESS [
      (0x0000, Some 0);
      (0x0101, Some 0);
      (0x0901, Some 0);
      (0x0301, Some 0);
      (0x0302, Some 0);
      (0x0000, Some 1);
      (0x0101, Some 1);
      (0x0902, Some 0);
      (0x0301, Some 1);
      (0x0302, Some 1);
      (0x0902, Some 1);
      (0x0301, Some 2);
      (0x0302, Some 2);
      (0x0014, Some 0) ] 2 = true.
Proof. vm_compute. reflexivity. Qed.

(** program_filter_test.cc:1453-1564 *)
Example ProgramFilterTest_PesBlackList : run (mkPfOption 0x0001 0x1001 0x0901 0 UnixEpoch [1] [0] 0 0 None false)
    [
      pk 0x0000 0 None [mkTable (TPat (Some (mkPat 0x1234 1 [(0x0001, 0x0101)]))) 0];
      pk 0x0101 0 None [mkTable (TPmt (Some (mkPmt 0x0001 1 0x0901 [] [(0x0301, video (Some 0x00)); (0x0302, audio (Some 0x10))]))) 1];
      pk 0x0012 0 None [mkTable (TEit (Some (mkEit 0x0001 0x1234 0x0001 1 [mkEvent 0x1000 (UnixEpoch + 0) 1 0; mkEvent 0x1001 (UnixEpoch + 1000) 3600 0]))) 2];
      pk 0x0901 0 (Some 0) [];
      pk 0x0301 0 None [];
      pk 0x0302 0 None [];
      pk 0x0901 1 (Some 27000000) [];
      pk 0x0301 1 None [];
      pk 0x0302 1 None [];
      pk 0x0000 1 None [];
      pk 0x0101 1 None [];
      pk 0x0301 2 None [];
      pk 0x0302 2 None [] ]
    EXIT_SUCCESS [
      (0x0000, Some 0);
      (0x0101, Some 0);
      (0x0901, Some 1);
      (0x0301, Some 1);
      (0x0000, Some 1);
      (0x0101, Some 1);
      (0x0301, Some 2) ] 0 = true.
Proof. vm_compute. reflexivity. Qed.

(** program_filter_test.cc:1566-1594 *)
Example ProgramFilterTest_WaitUntilTimedout : run (mkPfOption 0x0001 0x1001 0x0901 0 UnixEpoch [] [] 0 0 (Some (UnixEpoch + 1000)) false)
    [
      pk 0x0014 0 None [mkTable (TTot (Some (UnixEpoch + 0))) 0];
      pk 0x0014 1 None [mkTable (TTot (Some (UnixEpoch + 1000))) 1];
      pk 0x0014 2 None [mkTable (TTot (Some (UnixEpoch + 2000))) 2];
      pk 0x0014 3 None [mkTable (TTot (Some (UnixEpoch + 3000))) 3] ]
    EXIT_RETRY [] 1 = true.
Proof. vm_compute. reflexivity. Qed.

(** program_filter_test.cc:1596-1737 *)
Example ProgramFilterTest_ReachTimeLimitWhileStreaming : run kOption
    [
      pk 0x0000 0 None [mkTable (TPat (Some (mkPat 0x1234 1 [(0x0001, 0x0101); (0x0002, 0x0102)]))) 0];
      pk 0x0101 0 None [mkTable (TPmt (Some (mkPmt 0x0001 1 0x0901 [] [(0x0301, video None); (0x0302, audio None)]))) 1];
      pk 0x0012 0 None [mkTable (TEit (Some (mkEit 0x0001 0x1234 0x0001 1 [mkEvent 0x1001 (UnixEpoch + 0) 3600 0; mkEvent 0x1002 (UnixEpoch + 3600000) 3600 0]))) 2];
      pk 0x0901 0 (Some 0) [];
      pk 0x0301 0 None [];
      pk 0x0302 0 None [];
      pk 0x0000 1 None [];
      pk 0x0101 1 None [];
      pk 0x0901 1 (Some 27000000) [];
      pk 0x0014 0 None [mkTable (TTot (Some (UnixEpoch + 1000))) 9];
      pk 0x0301 1 None [];
      pk 0x0302 1 None [];
      pk 0x0901 2 (Some 97199999999) [];
      pk 0x0301 2 None [];
      pk 0x0302 2 None [];
      pk 0x0901 3 (Some 97200000000) [];
      pk 0x0301 3 None [];
      pk 0x0302 3 None [] ]
    EXIT_SUCCESS [
      (0x0000, Some 0);
      (0x0101, Some 0);
      (0x0901, Some 0);
      (0x0301, Some 0);
      (0x0302, Some 0);
      (0x0000, Some 1);
      (0x0101, Some 1);
      (0x0901, Some 1);
      (0x0014, Some 0);
      (0x0301, Some 1);
      (0x0302, Some 1);
      (0x0901, Some 2);
      (0x0301, Some 2);
      (0x0302, Some 2) ] 2 = true.
Proof. vm_compute. reflexivity. Qed.
