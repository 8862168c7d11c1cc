(** /repo/test/start_seeker_test.cc on the model; see TestBase.v. *)
From Coq Require Import ZArith List Bool.
From Verif Require Import Base.Outcome Base.Util Model.Pcr Model.Sink Model.Ts Model.StartSeeker Spec.FeedSpec Tests.TestBase.
Import ListNotations.
Open Scope Z_scope.

Definition run (o : start_seeker_option) : list packet -> Z -> list (Z * option Z) -> Z -> bool :=
  passes (fun k => start_seeker o k 0) (fun d => (ss_init, d)) (fun s => snd (snd s)).
Definition kOption : start_seeker_option := mkSsOption 0x0001 1000 0.

(** start_seeker_test.cc:17-35 *)
Example StartSeekerTest_NoPacket : run kOption
    []
    EXIT_SUCCESS [] 0 = true.
Proof. vm_compute. reflexivity. Qed.

(** start_seeker_test.cc:37-68 *)
Example StartSeekerTest_Eof : run kOption
    [
      pk 0x0000 0 None [mkTable (TPat (Some (mkPat 0x1234 1 [(0x0001, 0x0101)]))) 0] ]
    EXIT_SUCCESS [(0x0000, Some 0)] 0 = true.
Proof. vm_compute. reflexivity. Qed.

(** start_seeker_test.cc:70-150 *)
Example StartSeekerTest_MaxDuration : run kOption
    [
      pk 0x0000 0 None [mkTable (TPat (Some (mkPat 0x1234 1 [(0x0001, 0x0101)]))) 0];
      pk 0x0101 0 None [mkTable (TPmt (Some (mkPmt 0x0001 1 0x0901 [] [(0x0301, video None); (0x0302, audio None)]))) 1];
      pk 0x0901 0 (Some 0) [];
      pk 0x0301 0 None [];
      pk 0x0302 0 None [];
      pk 0x0901 1 (Some 27000000) [];
      pk 0x0301 1 None [];
      pk 0x0302 1 None [] ]
    EXIT_SUCCESS [
      (0x0000, Some 0);
      (0x0101, Some 0);
      (0x0901, Some 0);
      (0x0301, Some 0);
      (0x0302, Some 0);
      (0x0901, Some 1);
      (0x0301, Some 1);
      (0x0302, Some 1) ] 0 = true.
Proof. vm_compute. reflexivity. Qed.

(** start_seeker_test.cc:152-234 *)
Example StartSeekerTest_MaxPackets : run (mkSsOption 0x0001 1000 3)
    [
      pk 0x0000 0 None [mkTable (TPat (Some (mkPat 0x1234 1 [(0x0001, 0x0101)]))) 0];
      pk 0x0101 0 None [mkTable (TPmt (Some (mkPmt 0x0001 1 0x0901 [] [(0x0301, video None); (0x0302, audio None)]))) 1];
      pk 0x0901 0 (Some 0) [];
      pk 0x0301 0 None [];
      pk 0x0302 0 None [];
      pk 0x0901 1 (Some 27000000) [];
      pk 0x0301 1 None [];
      pk 0x0302 1 None [] ]
    EXIT_SUCCESS [
      (0x0000, Some 0);
      (0x0101, Some 0);
      (0x0901, Some 0);
      (0x0301, Some 0);
      (0x0302, Some 0);
      (0x0901, Some 1);
      (0x0301, Some 1);
      (0x0302, Some 1) ] 0 = true.
Proof. vm_compute. reflexivity. Qed.

(** start_seeker_test.cc:236-316 *)
Example StartSeekerTest_DetectVideoChange : run kOption
    [
      pk 0x0000 0 None [mkTable (TPat (Some (mkPat 0x1234 1 [(0x0001, 0x0101)]))) 0];
      pk 0x0101 0 None [mkTable (TPmt (Some (mkPmt 0x0001 1 0x0901 [] [(0x0301, video None); (0x0302, audio None)]))) 1];
      pk 0x0901 0 (Some 0) [];
      pk 0x0301 0 None [];
      pk 0x0302 0 None [];
      pk 0x0000 1 None [mkTable (TPat (Some (mkPat 0x1234 2 [(0x0001, 0x0101)]))) 5];
      pk 0x0101 1 None [mkTable (TPmt (Some (mkPmt 0x0001 2 0x0901 [] [(0x0302, audio None); (0x0303, video None)]))) 6];
      pk 0x0901 1 (Some 27000000) [];
      pk 0x0301 1 None [];
      pk 0x0302 1 None [];
      pk 0x0303 0 None [] ]
    EXIT_SUCCESS [
      (0x0000, Some 1);
      (0x0101, Some 1);
      (0x0901, Some 1);
      (0x0301, Some 1);
      (0x0302, Some 1);
      (0x0303, Some 0) ] 0 = true.
Proof. vm_compute. reflexivity. Qed.

(** start_seeker_test.cc:318-398 *)
Example StartSeekerTest_DetectAudioChange : run kOption
    [
      pk 0x0000 0 None [mkTable (TPat (Some (mkPat 0x1234 1 [(0x0001, 0x0101)]))) 0];
      pk 0x0101 0 None [mkTable (TPmt (Some (mkPmt 0x0001 1 0x0901 [] [(0x0301, video None); (0x0302, audio None)]))) 1];
      pk 0x0901 0 (Some 0) [];
      pk 0x0301 0 None [];
      pk 0x0302 0 None [];
      pk 0x0000 1 None [mkTable (TPat (Some (mkPat 0x1234 2 [(0x0001, 0x0101)]))) 5];
      pk 0x0101 1 None [mkTable (TPmt (Some (mkPmt 0x0001 2 0x0901 [] [(0x0301, video None); (0x0303, audio None)]))) 6];
      pk 0x0901 1 (Some 27000000) [];
      pk 0x0301 1 None [];
      pk 0x0302 1 None [];
      pk 0x0303 0 None [] ]
    EXIT_SUCCESS [
      (0x0000, Some 1);
      (0x0101, Some 1);
      (0x0901, Some 1);
      (0x0301, Some 1);
      (0x0302, Some 1);
      (0x0303, Some 0) ] 0 = true.
Proof. vm_compute. reflexivity. Qed.

(** start_seeker_test.cc:400-481 *)
Example StartSeekerTest_DetectMultipleAudioStreams : run kOption
    [
      pk 0x0000 0 None [mkTable (TPat (Some (mkPat 0x1234 1 [(0x0001, 0x0101)]))) 0];
      pk 0x0101 0 None [mkTable (TPmt (Some (mkPmt 0x0001 1 0x0901 [] [(0x0301, video None); (0x0302, audio None)]))) 1];
      pk 0x0901 0 (Some 0) [];
      pk 0x0301 0 None [];
      pk 0x0302 0 None [];
      pk 0x0000 1 None [mkTable (TPat (Some (mkPat 0x1234 2 [(0x0001, 0x0101)]))) 5];
      pk 0x0101 1 None [mkTable (TPmt (Some (mkPmt 0x0001 2 0x0901 [] [(0x0301, video None); (0x0302, audio None); (0x0303, audio None)]))) 6];
      pk 0x0901 1 (Some 27000000) [];
      pk 0x0301 1 None [];
      pk 0x0302 1 None [];
      pk 0x0303 0 None [] ]
    EXIT_SUCCESS [
      (0x0000, Some 1);
      (0x0101, Some 1);
      (0x0901, Some 1);
      (0x0301, Some 1);
      (0x0302, Some 1);
      (0x0303, Some 0) ] 0 = true.
Proof. vm_compute. reflexivity. Qed.

(** start_seeker_test.cc:483-567 *)
Example StartSeekerTest_AbnormalPcrPackets : run kOption
    [
      pk 0x0000 0 None [mkTable (TPat (Some (mkPat 0x1234 1 [(0x0001, 0x0101)]))) 0];
      pk 0x0101 0 None [mkTable (TPmt (Some (mkPmt 0x0001 1 0x0901 [] [(0x0301, video None); (0x0302, audio None)]))) 1];
      pk 0x0901 0 (Some 0) [];
      pk 0x0301 0 None [];
      pk 0x0302 0 None [];
      pk 0x0901 1 None [];
      pk 0x0901 2 None [];
      pk 0x0000 1 None [mkTable (TPat (Some (mkPat 0x1234 2 [(0x0001, 0x0101)]))) 7];
      pk 0x0101 1 None [mkTable (TPmt (Some (mkPmt 0x0001 2 0x0901 [] [(0x0301, video None); (0x0302, audio None); (0x0303, audio None)]))) 8];
      pk 0x0901 3 (Some 27000000) [];
      pk 0x0301 1 None [];
      pk 0x0302 1 None [];
      pk 0x0303 0 None [] ]
    EXIT_SUCCESS [
      (0x0000, Some 1);
      (0x0101, Some 1);
      (0x0901, Some 3);
      (0x0301, Some 1);
      (0x0302, Some 1);
      (0x0303, Some 0) ] 0 = true.
Proof. vm_compute. reflexivity. Qed.

(** start_seeker_test.cc:569-658 *)
Example StartSeekerTest_PmtSidUnmatched : run kOption
    [
      pk 0x0000 0 None [mkTable (TPat (Some (mkPat 0x1234 1 [(0x0001, 0x0101)]))) 0];
      pk 0x0101 0 None [mkTable (TPmt (Some (mkPmt 0x0001 1 0x0901 [] [(0x0301, video None); (0x0302, audio None)]))) 1];
      pk 0x0901 0 (Some 0) [];
      pk 0x0301 0 None [];
      pk 0x0302 0 None [];
      pk 0x0000 1 None [mkTable (TPat (Some (mkPat 0x1234 2 [(0x0001, 0x0101)]))) 5];
      pk 0x0101 1 None [mkTable (TPmt (Some (mkPmt 0x0000 2 0x0ABC [] []))) 6];
      pk 0x0101 2 None [mkTable (TPmt (Some (mkPmt 0x0001 3 0x0901 [] [(0x0301, video None); (0x0302, audio None); (0x0303, audio None)]))) 7];
      pk 0x0ABC 0 (Some 0) [];
      pk 0x0901 1 (Some 27000000) [];
      pk 0x0301 1 None [];
      pk 0x0302 1 None [];
      pk 0x0303 0 None [] ]
    EXIT_SUCCESS [
      (0x0000, Some 1);
      (0x0101, Some 2);
      (0x0ABC, Some 0);
      (0x0901, Some 1);
      (0x0301, Some 1);
      (0x0302, Some 1);
      (0x0303, Some 0) ] 0 = true.
Proof. vm_compute. reflexivity. Qed.
