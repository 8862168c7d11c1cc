(** /repo/test/pcr_synchronizer_test.cc on the model; see TestBase.v. *)
From Coq Require Import ZArith List Bool.
From Verif Require Import Base.Outcome Base.Util Model.Pcr Model.Sink Model.Ts Model.PcrSynchronizer Spec.FeedSpec Tests.TestBase.
Import ListNotations.
Open Scope Z_scope.

Definition run (o : ps_option) : list packet -> option (Z * list (list clock_doc) * Z) :=
  outcome (ps_sink o) ps_init ps_out.
Definition kEmptyOption : ps_option := mkPsOption [] [].

(** pcr_synchronizer_test.cc:16-27 *)
Example PcrSynchronizerTest_NoPacket : run kEmptyOption
    []
  = Some (EXIT_FAILURE, [], 0).
Proof. vm_compute. reflexivity. Qed.

(** pcr_synchronizer_test.cc:29-103 *)
Example PcrSynchronizerTest_Successful : run kEmptyOption
    [
      pk 0x0000 0 None [mkTable (TPat (Some (mkPat 0x1234 1 [(0x0001, 0x0101); (0x0002, 0x0102)]))) 0];
      pk 0x0011 0 None [mkTable (TSdt (Some (mkSdt 0x0003 0x0002 [(0x0001, mkService 0x01 1 None); (0x0002, mkService 0x01 2 None)]))) 1];
      pk 0x0101 0 None [mkTable (TPmt (Some (mkPmt 0x0001 1 0x0901 [] []))) 2];
      pk 0x0102 0 None [mkTable (TPmt (Some (mkPmt 0x0002 1 0x0902 [] []))) 3];
      pk 0x0901 0 (Some 101) [];
      pk 0x0902 0 (Some 201) [];
      pk 0x0014 0 None [mkTable (TTot (Some (UnixEpoch + 1546398245000))) 6];
      pk 0x0901 0 (Some 102) [];
      pk 0x0902 0 (Some 202) [];
      pk 0x0901 0 (Some 103) [];
      pk 0x0902 0 (Some 203) [] ]
  = Some (EXIT_SUCCESS, [
      [mkClockDoc 2 3 1 2305 102 1546365845000;
       mkClockDoc 2 3 2 2306 202 1546365845000] ], 2).
Proof. vm_compute. reflexivity. Qed.

(** pcr_synchronizer_test.cc:105-206 *)
Example PcrSynchronizerTest_Reset : run kEmptyOption
    [
      pk 0x0000 0 None [mkTable (TPat (Some (mkPat 0x1234 1 [(0x0001, 0x0101); (0x0002, 0x0102)]))) 0];
      pk 0x0011 0 None [mkTable (TSdt (Some (mkSdt 0x0003 0x0002 [(0x0001, mkService 0x01 1 None); (0x0002, mkService 0x01 2 None)]))) 1];
      pk 0x0101 0 None [mkTable (TPmt (Some (mkPmt 0x0001 1 0x0901 [] []))) 2];
      pk 0x0102 0 None [mkTable (TPmt (Some (mkPmt 0x0002 1 0x0902 [] []))) 3];
      pk 0x0901 0 (Some 101) [];
      pk 0x0902 0 (Some 201) [];
      pk 0x0014 0 None [mkTable (TTot (Some (UnixEpoch + 1546398245000))) 6];
      pk 0x0901 0 (Some 102) [];
      pk 0x0000 2 None [mkTable (TPat (Some (mkPat 0x1234 2 [(0x0001, 0x0101); (0x0002, 0x0102)]))) 8];
      pk 0x0011 2 None [mkTable (TSdt (Some (mkSdt 0x0003 0x0002 [(0x0001, mkService 0x01 1 None); (0x0002, mkService 0x01 2 None)]))) 9];
      pk 0x0101 2 None [mkTable (TPmt (Some (mkPmt 0x0001 2 0x0901 [] []))) 10];
      pk 0x0102 2 None [mkTable (TPmt (Some (mkPmt 0x0002 2 0x0902 [] []))) 11];
      pk 0x0902 0 (Some 202) [];
      pk 0x0014 1 None [mkTable (TTot (Some (UnixEpoch + 1546398250000))) 13];
      pk 0x0901 0 (Some 103) [];
      pk 0x0902 0 (Some 203) [] ]
  = Some (EXIT_SUCCESS, [
      [mkClockDoc 2 3 1 2305 103 1546365850000;
       mkClockDoc 2 3 2 2306 203 1546365850000] ], 0).
Proof. vm_compute. reflexivity. Qed.

(** pcr_synchronizer_test.cc:208-255 *)
Example PcrSynchronizerTest_NoPcr : run kEmptyOption
    [
      pk 0x0000 0 None [mkTable (TPat (Some (mkPat 0x1234 1 [(0x0001, 0x0101); (0x0002, 0x0102)]))) 0];
      pk 0x0011 0 None [mkTable (TSdt (Some (mkSdt 0x0003 0x0002 [(0x0001, mkService 0x01 1 None); (0x0002, mkService 0x01 2 None)]))) 1];
      pk 0x0101 0 None [mkTable (TPmt (Some (mkPmt 0x0001 1 0x0901 [] []))) 2];
      pk 0x0102 0 None [mkTable (TPmt (Some (mkPmt 0x0002 1 0x0902 [] []))) 3];
      pk 0x0014 0 None [mkTable (TTot (Some (UnixEpoch + 1546398245000))) 4];
      pk 0x0903 0 (Some 302) [];
      pk 0x0903 0 (Some 303) [] ]
  = Some (EXIT_FAILURE, [], 0).
Proof. vm_compute. reflexivity. Qed.

(** pcr_synchronizer_test.cc:257-325 *)
Example PcrSynchronizerTest_InclusionList : run (mkPsOption [0x0001] [])
    [
      pk 0x0000 0 None [mkTable (TPat (Some (mkPat 0x1234 1 [(0x0001, 0x0101); (0x0002, 0x0102)]))) 0];
      pk 0x0011 0 None [mkTable (TSdt (Some (mkSdt 0x0003 0x0002 [(0x0001, mkService 0x01 1 None); (0x0002, mkService 0x01 2 None)]))) 1];
      pk 0x0101 0 None [mkTable (TPmt (Some (mkPmt 0x0001 1 0x0901 [] []))) 2];
      pk 0x0102 0 None [mkTable (TPmt (Some (mkPmt 0x0002 1 0x0902 [] []))) 3];
      pk 0x0901 0 (Some 101) [];
      pk 0x0902 0 (Some 201) [];
      pk 0x0014 0 None [mkTable (TTot (Some (UnixEpoch + 1546398245000))) 6];
      pk 0x0901 0 (Some 102) [];
      pk 0x0902 0 (Some 202) [];
      pk 0x0901 0 (Some 103) [];
      pk 0x0902 0 (Some 203) [] ]
  = Some (EXIT_SUCCESS, [
      [mkClockDoc 2 3 1 2305 102 1546365845000] ], 3).
Proof. vm_compute. reflexivity. Qed.

(** pcr_synchronizer_test.cc:327-395 *)
Example PcrSynchronizerTest_ExclusionList : run (mkPsOption [] [0x0001])
    [
      pk 0x0000 0 None [mkTable (TPat (Some (mkPat 0x1234 1 [(0x0001, 0x0101); (0x0002, 0x0102)]))) 0];
      pk 0x0011 0 None [mkTable (TSdt (Some (mkSdt 0x0003 0x0002 [(0x0001, mkService 0x01 1 None); (0x0002, mkService 0x01 2 None)]))) 1];
      pk 0x0101 0 None [mkTable (TPmt (Some (mkPmt 0x0001 1 0x0901 [] []))) 2];
      pk 0x0102 0 None [mkTable (TPmt (Some (mkPmt 0x0002 1 0x0902 [] []))) 3];
      pk 0x0901 0 (Some 101) [];
      pk 0x0902 0 (Some 201) [];
      pk 0x0014 0 None [mkTable (TTot (Some (UnixEpoch + 1546398245000))) 6];
      pk 0x0901 0 (Some 102) [];
      pk 0x0902 0 (Some 202) [];
      pk 0x0901 0 (Some 103) [];
      pk 0x0902 0 (Some 203) [] ]
  = Some (EXIT_SUCCESS, [
      [mkClockDoc 2 3 2 2306 202 1546365845000] ], 2).
Proof. vm_compute. reflexivity. Qed.

(** pcr_synchronizer_test.cc:397-485 *)
Example PcrSynchronizerTest_AbnormalPcrPackets : run kEmptyOption
    [
      pk 0x0000 0 None [mkTable (TPat (Some (mkPat 0x1234 1 [(0x0001, 0x0101); (0x0002, 0x0102)]))) 0];
      pk 0x0011 0 None [mkTable (TSdt (Some (mkSdt 0x0003 0x0002 [(0x0001, mkService 0x01 1 None); (0x0002, mkService 0x01 2 None)]))) 1];
      pk 0x0101 0 None [mkTable (TPmt (Some (mkPmt 0x0001 1 0x0901 [] []))) 2];
      pk 0x0102 0 None [mkTable (TPmt (Some (mkPmt 0x0002 1 0x0902 [] []))) 3];
      pk 0x0901 0 (Some 101) [];
      pk 0x0902 0 (Some 201) [];
      pk 0x0014 0 None [mkTable (TTot (Some (UnixEpoch + 1546398245000))) 6];
      pk 0x0901 1 None [];
      pk 0x0902 1 None [];
      pk 0x0901 2 None [];
      pk 0x0902 2 None [];
      pk 0x0901 3 (Some 102) [];
      pk 0x0902 3 (Some 202) [];
      pk 0x0901 4 (Some 103) [];
      pk 0x0902 4 (Some 203) [] ]
  = Some (EXIT_SUCCESS, [
      [mkClockDoc 2 3 1 2305 102 1546365845000;
       mkClockDoc 2 3 2 2306 202 1546365845000] ], 2).
Proof. vm_compute. reflexivity. Qed.

(** pcr_synchronizer_test.cc:487-531 *)
Example PcrSynchronizerTest_PmtSidUnmatched : run kEmptyOption
    [
      pk 0x0000 0 None [mkTable (TPat (Some (mkPat 0x1234 1 [(0x0001, 0x0101); (0x0002, 0x0102)]))) 0];
      pk 0x0011 0 None [mkTable (TSdt (Some (mkSdt 0x0003 0x0002 [(0x0001, mkService 0x01 1 None); (0x0002, mkService 0x01 2 None)]))) 1];
      pk 0x0101 0 None [mkTable (TPmt (Some (mkPmt 0x1000 1 0x0ABC [] []))) 2];
      pk 0x0014 0 None [mkTable (TTot (Some (UnixEpoch + 1546398245000))) 3];
      pk 0x0ABC 0 (Some 302) [] ]
  = Some (EXIT_FAILURE, [], 0).
Proof. vm_compute. reflexivity. Qed.

(** pcr_synchronizer_test.cc:533-577 *)
Example PcrSynchronizerTest_PmtPidUnmatched : run kEmptyOption
    [
      pk 0x0000 0 None [mkTable (TPat (Some (mkPat 0x1234 1 [(0x0001, 0x0101); (0x0002, 0x0102)]))) 0];
      pk 0x0011 0 None [mkTable (TSdt (Some (mkSdt 0x0003 0x0002 [(0x0001, mkService 0x01 1 None); (0x0002, mkService 0x01 2 None)]))) 1];
      pk 0x0103 0 None [mkTable (TPmt (Some (mkPmt 0x0001 1 0x0ABC [] []))) 2];
      pk 0x0014 0 None [mkTable (TTot (Some (UnixEpoch + 1546398245000))) 3];
      pk 0x0ABC 0 (Some 302) [] ]
  = Some (EXIT_FAILURE, [], 0).
Proof. vm_compute. reflexivity. Qed.
