(** /repo/test/service_filter_test.cc on the model; see TestBase.v. *)
From Coq Require Import ZArith List Bool.
From Verif Require Import Base.Outcome Base.Util Model.Pcr Model.Sink Model.Ts Model.ServiceFilter Spec.FeedSpec Tests.TestBase.
Import ListNotations.
Open Scope Z_scope.

Definition run (o : service_filter_option) : list packet -> Z -> list (Z * option Z) -> Z -> bool :=
  passes (service_filter 0 o) (fun d => (sf_init o, d)) (fun s => snd (snd s)).
Definition kOption : service_filter_option := mkSfOption 0x0001 None.

(** service_filter_test.cc:17-35 *)
Example ServiceFilterTest_NoPacket : run kOption
    []
    EXIT_SUCCESS [] 0 = true.
Proof. vm_compute. reflexivity. Qed.

(** service_filter_test.cc:37-59 *)
Example ServiceFilterTest_NullPacket : run kOption
    [
      pk PID_NULL 0 None [] ]
    EXIT_SUCCESS [] 0 = true.
Proof. vm_compute. reflexivity. Qed.

(** service_filter_test.cc:61-89 *)
Example ServiceFilterTest_NoSidInPat : run kOption
    [
      pk 0x0000 0 None [mkTable (TPat (Some (mkPat 0x1234 1 [(0x1234, 0x1234)]))) 0] ]
    EXIT_FAILURE [] 0 = true.
Proof. vm_compute. reflexivity. Qed.

(** service_filter_test.cc:91-206 *)
Example ServiceFilterTest_ServiceStream : run kOption
    [
      pk 0x0000 0 None [mkTable (TPat (Some (mkPat 0x1234 1 [(0x0001, 0x0101); (0x0002, 0x0102)]))) 0];
      pk 0x0101 0 None [mkTable (TPmt (Some (mkPmt 0x0001 1 0x0901 [] [(0x0301, video None); (0x0302, audio None); (0x0303, other_stream 0x08 None)]))) 1];
      pk 0x0102 0 None [mkTable (TPmt (Some (mkPmt 0x0002 1 0x0902 [] [(0x0311, video None); (0x0312, audio None); (0x0313, other_stream 0x08 None)]))) 2];
      pk 0x0014 0 None [mkTable (TTot (Some (UnixEpoch + 1546398245000))) 3];
      pk 0x0301 0 None [];
      pk 0x0302 0 None [];
      pk 0x0303 0 None [];
      pk 0x0311 0 None [];
      pk 0x0312 0 None [];
      pk 0x0313 0 None [];
      pk 0x0012 0 None [mkTable (TEit (Some (mkEit 0x0001 0x1234 0x0001 1 [mkEvent 0x1001 (UnixEpoch + 1546398000000) 3600 0]))) 10];
      pk 0x0301 1 None [];
      pk 0x0302 1 None [];
      pk 0x0311 1 None [];
      pk 0x0312 1 None [] ]
    EXIT_SUCCESS [
      (0x0000, None);
      (0x0101, None);
      (0x0014, None);
      (0x0301, Some 0);
      (0x0302, Some 0);
      (0x0303, Some 0);
      (0x0012, None);
      (0x0301, Some 1);
      (0x0302, Some 1) ] 0 = true.
Proof. vm_compute. reflexivity. Qed.

(** service_filter_test.cc:208-292 *)
Example ServiceFilterTest_ResetFilterDueToPatChanged : run kOption
    [
      pk 0x0000 0 None [mkTable (TPat (Some (mkPat 0x1234 1 [(0x0001, 0x0101)]))) 0];
      pk 0x0101 0 None [mkTable (TPmt (Some (mkPmt 0x0001 1 0x0901 [] [(0x0301, video None); (0x0302, audio None)]))) 1];
      pk 0x0301 0 None [];
      pk 0x0302 0 None [];
      pk 0x0000 1 None [mkTable (TPat (Some (mkPat 0x1234 2 [(0x0001, 0x0102)]))) 4];
      pk 0x0101 1 None [];
      pk 0x0102 0 None [mkTable (TPmt (Some (mkPmt 0x0001 1 0x0902 [] [(0x0303, video None); (0x0304, audio None)]))) 6];
      pk 0x0301 1 None [];
      pk 0x0302 1 None [];
      pk 0x0303 0 None [];
      pk 0x0304 0 None [] ]
    EXIT_SUCCESS [
      (0x0000, None);
      (0x0101, None);
      (0x0301, None);
      (0x0302, None);
      (0x0000, None);
      (0x0102, None);
      (0x0303, None);
      (0x0304, None) ] 0 = true.
Proof. vm_compute. reflexivity. Qed.

(** service_filter_test.cc:294-367 *)
Example ServiceFilterTest_ResetFilterDueToPmtChanged : run kOption
    [
      pk 0x0000 0 None [mkTable (TPat (Some (mkPat 0x1234 1 [(0x0001, 0x0101)]))) 0];
      pk 0x0101 0 None [mkTable (TPmt (Some (mkPmt 0x0001 1 0x0901 [] [(0x0301, video None); (0x0302, audio None)]))) 1];
      pk 0x0301 0 None [];
      pk 0x0302 0 None [];
      pk 0x0101 1 None [mkTable (TPmt (Some (mkPmt 0x0001 2 0x0901 [] [(0x0303, video None); (0x0304, audio None)]))) 4];
      pk 0x0301 1 None [];
      pk 0x0302 1 None [];
      pk 0x0303 0 None [];
      pk 0x0304 0 None [] ]
    EXIT_SUCCESS [
      (0x0000, None);
      (0x0101, Some 0);
      (0x0301, None);
      (0x0302, None);
      (0x0101, Some 1);
      (0x0303, None);
      (0x0304, None) ] 0 = true.
Proof. vm_compute. reflexivity. Qed.

(** service_filter_test.cc:369-417 *)
Example ServiceFilterTest_TimeLimitTot : run (mkSfOption 0x0001 (Some (UnixEpoch + 1546398245000)))
    [
      pk 0x0012 1 None [mkTable (TEit (Some (mkEit 0x0001 0x1234 0x0001 1 [mkEvent 0x1001 (UnixEpoch + 1546398000000) 3600 0]))) 0];
      pk 0x0000 0 None [mkTable (TPat (Some (mkPat 0x1234 1 [(0x0001, 0x0101)]))) 1];
      pk 0x0014 0 None [mkTable (TTot (Some (UnixEpoch + 1546398244000))) 2];
      pk 0x0014 1 None [mkTable (TTot (Some (UnixEpoch + 1546398245000))) 3];
      pk 0x0014 2 None [mkTable (TTot (Some (UnixEpoch + 1546398246000))) 4] ]
    EXIT_SUCCESS [(0x0000, None); (0x0014, Some 0)] 1 = true.
Proof. vm_compute. reflexivity. Qed.

(** service_filter_test.cc:419-551 *)
Example ServiceFilterTest_Subtitle : run kOption
    [
      pk 0x0000 0 None [mkTable (TPat (Some (mkPat 0x1234 1 [(0x0001, 0x0101)]))) 0];
      pk 0x0101 0 None [mkTable (TPmt (Some (mkPmt 0x0001 1 0x0901 [] [(0x0300, other_stream 0x06 (Some 0x30)); (0x0301, other_stream 0x06 (Some 0x31)); (0x0302, other_stream 0x06 (Some 0x32)); (0x0303, other_stream 0x06 (Some 0x33)); (0x0304, other_stream 0x06 (Some 0x34)); (0x0305, other_stream 0x06 (Some 0x35)); (0x0306, other_stream 0x06 (Some 0x36)); (0x0307, other_stream 0x06 (Some 0x37))]))) 1];
      pk 0x0300 0 None [];
      pk 0x0301 0 None [];
      pk 0x0302 0 None [];
      pk 0x0303 0 None [];
      pk 0x0304 0 None [];
      pk 0x0305 0 None [];
      pk 0x0306 0 None [];
      pk 0x0307 0 None [] ]
    EXIT_SUCCESS [
      (0x0000, None);
      (0x0101, None);
      (0x0300, Some 0);
      (0x0301, Some 0);
      (0x0302, Some 0);
      (0x0303, Some 0);
      (0x0304, Some 0);
      (0x0305, Some 0);
      (0x0306, Some 0);
      (0x0307, Some 0) ] 0 = true.
Proof. vm_compute. reflexivity. Qed.

(** service_filter_test.cc:553-685 *)
Example ServiceFilterTest_SuperimposedText : run kOption
    [
      pk 0x0000 0 None [mkTable (TPat (Some (mkPat 0x1234 1 [(0x0001, 0x0101)]))) 0];
      pk 0x0101 0 None [mkTable (TPmt (Some (mkPmt 0x0001 1 0x0901 [] [(0x0308, other_stream 0x06 (Some 0x38)); (0x0309, other_stream 0x06 (Some 0x39)); (0x030A, other_stream 0x06 (Some 0x3A)); (0x030B, other_stream 0x06 (Some 0x3B)); (0x030C, other_stream 0x06 (Some 0x3C)); (0x030D, other_stream 0x06 (Some 0x3D)); (0x030E, other_stream 0x06 (Some 0x3E)); (0x030F, other_stream 0x06 (Some 0x3F))]))) 1];
      pk 0x0308 0 None [];
      pk 0x0309 0 None [];
      pk 0x030A 0 None [];
      pk 0x030B 0 None [];
      pk 0x030C 0 None [];
      pk 0x030D 0 None [];
      pk 0x030E 0 None [];
      pk 0x030F 0 None [] ]
    EXIT_SUCCESS [
      (0x0000, None);
      (0x0101, None);
      (0x0308, Some 0);
      (0x0309, Some 0);
      (0x030A, Some 0);
      (0x030B, Some 0);
      (0x030C, Some 0);
      (0x030D, Some 0);
      (0x030E, Some 0);
      (0x030F, Some 0) ] 0 = true.
Proof. vm_compute. reflexivity. Qed.

(** service_filter_test.cc:687-734 *)
Example ServiceFilterTest_PmtSidUnmatched : run kOption
    [
      pk 0x0000 0 None [mkTable (TPat (Some (mkPat 0x1234 1 [(0x0001, 0x0101); (0x0002, 0x0102)]))) 0];
      pk 0x0101 0 None [mkTable (TPmt (Some (mkPmt 0x0000 1 0x0ABC [] []))) 1];
      pk 0x0ABC 0 None [] ]
    EXIT_SUCCESS [(0x0000, None); (0x0101, Some 0)] 0 = true.
Proof. vm_compute. reflexivity. Qed.
