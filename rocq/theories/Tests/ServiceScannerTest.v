(** /repo/test/service_scanner_test.cc on the model; see TestBase.v. *)
From Coq Require Import ZArith List Bool.
From Verif Require Import Base.Outcome Base.Util Model.Pcr Model.Sink Model.Ts Model.ServiceScanner Spec.FeedSpec Tests.TestBase.
Import ListNotations.
Open Scope Z_scope.

(** The name service-N is represented by N. *)
Definition run (o : sc_option) : list packet -> option (Z * list (list service_doc) * Z) :=
  outcome (sc_sink o) sc_init sc_out.
Definition kEmptyOption : sc_option := mkScOption [] [].

(** service_scanner_test.cc:16-27 *)
Example ServiceScannerTest_NoPacket : run kEmptyOption
    []
  = Some (EXIT_FAILURE, [], 0).
Proof. vm_compute. reflexivity. Qed.

(** service_scanner_test.cc:29-92 *)
Example ServiceScannerTest_Complete : run kEmptyOption
    [
      pk 0x0000 0 None [mkTable (TPat (Some (mkPat 0x0003 1 [(0x0001, 0x0101); (0x0002, 0x0102)]))) 0];
      pk 0x0010 0 None [mkTable (TNit (Some (mkNit [(0x1234, 0x0002, None)]))) 1];
      pk 0x0011 0 None [mkTable (TSdt (Some (mkSdt 0x0003 0x0002 [(0x0001, mkService 0x01 1 None); (0x0002, mkService 0x01 2 None)]))) 2] ]
  = Some (EXIT_SUCCESS, [
      [mkServiceDoc 2 3 1 1 1 (-1) None;
       mkServiceDoc 2 3 2 2 1 (-1) None] ], 0).
Proof. vm_compute. reflexivity. Qed.

(** service_scanner_test.cc:94-133 *)
Example ServiceScannerTest_NoPat : run kEmptyOption
    [
      pk 0x0010 0 None [mkTable (TNit (Some (mkNit [(0x1234, 0x0002, None)]))) 0];
      pk 0x0011 0 None [mkTable (TSdt (Some (mkSdt 0x1234 0x0002 [(0x0001, mkService 0x01 1 None); (0x0002, mkService 0x01 2 None)]))) 1] ]
  = Some (EXIT_FAILURE, [], 0).
Proof. vm_compute. reflexivity. Qed.

(** service_scanner_test.cc:135-174 *)
Example ServiceScannerTest_NoNit : run kEmptyOption
    [
      pk 0x0000 0 None [mkTable (TPat (Some (mkPat 0x1234 1 [(0x0001, 0x0101); (0x0002, 0x0102)]))) 0];
      pk 0x0011 0 None [mkTable (TSdt (Some (mkSdt 0x1234 0x0002 [(0x0001, mkService 0x01 1 None); (0x0002, mkService 0x01 2 None)]))) 1] ]
  = Some (EXIT_FAILURE, [], 0).
Proof. vm_compute. reflexivity. Qed.

(** service_scanner_test.cc:176-203 *)
Example ServiceScannerTest_NoSdt : run kEmptyOption
    [
      pk 0x0000 0 None [mkTable (TPat (Some (mkPat 0x1234 1 [(0x0001, 0x0101); (0x0002, 0x0102)]))) 0];
      pk 0x0010 0 None [mkTable (TNit (Some (mkNit [(0x1234, 0x0002, None)]))) 1] ]
  = Some (EXIT_FAILURE, [], 0).
Proof. vm_compute. reflexivity. Qed.

(** service_scanner_test.cc:205-268 *)
Example ServiceScannerTest_NonStandardNit : run kEmptyOption
    [
      pk 0x0000 0 None [mkTable (TPat (Some (mkPat 0x0003 1 [(0x0000, 0x1010); (0x0001, 0x0101); (0x0002, 0x0102)]))) 0];
      pk 0x1010 0 None [mkTable (TNit (Some (mkNit [(0x1234, 0x0002, None)]))) 1];
      pk 0x0011 0 None [mkTable (TSdt (Some (mkSdt 0x0003 0x0002 [(0x0001, mkService 0x01 1 None); (0x0002, mkService 0x01 2 None)]))) 2] ]
  = Some (EXIT_SUCCESS, [
      [mkServiceDoc 2 3 1 1 1 (-1) None;
       mkServiceDoc 2 3 2 2 1 (-1) None] ], 0).
Proof. vm_compute. reflexivity. Qed.

(** service_scanner_test.cc:270-341 *)
Example ServiceScannerTest_ServiceTypes : run kEmptyOption
    [
      pk 0x0000 0 None [mkTable (TPat (Some (mkPat 0x0003 1 [(0x0001, 0x0101); (0x0002, 0x0102); (0x0003, 0x0103)]))) 0];
      pk 0x0010 0 None [mkTable (TNit (Some (mkNit [(0x1234, 0x0002, None)]))) 1];
      pk 0x0011 0 None [mkTable (TSdt (Some (mkSdt 0x0003 0x0002 [(0x0001, mkService 0x01 1 None); (0x0002, mkService 0x02 2 None); (0x0003, mkService 0x03 3 None)]))) 2] ]
  = Some (EXIT_SUCCESS, [
      [mkServiceDoc 2 3 1 1 1 (-1) None;
       mkServiceDoc 2 3 2 2 2 (-1) None] ], 0).
Proof. vm_compute. reflexivity. Qed.

(** service_scanner_test.cc:343-402 *)
Example ServiceScannerTest_InclusionList : run (mkScOption [0x0001] [])
    [
      pk 0x0000 0 None [mkTable (TPat (Some (mkPat 0x0003 1 [(0x0001, 0x0101); (0x0002, 0x0102)]))) 0];
      pk 0x0010 0 None [mkTable (TNit (Some (mkNit [(0x1234, 0x0002, None)]))) 1];
      pk 0x0011 0 None [mkTable (TSdt (Some (mkSdt 0x0003 0x0002 [(0x0001, mkService 0x01 1 None); (0x0002, mkService 0x01 2 None)]))) 2] ]
  = Some (EXIT_SUCCESS, [
      [mkServiceDoc 2 3 1 1 1 (-1) None] ], 0).
Proof. vm_compute. reflexivity. Qed.

(** service_scanner_test.cc:404-463 *)
Example ServiceScannerTest_ExclusionList : run (mkScOption [] [0x0001])
    [
      pk 0x0000 0 None [mkTable (TPat (Some (mkPat 0x0003 1 [(0x0001, 0x0101); (0x0002, 0x0102)]))) 0];
      pk 0x0010 0 None [mkTable (TNit (Some (mkNit [(0x1234, 0x0002, None)]))) 1];
      pk 0x0011 0 None [mkTable (TSdt (Some (mkSdt 0x0003 0x0002 [(0x0001, mkService 0x01 1 None); (0x0002, mkService 0x01 2 None)]))) 2] ]
  = Some (EXIT_SUCCESS, [
      [mkServiceDoc 2 3 2 2 1 (-1) None] ], 0).
Proof. vm_compute. reflexivity. Qed.
