(** /repo/test/eitpf_collector_test.cc on the model; see TestBase.v.  An EIT pf of
    the XML becomes two sections, for the present and the following event, in one
    packet. *)
From Coq Require Import ZArith List Bool.
From Verif Require Import Base.Outcome Base.Util Model.Pcr Model.Sink Model.EitSection Model.EitpfCollector Spec.FeedSpec.
From Verif Require Import Tests.TestBase.
Import ListNotations.
Open Scope Z_scope.

Definition run (o : pf_option) : list (list section) -> option (Z * list eit_doc * Z) :=
  outcome (pf_sink mjd o) pf_init pf_out.
Definition kOption : pf_option := mkPfOption [] false true true.

(** eitpf_collector_test.cc:15-27 *)
Example EitpfCollectorTest_NoPacket : run kOption
    []
  = Some (EXIT_SUCCESS, [], 0).
Proof. vm_compute. reflexivity. Qed.

(** eitpf_collector_test.cc:29-103 *)
Example EitpfCollectorTest_PresentFollowing : run (mkPfOption [3] false true true)
    [
      [mkSection true 0x0012 0x4E 0x0003 1 false 0 1
         [0x00; 0x02; 0x00; 0x01; 0x01; 0x4E; 0x00; 0x04; 0x9E; 0x8B; 0x09; 0x00; 0x00; 0x00; 0x00; 0x01; 0x00; 0x00] [0; 0; 0; 0];
       mkSection true 0x0012 0x4E 0x0003 1 false 1 1
         [0x00; 0x02; 0x00; 0x01; 0x01; 0x4E; 0x00; 0x05; 0x9E; 0x8B; 0x09; 0x00; 0x01; 0x00; 0x00; 0x01; 0x00; 0x00] [0; 0; 0; 0]];
      [mkSection true 0x0012 0x4E 0x0003 2 false 0 1
         [0x00; 0x02; 0x00; 0x01; 0x01; 0x4E; 0x00; 0x04; 0x9E; 0x8B; 0x09; 0x00; 0x00; 0x00; 0x00; 0x01; 0x00; 0x00] [0; 0; 0; 0];
       mkSection true 0x0012 0x4E 0x0003 2 false 1 1
         [0x00; 0x02; 0x00; 0x01; 0x01; 0x4E; 0x00; 0x05; 0x9E; 0x8B; 0x09; 0x00; 0x01; 0x00; 0x00; 0x01; 0x00; 0x00] [0; 0; 0; 0]] ]
  = Some (EXIT_SUCCESS, [
      mkEitDoc 1 2 3 78 0 1 1 1 [mkEvent 4 (Some 0) (Some 1000) false []];
      mkEitDoc 1 2 3 78 1 1 1 1 [mkEvent 5 (Some 1000) (Some 1000) false []] ], 1).
Proof. vm_compute. reflexivity. Qed.

(** eitpf_collector_test.cc:105-163 *)
Example EitpfCollectorTest_Present : run (mkPfOption [3] false true false)
    [
      [mkSection true 0x0012 0x4E 0x0003 1 false 0 1
         [0x00; 0x02; 0x00; 0x01; 0x01; 0x4E; 0x00; 0x04; 0x9E; 0x8B; 0x09; 0x00; 0x00; 0x00; 0x00; 0x01; 0x00; 0x00] [0; 0; 0; 0];
       mkSection true 0x0012 0x4E 0x0003 1 false 1 1
         [0x00; 0x02; 0x00; 0x01; 0x01; 0x4E; 0x00; 0x05; 0x9E; 0x8B; 0x09; 0x00; 0x01; 0x00; 0x00; 0x01; 0x00; 0x00] [0; 0; 0; 0]];
      [mkSection true 0x0012 0x4E 0x0003 2 false 0 1
         [0x00; 0x02; 0x00; 0x01; 0x01; 0x4E; 0x00; 0x04; 0x9E; 0x8B; 0x09; 0x00; 0x00; 0x00; 0x00; 0x01; 0x00; 0x00] [0; 0; 0; 0];
       mkSection true 0x0012 0x4E 0x0003 2 false 1 1
         [0x00; 0x02; 0x00; 0x01; 0x01; 0x4E; 0x00; 0x05; 0x9E; 0x8B; 0x09; 0x00; 0x01; 0x00; 0x00; 0x01; 0x00; 0x00] [0; 0; 0; 0]] ]
  = Some (EXIT_SUCCESS, [
      mkEitDoc 1 2 3 78 0 1 1 1 [mkEvent 4 (Some 0) (Some 1000) false []] ], 1).
Proof. vm_compute. reflexivity. Qed.

(** eitpf_collector_test.cc:165-223 *)
Example EitpfCollectorTest_Following : run (mkPfOption [3] false false true)
    [
      [mkSection true 0x0012 0x4E 0x0003 1 false 0 1
         [0x00; 0x02; 0x00; 0x01; 0x01; 0x4E; 0x00; 0x04; 0x9E; 0x8B; 0x09; 0x00; 0x00; 0x00; 0x00; 0x01; 0x00; 0x00] [0; 0; 0; 0];
       mkSection true 0x0012 0x4E 0x0003 1 false 1 1
         [0x00; 0x02; 0x00; 0x01; 0x01; 0x4E; 0x00; 0x05; 0x9E; 0x8B; 0x09; 0x00; 0x01; 0x00; 0x00; 0x01; 0x00; 0x00] [0; 0; 0; 0]];
      [mkSection true 0x0012 0x4E 0x0003 2 false 0 1
         [0x00; 0x02; 0x00; 0x01; 0x01; 0x4E; 0x00; 0x04; 0x9E; 0x8B; 0x09; 0x00; 0x00; 0x00; 0x00; 0x01; 0x00; 0x00] [0; 0; 0; 0];
       mkSection true 0x0012 0x4E 0x0003 2 false 1 1
         [0x00; 0x02; 0x00; 0x01; 0x01; 0x4E; 0x00; 0x05; 0x9E; 0x8B; 0x09; 0x00; 0x01; 0x00; 0x00; 0x01; 0x00; 0x00] [0; 0; 0; 0]] ]
  = Some (EXIT_SUCCESS, [
      mkEitDoc 1 2 3 78 1 1 1 1 [mkEvent 5 (Some 1000) (Some 1000) false []] ], 1).
Proof. vm_compute. reflexivity. Qed.

(** eitpf_collector_test.cc:225-342 *)
Example EitpfCollectorTest_PresentFollowingStreaming : run (mkPfOption [] true true true)
    [
      [mkSection true 0x0012 0x4E 0x0003 1 false 0 1
         [0x00; 0x02; 0x00; 0x01; 0x01; 0x4E; 0x00; 0x04; 0x9E; 0x8B; 0x09; 0x00; 0x00; 0x00; 0x00; 0x01; 0x00; 0x00] [0; 0; 0; 0];
       mkSection true 0x0012 0x4E 0x0003 1 false 1 1
         [0x00; 0x02; 0x00; 0x01; 0x01; 0x4E; 0x00; 0x05; 0x9E; 0x8B; 0x09; 0x00; 0x01; 0x00; 0x00; 0x01; 0x00; 0x00] [0; 0; 0; 0]];
      [mkSection true 0x0012 0x4E 0x0003 1 false 0 1
         [0x00; 0x02; 0x00; 0x01; 0x01; 0x4E; 0x00; 0x04; 0x9E; 0x8B; 0x09; 0x00; 0x00; 0x00; 0x00; 0x01; 0x00; 0x00] [0; 0; 0; 0];
       mkSection true 0x0012 0x4E 0x0003 1 false 1 1
         [0x00; 0x02; 0x00; 0x01; 0x01; 0x4E; 0x00; 0x05; 0x9E; 0x8B; 0x09; 0x00; 0x01; 0x00; 0x00; 0x01; 0x00; 0x00] [0; 0; 0; 0]];
      [mkSection true 0x0012 0x4E 0x0003 2 false 0 1
         [0x00; 0x02; 0x00; 0x01; 0x01; 0x4E; 0x00; 0x04; 0x9E; 0x8B; 0x09; 0x00; 0x00; 0x00; 0x00; 0x01; 0x00; 0x00] [0; 0; 0; 0];
       mkSection true 0x0012 0x4E 0x0003 2 false 1 1
         [0x00; 0x02; 0x00; 0x01; 0x01; 0x4E; 0x00; 0x05; 0x9E; 0x8B; 0x09; 0x00; 0x01; 0x00; 0x00; 0x01; 0x00; 0x00] [0; 0; 0; 0]] ]
  = Some (EXIT_SUCCESS, [
      mkEitDoc 1 2 3 78 0 1 1 1 [mkEvent 4 (Some 0) (Some 1000) false []];
      mkEitDoc 1 2 3 78 1 1 1 1 [mkEvent 5 (Some 1000) (Some 1000) false []];
      mkEitDoc 1 2 3 78 0 1 1 2 [mkEvent 4 (Some 0) (Some 1000) false []];
      mkEitDoc 1 2 3 78 1 1 1 2 [mkEvent 5 (Some 1000) (Some 1000) false []] ], 0).
Proof. vm_compute. reflexivity. Qed.

(** eitpf_collector_test.cc:344-428 *)
Example EitpfCollectorTest_PresentStreaming : run (mkPfOption [] true true false)
    [
      [mkSection true 0x0012 0x4E 0x0003 1 false 0 1
         [0x00; 0x02; 0x00; 0x01; 0x01; 0x4E; 0x00; 0x04; 0x9E; 0x8B; 0x09; 0x00; 0x00; 0x00; 0x00; 0x01; 0x00; 0x00] [0; 0; 0; 0];
       mkSection true 0x0012 0x4E 0x0003 1 false 1 1
         [0x00; 0x02; 0x00; 0x01; 0x01; 0x4E; 0x00; 0x05; 0x9E; 0x8B; 0x09; 0x00; 0x01; 0x00; 0x00; 0x01; 0x00; 0x00] [0; 0; 0; 0]];
      [mkSection true 0x0012 0x4E 0x0003 1 false 0 1
         [0x00; 0x02; 0x00; 0x01; 0x01; 0x4E; 0x00; 0x04; 0x9E; 0x8B; 0x09; 0x00; 0x00; 0x00; 0x00; 0x01; 0x00; 0x00] [0; 0; 0; 0];
       mkSection true 0x0012 0x4E 0x0003 1 false 1 1
         [0x00; 0x02; 0x00; 0x01; 0x01; 0x4E; 0x00; 0x05; 0x9E; 0x8B; 0x09; 0x00; 0x01; 0x00; 0x00; 0x01; 0x00; 0x00] [0; 0; 0; 0]];
      [mkSection true 0x0012 0x4E 0x0003 2 false 0 1
         [0x00; 0x02; 0x00; 0x01; 0x01; 0x4E; 0x00; 0x04; 0x9E; 0x8B; 0x09; 0x00; 0x00; 0x00; 0x00; 0x01; 0x00; 0x00] [0; 0; 0; 0];
       mkSection true 0x0012 0x4E 0x0003 2 false 1 1
         [0x00; 0x02; 0x00; 0x01; 0x01; 0x4E; 0x00; 0x05; 0x9E; 0x8B; 0x09; 0x00; 0x01; 0x00; 0x00; 0x01; 0x00; 0x00] [0; 0; 0; 0]] ]
  = Some (EXIT_SUCCESS, [
      mkEitDoc 1 2 3 78 0 1 1 1 [mkEvent 4 (Some 0) (Some 1000) false []];
      mkEitDoc 1 2 3 78 0 1 1 2 [mkEvent 4 (Some 0) (Some 1000) false []] ], 0).
Proof. vm_compute. reflexivity. Qed.

(** eitpf_collector_test.cc:430-514 *)
Example EitpfCollectorTest_FollowingStreaming : run (mkPfOption [] true false true)
    [
      [mkSection true 0x0012 0x4E 0x0003 1 false 0 1
         [0x00; 0x02; 0x00; 0x01; 0x01; 0x4E; 0x00; 0x04; 0x9E; 0x8B; 0x09; 0x00; 0x00; 0x00; 0x00; 0x01; 0x00; 0x00] [0; 0; 0; 0];
       mkSection true 0x0012 0x4E 0x0003 1 false 1 1
         [0x00; 0x02; 0x00; 0x01; 0x01; 0x4E; 0x00; 0x05; 0x9E; 0x8B; 0x09; 0x00; 0x01; 0x00; 0x00; 0x01; 0x00; 0x00] [0; 0; 0; 0]];
      [mkSection true 0x0012 0x4E 0x0003 1 false 0 1
         [0x00; 0x02; 0x00; 0x01; 0x01; 0x4E; 0x00; 0x04; 0x9E; 0x8B; 0x09; 0x00; 0x00; 0x00; 0x00; 0x01; 0x00; 0x00] [0; 0; 0; 0];
       mkSection true 0x0012 0x4E 0x0003 1 false 1 1
         [0x00; 0x02; 0x00; 0x01; 0x01; 0x4E; 0x00; 0x05; 0x9E; 0x8B; 0x09; 0x00; 0x01; 0x00; 0x00; 0x01; 0x00; 0x00] [0; 0; 0; 0]];
      [mkSection true 0x0012 0x4E 0x0003 2 false 0 1
         [0x00; 0x02; 0x00; 0x01; 0x01; 0x4E; 0x00; 0x04; 0x9E; 0x8B; 0x09; 0x00; 0x00; 0x00; 0x00; 0x01; 0x00; 0x00] [0; 0; 0; 0];
       mkSection true 0x0012 0x4E 0x0003 2 false 1 1
         [0x00; 0x02; 0x00; 0x01; 0x01; 0x4E; 0x00; 0x05; 0x9E; 0x8B; 0x09; 0x00; 0x01; 0x00; 0x00; 0x01; 0x00; 0x00] [0; 0; 0; 0]] ]
  = Some (EXIT_SUCCESS, [
      mkEitDoc 1 2 3 78 1 1 1 1 [mkEvent 5 (Some 1000) (Some 1000) false []];
      mkEitDoc 1 2 3 78 1 1 1 2 [mkEvent 5 (Some 1000) (Some 1000) false []] ], 0).
Proof. vm_compute. reflexivity. Qed.

(** eitpf_collector_test.cc:516-591 *)
Example EitpfCollectorTest_Sids : run (mkPfOption [3] true true true)
    [
      [mkSection true 0x0012 0x4E 0x0003 1 false 0 1
         [0x00; 0x02; 0x00; 0x01; 0x01; 0x4E; 0x00; 0x04; 0x9E; 0x8B; 0x09; 0x00; 0x00; 0x00; 0x00; 0x01; 0x00; 0x00] [0; 0; 0; 0];
       mkSection true 0x0012 0x4E 0x0003 1 false 1 1
         [0x00; 0x02; 0x00; 0x01; 0x01; 0x4E; 0x00; 0x05; 0x9E; 0x8B; 0x09; 0x00; 0x01; 0x00; 0x00; 0x01; 0x00; 0x00] [0; 0; 0; 0]];
      [mkSection true 0x0012 0x4E 0x0010 2 false 0 1
         [0x00; 0x02; 0x00; 0x01; 0x01; 0x4E; 0x00; 0x04; 0x9E; 0x8B; 0x09; 0x00; 0x00; 0x00; 0x00; 0x01; 0x00; 0x00] [0; 0; 0; 0];
       mkSection true 0x0012 0x4E 0x0010 2 false 1 1
         [0x00; 0x02; 0x00; 0x01; 0x01; 0x4E; 0x00; 0x05; 0x9E; 0x8B; 0x09; 0x00; 0x01; 0x00; 0x00; 0x01; 0x00; 0x00] [0; 0; 0; 0]] ]
  = Some (EXIT_SUCCESS, [
      mkEitDoc 1 2 3 78 0 1 1 1 [mkEvent 4 (Some 0) (Some 1000) false []];
      mkEitDoc 1 2 3 78 1 1 1 1 [mkEvent 5 (Some 1000) (Some 1000) false []] ], 0).
Proof. vm_compute. reflexivity. Qed.
