(** /repo/test/packet_source_test.cc on the model; see TestBase.v. *)
From Coq Require Import ZArith List Bool.
From Verif Require Import Base.Outcome Base.Util Model.Sink Model.FileSource Spec.FeedSpec.
Import ListNotations.
Open Scope Z_scope.

(** ts::NullPacket *)
Definition null_packet : list Z := 0x47 :: 0x1F :: 0xFF :: 0x10 :: repeat 0xFF 184.
(** A read that stores [n] null packets, and one that stores [n] packets of zeros. *)
Definition nulls (n : nat) : read_result := ReadData (concat (repeat null_packet n)).
Definition zeros (n : nat) : read_result := ReadData (concat (repeat (repeat 0 188) n)).

(** MockSink with the given exit code. *)
Definition mock (code : Z) : sink (list Z) :=
  mkSink unit (fun s => Ok (s, true)) (fun s _ => Ok (s, true)) (fun s => Ok s) (fun _ => Ok code).

(** The calls of HandlePacket between Start and End; the packets of the tests are
    null packets. *)
Fixpoint between (l : list (call (list Z))) : option Z :=
  match l with
  | [CEnd] => Some 0
  | CPacket p true :: r =>
      match between r with
      | Some n => if zlen p =? 188 then Some (1 + n) else None
      | None => None
      end
  | _ => None
  end.

(** The exit code and the number of packets handled, when Start and End are called
    as expected, each read is made, and no more. *)
Definition run (code : Z) (reads : list read_result) : option (Z * Z) :=
  match FeedPackets file_source (logged (mock code)) 100 (fs_init reads) (tt, []) with
  | Some (Ok (c, (_, CStart true :: r))) =>
      match between r with Some n => Some (c, n) | None => None end
  | _ => None
  end.

(** packet_source_test.cc:11-28 *)
Example PacketSourceTest_EmptyFile : run EXIT_SUCCESS [ReadData []] = Some (EXIT_SUCCESS, 0).
Proof. vm_compute. reflexivity. Qed.
(** packet_source_test.cc:30-48.  The byte is whatever the buffer held. *)
Example PacketSourceTest_OneByteFile : run EXIT_SUCCESS [ReadData [0]; ReadData []] = Some (EXIT_SUCCESS, 0).
Proof. vm_compute. reflexivity. Qed.
(** packet_source_test.cc:50-70 *)
Example PacketSourceTest_OnePacketFile : run EXIT_SUCCESS [nulls 1; ReadData []] = Some (EXIT_SUCCESS, 1).
Proof. vm_compute. reflexivity. Qed.
(** packet_source_test.cc:72-101 *)
Example PacketSourceTest_Resync :
  run EXIT_SUCCESS [ReadData [0; SYNC_BYTE; 0]; nulls 5; ReadData []] = Some (EXIT_SUCCESS, 5).
Proof. vm_compute. reflexivity. Qed.
(** packet_source_test.cc:103-124 *)
Example PacketSourceTest_ResyncFailure : run EXIT_SUCCESS [zeros 10] = Some (EXIT_SUCCESS, 0).
Proof. vm_compute. reflexivity. Qed.
(** packet_source_test.cc:126-169.  The first read is 85 packets long. *)
Example PacketSourceTest_WrapAroundWhileResync :
  kReadChunkSize / PKT_SIZE - 2 = 85 /\
  run EXIT_SUCCESS [nulls 85; ReadData [0; SYNC_BYTE; 0]; nulls 1; nulls 4; ReadData []] = Some (EXIT_SUCCESS, 85 + 5).
Proof. split; vm_compute; reflexivity. Qed.
(** packet_source_test.cc:171-192 *)
Example PacketSourceTest_ResyncFailedWithEOF : run EXIT_SUCCESS [ReadData [0]; ReadData []] = Some (EXIT_SUCCESS, 0).
Proof. vm_compute. reflexivity. Qed.
(** packet_source_test.cc:194-218 *)
Example PacketSourceTest_ResyncFailedWithNoSyncByte :
  run EXIT_SUCCESS [ReadData [0]; zeros 5] = Some (EXIT_SUCCESS, 0).
Proof. vm_compute. reflexivity. Qed.
(** packet_source_test.cc:220-237 *)
Example PacketSourceTest_Successfully : run EXIT_SUCCESS [ReadData []] = Some (EXIT_SUCCESS, 0).
Proof. vm_compute. reflexivity. Qed.
(** packet_source_test.cc:239-256 *)
Example PacketSourceTest_Unsuccessfully : run EXIT_FAILURE [ReadData []] = Some (EXIT_FAILURE, 0).
Proof. vm_compute. reflexivity. Qed.
