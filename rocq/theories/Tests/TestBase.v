(** The unit tests of /repo/test, run on the model.

    Each Example of this directory is one TEST of the repository: the packets are
    those that TableSource makes of the XML of the test, the expected calls of the
    mock objects are the expected outputs.  These are tests, not proofs: they show
    that the model gives the answers that the authors of the program expect from
    it.  TableSource makes one packet of each table (test_helper.hh:118-165).  A
    TSDuck demultiplexer does not deliver a table again whose version it has
    delivered, and no table from a packet whose payload is empty (test-pcr). *)
From Coq Require Import ZArith List Bool.
From Verif Require Import Base.Outcome Base.Util Model.Sink Model.Ts.
From Verif Require Import Spec.FeedSpec.
Import ListNotations.
Open Scope Z_scope.

(** An input packet: PID, continuity counter, PCR, and the table it completes.
    The continuity counter serves as the identity of the packet within its PID. *)
Definition pk (pid cc : Z) (pcr : option Z) (ts : list table) : packet :=
  mkPacket (Raw cc) pid true pcr None None (fun _ => ts) (fun _ => 1%nat).

Definition video (tag : option Z) : stream := mkStream true false 0x02 false tag.
Definition audio (tag : option Z) : stream := mkStream false true 0x0F false tag.
Definition other_stream (type : Z) (tag : option Z) : stream := mkStream false false type false tag.

(** MockSink with [Start] returning true, [HandlePacket] returning true and
    [GetExitCode] returning EXIT_SUCCESS. *)
Definition mock : sink packet :=
  mkSink unit (fun s => Ok (s, true)) (fun s _ => Ok (s, true)) (fun s => Ok s) (fun _ => Ok EXIT_SUCCESS).

(** EXPECT_EQ(..., packet.getPID()) and, if given, EXPECT_EQ(..., packet.getCC()).
    The continuity counter of a packet that the program makes is not modelled. *)
Definition expected (q : packet) (e : Z * option Z) : bool :=
  (p_pid q =? fst e) &&
  match snd e, p_content q with
  | Some cc, Raw id => id =? cc
  | _, _ => true
  end.

Fixpoint all_expected (qs : list packet) (es : list (Z * option Z)) : bool :=
  match qs, es with
  | [], [] => true
  | q :: qs, e :: es => expected q e && all_expected qs es
  | _, _ => false
  end.

(** The packets of a log that starts with [Start] and ends with [End]. *)
Fixpoint handled (l : list (call packet)) : option (list packet) :=
  match l with
  | [CEnd] => Some []
  | CPacket q true :: r => match handled r with Some qs => Some (q :: qs) | None => None end
  | _ => None
  end.

(** The packets that a component was given: all calls of HandlePacket. *)
Fixpoint fed {P} (l : list (call P)) : Z :=
  match l with
  | CPacket _ _ :: r => 1 + fed r
  | _ :: r => fed r
  | [] => 0
  end.

(** A test of a filter, with the mock sink behind it: the exit code, the expected
    packets, and the number of packets that remain in the source. *)
Definition passes (k : sink packet -> sink packet) (init : unit * list (call packet) -> sk_state (k (logged mock)))
    (down : sk_state (k (logged mock)) -> list (call packet))
    (ps : list packet) (code : Z) (es : list (Z * option Z)) (remaining : Z) : bool :=
  match FeedPackets (list_source packet) (logged (k (logged mock))) (S (length ps)) ps (init (tt, []), []) with
  | Some (Ok (c, (s, outer))) =>
      (c =? code) && (zlen ps - fed outer =? remaining) &&
      match down s with
      | CStart true :: r => match handled r with Some qs => all_expected qs es | None => false end
      | _ => false
      end
  | _ => false
  end.

(** A test of a component that writes documents: the exit code, the documents,
    and the number of packets that remain in the source. *)
Definition outcome {P D} (k : sink P) (init : sk_state k) (out : sk_state k -> D) (ps : list P) : option (Z * D * Z) :=
  match FeedPackets (list_source P) (logged k) (S (length ps)) ps (init, []) with
  | Some (Ok (c, (s, outer))) => Some (c, out s, zlen ps - fed outer)
  | _ => None
  end.

(** ts::DecodeMJD on five bytes: a day number and three BCD numbers. *)
Definition mjd (b : list Z) : option Z :=
  match b with
  | [d1; d0; h; m; s] =>
      if forallb (fun x => (Z.shiftr x 4 <? 10) && (Z.land x 15 <? 10)) [h; m; s] then
        let bcd x := 10 * Z.shiftr x 4 + Z.land x 15 in
        Some (((d1 * 256 + d0) * 86400 + bcd h * 3600 + bcd m * 60 + bcd s) * 1000)
      else None
  | _ => None
  end.
