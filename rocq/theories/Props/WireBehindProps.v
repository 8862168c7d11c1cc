(** C106 (continued): other commands behind filter-service, on bytes. *)
From Coq Require Import String ZArith Lia List Bool.
From Verif Require Import Base.Outcome Base.Util Model.Sink Model.Ts Model.FileSource Model.StartSeeker Model.Main
  Spec.PcrSpec Spec.SourceSpec Spec.StdoutSpec Spec.TransSpec Spec.FilterSpec Spec.PipeSpec Spec.TuneSpec Spec.TwiceSpec Spec.SeekSpec Spec.MainSpec Spec.PipelineSpec Spec.BehindSpec
  Spec.WireSpec Proofs.BehindProofs Proofs.WireProofs Proofs.WireSeek.
From Verif Require Props.WireProps.
Import ListNotations.
Open Scope Z_scope.

(** track-airtime, filter-program-metadata, collect-eits and collect-eitpf print
    what they print of the part of the input in which the service is on the air. *)
Theorem C106_events : forall sid sys1 bs n1 e1, has_input sys1 bs n1 -> Forall is_byte (input_bytes sys1) -> Forall no_error (sy_writes sys1) ->
  main wire sys1 (FilterService sid) n1 = Some (Ok e1) ->
  well_placed (sid mod 2 ^ 16) (views (li_packet wire) [] bs) -> pat_first (sid mod 2 ^ 16) (views (li_packet wire) [] bs) ->
  exists before during after, bs = before ++ during ++ after /\
    on_air (sid mod 2 ^ 16) (views (li_packet wire) [] before) (views (li_packet wire) (rev before) during) (views (li_packet wire) (rev during ++ rev before) after) /\
    (en_code e1 = 0 /\ after = [] \/ en_code e1 = 1 /\ after <> []) /\
    forall c sys n sys2 n2, reads_events c -> has_input sys during n -> Forall is_byte (input_bytes sys) -> reads_from sys2 (en_stdout e1) n2 ->
      sy_flushes sys2 = sy_flushes sys -> main wire sys c n = main wire sys2 c n2.
Proof. exact (behind_events wire wire_faithful wire_pats wire_apart). Qed.
Print Assumptions C106_events.

(** seek-start ends with 0 and writes all it got, or one packet of PID 0 and all
    from a later packet on, if the PCRs of the input are within the cycle. *)
Theorem C106_seek : forall sid sys1 bs n1 e1, has_input sys1 bs n1 -> Forall is_byte (input_bytes sys1) -> Forall no_error (sy_writes sys1) ->
  main wire sys1 (FilterService sid) n1 = Some (Ok e1) ->
  well_placed (sid mod 2 ^ 16) (views (li_packet wire) [] bs) -> pat_first (sid mod 2 ^ 16) (views (li_packet wire) [] bs) ->
  (forall b v, In b bs -> pcr_bytes b = Some v -> v < pcr_cycle) ->
  forall d p sys2 n2, ~ no_limit d p -> reads_from sys2 (en_stdout e1) n2 -> Forall no_error (sy_writes sys2) ->
  let o := mkSsOption (sid mod 2 ^ 16) (match d with Some v => v | None => 0 end) (match p with Some v => v mod 2 ^ 32 | None => 0 end) in
  sane_seek o ->
  exists out e r, packets_of (en_stdout e1) out /\ main (with_packet wire wire_at) sys2 (SeekStart sid d p) n2 = Some (Ok e) /\ en_code e = 0 /\
    seek o 0 [] None 0 (views wire_at [] out) r /\
    match r with
    | Whole _ => en_stdout e = en_stdout e1
    | Cut i j _ => exists a, znth i out = Some a /\ pid_bytes a = 0 /\ 0 < j < zlen out /\ en_stdout e = a ++ concat (zdrop j out)
    end.
Proof. exact wire_seek. Qed.
Print Assumptions C106_seek.

(** ** Cases *)
Definition data := WireProps.data_packet.
(** Service 1 gets a second sound stream, then goes off the air. *)
Definition pmt_of (version : Z) (l : list Z) : pmt :=
  mkPmt 1 version 0x101 [] ((0x102, mkStream true false 0x02 false (Some 0)) :: map (fun pid => (pid, mkStream false true 0x0F false (Some 16))) l).
(** An EIT p/f with one event of half an hour, at 12:45 on the day 0xC079. *)
Definition eit_of (version eid : Z) : list Z :=
  packet_with 0x12 (section_with 0x4E 1 version ([0; 7; 0; 4; 0; 0x4E] ++ two eid ++ [0xC0; 0x79; 0x12; 0x45; 0x00; 0x00; 0x30; 0x00; 0x80; 0x00])).
Definition changing : list (list Z) :=
  [eit_of 0 9; pat_packet (mkPat 7 3 [(0, 0x10); (1, 0x100); (2, 0x200)]); pmt_packet 0x100 (pmt_of 0 [0x103]); WireProps.pcr_packet;
   eit_of 1 10; data 0x102 2; data 0x202 3; pmt_packet 0x100 (pmt_of 1 [0x103; 0x104]); data 0x104 4; eit_of 2 10; data 0x102 5;
   pat_packet (mkPat 7 4 [(0, 0x10); (2, 0x200)]); eit_of 3 10].
Definition sys_of (l : list (list Z)) : system := mkSystem [] 0 (map ReadData l) [] [] (fun _ => 0) 4 [].
Definition sent_one : list (list Z) :=
  [pat_packet (mkPat 7 3 [(0, 0x10); (1, 0x100)]); nth 2 changing []; WireProps.pcr_packet; eit_of 1 10; data 0x102 2; nth 7 changing []; data 0x104 4; eit_of 2 10; data 0x102 5].
Example C106_case_sent : main wire (sys_of changing) (FilterService 1) 4000 = Some (Ok (mkEnded 1 (concat sent_one) [])).
Proof. vm_compute. reflexivity. Qed.
(** seek-start --sid=1 --max-packets=100 behind it: the PAT, then all from the new
    PMT on. *)
Example C106_case_seek : main (with_packet wire wire_at) (WireProps.through_pipe (concat sent_one)) (SeekStart 1 None (Some 100)) 4000 =
  Some (Ok (mkEnded 0 (nth 0 sent_one [] ++ concat (skipn 5 sent_one)) [])).
Proof. vm_compute. reflexivity. Qed.
(** The EIT in bytes, and track-airtime --sid=1 --eid=10 behind filter-service: as on the part from the
    PAT on to the PAT without the service, two lines. *)
Example C106_case_eit : bodies (eit_of 1 10) = [TEit (Some (mkEit 1 7 4 1 [mkEvent 10 (((0xC079 * 24 + 12) * 60 + 45) * 60 * 1000) 1800 0]))].
Proof. vm_compute. reflexivity. Qed.
Definition lines (r : option (res ended)) : option (Z * Z) :=
  match r with Some (Ok e) => Some (en_code e, zlen (List.filter (fun x => x =? 10) (en_stdout e))) | _ => None end.
Example C106_case_airtime :
  main wire (WireProps.through_pipe (concat sent_one)) (TrackAirtime 1 10) 4000 = main wire (sys_of (firstn 10 (skipn 1 changing))) (TrackAirtime 1 10) 4000 /\
  lines (main wire (WireProps.through_pipe (concat sent_one)) (TrackAirtime 1 10) 4000) = Some (0, 2).
Proof. vm_compute. split; reflexivity. Qed.
(** The conditions of the theorems hold of it. *)
Example C106_case_seek_conditions :
  well_placed 1 (views (li_packet wire) [] changing) /\ pat_first 1 (views (li_packet wire) [] changing) /\
  (forall b v, In b changing -> pcr_bytes b = Some v -> v < pcr_cycle) /\ ~ no_limit None (Some 100) /\ sane_seek (mkSsOption 1 0 100) /\
  reads_events (TrackAirtime 1 10).
Proof.
  destruct (WireProps.proper_ok changing) as [A B]; [vm_compute; reflexivity|]. split; [exact A|]. split; [exact B|]. split; [|split; [|split]].
  - intros b v I E. assert (X : forallb (fun b => match pcr_bytes b with Some v => v <? pcr_cycle | None => true end) changing = true) by (vm_compute; reflexivity).
    rewrite forallb_forall in X. specialize (X b I). rewrite E in X. lia.
  - intros [_ [X|(k & X)]]; [discriminate X|]. injection X as X. lia.
  - unfold sane_seek. cbn. lia.
  - exact Logic.I.
Qed.
