(** C106 (continued): times on the wire. *)
From Coq Require Import ZArith Lia List Bool.
From Verif Require Import Base.Util Model.Ts Spec.FilterSpec Spec.PipeSpec Spec.WireSpec Spec.WireTimeSpec Proofs.WireTime.
Import ListNotations.
Open Scope Z_scope.

(** Every PCR of the cycle is read back from its 48 bits. *)
Theorem C106_pcr : forall pid v, 0 <= v < 2 ^ 33 * 300 -> pcr_bytes (clock_packet pid v) = Some v.
Proof. exact pcr_back. Qed.
Print Assumptions C106_pcr.

(** Every PTS and DTS, of all streams that have them. *)
Theorem C106_stamps : forall pid id, has_stamps id ->
  (forall pts dts, 0 <= pts < 2 ^ 33 -> 0 <= dts < 2 ^ 33 ->
    pts_bytes (pes_packet pid id pts dts) = Some pts /\ dts_bytes (pes_packet pid id pts dts) = Some dts) /\
  (forall pts, 0 <= pts < 2 ^ 33 -> pts_bytes (pes_pts_packet pid id pts) = Some pts /\ dts_bytes (pes_pts_packet pid id pts) = None).
Proof. exact (fun pid id N => conj (fun pts dts => pes_back pid id pts dts N) (fun pts => pes_pts_back pid id pts N)). Qed.
Print Assumptions C106_stamps.

(** Every time on the second, from 1858-11-17 to 2038-04-22. *)
Theorem C106_time : forall ms, 0 <= ms < 65536 * 86400000 -> ms mod 1000 = 0 -> read_time (time_field ms) = Some ms.
Proof. exact time_back. Qed.
Print Assumptions C106_time.

(** An EIT p/f with its events. *)
Theorem C106_eit : forall t, eit_fits t -> pid_bytes (eit_packet t) = 0x12 /\ bodies (eit_packet t) = [TEit (Some t)].
Proof. exact eit_back. Qed.
Print Assumptions C106_eit.

(** ** Cases *)
(** The example of ARIB STD-B10 and EN 300 468: 93/10/13 12:45:00 is 0xC079124500,
    and 01:45:30 is 0x014530. *)
Example C106_case_time : time_field ((((0xC079 * 24 + 12) * 60 + 45) * 60) * 1000) = [0xC0; 0x79; 0x12; 0x45; 0x00] /\
  read_time [0xC0; 0x79; 0x12; 0x45; 0x00] = Some 4257233100000 /\ map digits [1; 45; 30] = [0x01; 0x45; 0x30].
Proof. vm_compute. repeat split; reflexivity. Qed.
(** 93/10/13 is the day 49273. *)
Example C106_case_day : 0xC079 = 49273.
Proof. reflexivity. Qed.
(** No time: all ones. *)
Example C106_case_no_time : read_time [0xFF; 0xFF; 0xFF; 0xFF; 0xFF] = None.
Proof. reflexivity. Qed.
(** The last PCR of the cycle, and stamps with ones at the ends of the three parts. *)
Example C106_case_last : firstn 6 (skipn 6 (clock_packet 0x100 (2 ^ 33 * 300 - 1))) = [0xFF; 0xFF; 0xFF; 0xFF; 0xFF; 0x2B] /\
  pcr_bytes (clock_packet 0x100 (2 ^ 33 * 300 - 1)) = Some (2 ^ 33 * 300 - 1).
Proof. vm_compute. split; reflexivity. Qed.
Example C106_case_stamps : firstn 10 (skipn 13 (pes_packet 0x100 0xE0 (2 ^ 33 - 1) (2 ^ 30 + 2 ^ 15 + 1))) =
    [0x3F; 0xFF; 0xFF; 0xFF; 0xFF; 0x13; 0x00; 0x03; 0x00; 0x03] /\
  has_stamps 0xE0 /\ pts_bytes (pes_packet 0x100 0xBE 1 1) = None.
Proof. split; [vm_compute; reflexivity|]. split; [|vm_compute; reflexivity]. intros I. cbn in I. repeat (destruct I as [I|I]; [discriminate I|]). destruct I. Qed.
Example C106_case_eit_fits : let t := mkEit 0x0408 0x7FE1 4 31 [mkEvent 0x1234 4257233100000 6330 0; mkEvent 0xFFFF 4257239430000 359999 0] in
  eit_fits t /\ bodies (eit_packet t) = [TEit (Some t)].
Proof.
  split; [|vm_compute; reflexivity]. unfold eit_fits. cbn [eit_sid eit_tsid eit_onid eit_version eit_events].
  split; [lia|split; [lia|split; [lia|split; [lia|split; [|cbn; lia]]]]].
  repeat (apply Forall_cons; [unfold plain_event; cbn [ev_id ev_start ev_duration ev_data]; split; [lia|split; [lia|split; [reflexivity|split; [lia|reflexivity]]]]|]). apply Forall_nil.
Qed.
(** No PCR in an adaptation field that is too short for it, whatever its flags say;
    no EIT when one of its two sections is missing. *)
Example C106_case_short : pcr_bytes (fit [0x47; 0x01; 0x00; 0x30; 1; 0x10; 1; 2; 3; 4; 5; 6]) = None.
Proof. vm_compute. reflexivity. Qed.
Example C106_case_half : let s := section_with 0x4E 1 0 ([0; 7; 0; 4; 0; 0x4E] ++ event_bytes (mkEvent 10 4257233100000 1800 0)) in
  let half := firstn 7 s ++ [1] ++ skipn 8 s in
  bodies (packet_with 0x12 s) = [TEit (Some (mkEit 1 7 4 0 [mkEvent 10 4257233100000 1800 0]))] /\ bodies (packet_with 0x12 half) = [] /\
  List.length (sections (packet_with 0x12 half)) = 1%nat.
Proof. vm_compute. repeat split; reflexivity. Qed.
