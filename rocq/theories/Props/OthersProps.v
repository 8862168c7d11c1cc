(** C78: the other services in the stream do not matter. *)
From Coq Require Import ZArith Lia List Bool.
From Verif Require Import Base.Outcome Base.Util Model.Sink Model.FileSource Model.StdoutSink Model.Ts Model.ServiceFilter Model.RecorderOption Model.RingFileSink
  Model.ServiceRecorder Model.Commands Spec.FeedSpec Spec.SourceSpec Spec.StdoutSpec Spec.FilterSpec Spec.PipeSpec Spec.OthersSpec
  Proofs.SourceProofs Proofs.PipeProofs Proofs.OthersProofs.
From Verif Require Model.ProgramFilter Props.FilterProps Props.PipeProps.
Import ListNotations.
Open Scope Z_scope.

(** [own] is any set of PIDs that holds the SI PIDs and those that tables on its
    PIDs name for the service.  Packets on other PIDs may be inserted, removed and
    changed at will: the service filter, and whatever sink is behind it, come to
    the same end. *)
Theorem C78_others_do_not_matter : forall opt stage own k ps qs n m d, covers (sfo_sid opt) stage own ps -> agree p_pid own ps qs ->
  (List.length ps < n)%nat -> (List.length qs < m)%nat ->
  FeedPackets (list_source packet) (service_filter stage opt k) n ps (sf_init opt, d) =
  FeedPackets (list_source packet) (service_filter stage opt k) m qs (sf_init opt, d).
Proof. exact feed_agree. Qed.
Print Assumptions C78_others_do_not_matter.

Lemma same_main : forall view sid own k reads reads' n m d, per_pid view -> (forall h b, ts_packet b -> p_pid (view h b) = pid_bytes b) ->
  same_service view (sid mod 2 ^ 16) own reads reads' -> (List.length (bytes_of reads) < n)%nat -> (List.length (bytes_of reads') < m)%nat ->
  same_end (run_main view (service_filter 0 (load_service_filter (Some sid)) k) reads (sf_init (load_service_filter (Some sid)), d) n)
           (run_main view (service_filter 0 (load_service_filter (Some sid)) k) reads' (sf_init (load_service_filter (Some sid)), d) m).
Proof.
  intros view sid own k reads reads' n m d V Pid [R [R' [B [B' [bs [cs [Pk [Pk' [Cv G]]]]]]]]] Hn Hm.
  exact (main_agree view own (load_service_filter (Some sid)) k reads reads' bs cs n m d V Pid R R' B B' Pk Pk' Hn Hm Cv G).
Qed.

(** From the bytes of two files to the output. *)
Theorem C78_filter_service : forall view bytes sid own reads reads' writes n m, per_pid view -> (forall h b, ts_packet b -> p_pid (view h b) = pid_bytes b) ->
  same_service view (sid mod 2 ^ 16) own reads reads' -> (List.length (bytes_of reads) < n)%nat -> (List.length (bytes_of reads') < m)%nat ->
  same_end (filter_service_main view bytes sid reads writes n) (filter_service_main view bytes sid reads' writes m).
Proof. intros view bytes sid own reads reads' writes n m V Pid S Hn Hm. exact (same_main view sid own _ reads reads' n m _ V Pid S Hn Hm). Qed.
Print Assumptions C78_filter_service.
Theorem C78_filter_program : forall view bytes npackets sid o own reads reads' writes n m, per_pid view -> (forall h b, ts_packet b -> p_pid (view h b) = pid_bytes b) ->
  same_service view (sid mod 2 ^ 16) own reads reads' -> (List.length (bytes_of reads) < n)%nat -> (List.length (bytes_of reads') < m)%nat ->
  same_end (filter_program_main view bytes npackets sid o reads writes n) (filter_program_main view bytes npackets sid o reads' writes m).
Proof. intros view bytes npackets sid o own reads reads' writes n m V Pid S Hn Hm. exact (same_main view sid own _ reads reads' n m _ V Pid S Hn Hm). Qed.
Print Assumptions C78_filter_program.
Theorem C78_record_service : forall view bytes sid o local s own reads reads' n m, per_pid view -> (forall h b, ts_packet b -> p_pid (view h b) = pid_bytes b) ->
  same_service view (sid mod 2 ^ 16) own reads reads' -> (List.length (bytes_of reads) < n)%nat -> (List.length (bytes_of reads') < m)%nat ->
  same_end (record_service_main view bytes sid o local s reads n) (record_service_main view bytes sid o local s reads' m).
Proof. intros view bytes sid o local s own reads reads' n m V Pid S Hn Hm. exact (same_main view sid own _ reads reads' n m _ V Pid S Hn Hm). Qed.
Print Assumptions C78_record_service.

(** ** A case: the first packet, the PMT and the packets of service 102 and the
    null packet are taken out of the stream of C20, and a packet is put in. *)
Definition own1 (pid : Z) : Prop := In pid [0x00; 0x01; 0x10; 0x11; 0x12; 0x13; 0x14; 0x24; 0x29; 0x1F0; 0x100; 0x110; 0x700; 0x900].
Definition thin1 : list packet :=
  [ FilterProps.pkt 0 0x100 []; FilterProps.pkt 1 0 [TPat (Some FilterProps.pat1)]; FilterProps.pkt 12 0x333 [TPat (Some (mkPat 7 0 []))];
    FilterProps.pkt 3 0x1F0 [TPmt (Some FilterProps.pmt1)]; FilterProps.pkt 4 0x100 []; FilterProps.pkt 6 0x700 []; FilterProps.pkt 7 0x900 [];
    FilterProps.pkt 8 1 [TCat (Some FilterProps.cat1)]; FilterProps.pkt 9 0x900 []; FilterProps.pkt 10 0x14 [TTot (Some 50)] ].

Lemma own1_not : forall pid, zmem pid [0x00; 0x01; 0x10; 0x11; 0x12; 0x13; 0x14; 0x24; 0x29; 0x1F0; 0x100; 0x110; 0x700; 0x900] = false -> ~ own1 pid.
Proof. intros pid. apply zmem_false. Qed.

Lemma names_case : forall x pid, In x [(0, TPat (Some FilterProps.pat1)); (0x1F0, TPmt (Some FilterProps.pmt1)); (1, TCat (Some FilterProps.cat1)); (0x14, TTot (Some 50))] ->
  names 101 x pid -> own1 pid.
Proof.
  intros x pid I N. unfold own1. cbn [In] in I. destruct I as [<- |[<- |[<- |[<- |[]]]]]; destruct N as [[t N]|[[m [N I]]|[c [N I]]]];
    vm_compute in N; try discriminate; injection N as <-.
  - subst. cbn. auto 20.
  - cbn in I. cbn. intuition (subst; auto 20).
  - cbn in I. cbn. intuition (subst; auto 20).
Qed.

Example C78_case : covers 101 0 own1 FilterProps.stream1 /\ agree p_pid own1 FilterProps.stream1 thin1 /\
  exists s out, FeedPackets (list_source packet) (service_filter 0 FilterProps.opt1 FilterProps.keep) 20 thin1 (sf_init FilterProps.opt1, [])
    = Some (Ok (0, (s, out))) /\ List.length out = 7%nat.
Proof.
  split; [|split].
  - split; [unfold own1, si_pids; cbn [In]; intros pid H; tauto|].
    intros p t pid I O It. unfold FilterProps.stream1 in I. cbn [In] in I.
    repeat (destruct I as [<- |I]; [cbn in It; try contradiction; destruct It as [<- |[]]; try (exfalso; revert O; apply own1_not; reflexivity); cbn [p_pid FilterProps.pkt tb_body];
      apply names_case; cbn [In]; auto|]). destruct I.
  - unfold FilterProps.stream1, thin1.
    repeat first [ apply agree_both; [unfold own1; cbn; auto 20|] | apply agree_left; [apply own1_not; reflexivity|] | apply agree_right; [apply own1_not; reflexivity|] | apply agree_nil ].
  - do 2 eexists. split; vm_compute; reflexivity.
Qed.

(** In bytes: other packets at the end. *)
Definition two_more : list packet := [FilterProps.pkt 20 0x200 []; FilterProps.pkt 21 0x1FFF []].
Definition long1 : list packet := thin1 ++ two_more.
Definition numbered_view (h : list (list Z)) (b : list Z) : packet :=
  let p := nth (Z.to_nat (nth 3 b 0)) long1 (FilterProps.pkt 0 0 []) in
  mkPacket (Raw (PipeProps.num b)) (pid_bytes b) (p_pusi p) (p_pcr p) (p_pts p) (p_dts p) (p_tabs p) (p_regen p).
Example C78_case_bytes : per_pid numbered_view /\ (forall h b, ts_packet b -> p_pid (numbered_view h b) = pid_bytes b) /\
  same_service numbered_view 101 own1 (PipeProps.demo_reads thin1) (PipeProps.demo_reads long1).
Proof.
  assert (In1 : forall l, (forall p, In p l -> In p long1) -> zlen l <= 256 ->
     let r := PipeProps.demo_reads l in Forall read_ok r /\ Forall is_byte (bytes_of r) /\ packets_of (bytes_of r) (PipeProps.demo_packets 0 l)).
  { intros l Hl L. destruct (PipeProps.demo_input l 0 ltac:(lia) ltac:(lia)) as [A [B [C _]]]; [|repeat split; assumption].
    intros p H. apply Hl in H. clear -H. repeat (destruct H as [<- |H]; [vm_compute; split; [discriminate|reflexivity]|]). destruct H. }
  destruct (In1 thin1) as [A1 [B1 C1]]; [intros p H; apply in_or_app; left; exact H|vm_compute; discriminate|].
  destruct (In1 long1) as [A2 [B2 C2]]; [auto|vm_compute; discriminate|].
  split; [intros h h' b _; reflexivity|]. split; [reflexivity|].
  split; [exact A1|]. split; [exact A2|]. split; [exact B1|]. split; [exact B2|].
  do 2 eexists. split; [exact C1|]. split; [exact C2|]. clear. split; [split|].
  - unfold own1, si_pids; cbn [In]; intros pid H; tauto.
  - intros p t pid I O It N. assert (X : exists x, (p_pid p, tb_body t) = x /\ (In x [(0, TPat (Some FilterProps.pat1)); (0x1F0, TPmt (Some FilterProps.pmt1)); (1, TCat (Some FilterProps.cat1)); (0x14, TTot (Some 50))])).
    { eexists. split; [reflexivity|]. clear N pid. cbn [PipeProps.demo_packets thin1 views In] in I.
      repeat (destruct I as [<- |I]; [vm_compute in It; try contradiction; destruct It as [<- |[]];
        try (exfalso; revert O; apply own1_not; vm_compute; reflexivity); vm_compute; auto|]). destruct I. }
    destruct X as [x [<- X]]. exact (names_case _ pid X N).
  - unfold long1, two_more, thin1. cbn [PipeProps.demo_packets app].
    repeat first [ apply agree_both; [vm_compute; auto 20; fail|] | apply agree_left; [apply own1_not; vm_compute; reflexivity|] | apply agree_right; [apply own1_not; vm_compute; reflexivity|] | apply agree_nil ].
Qed.
