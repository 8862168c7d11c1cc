(** C24 - C29: filter-program.  The number of packets of a PMT section,
    [npackets], is arbitrary but positive. *)
From Coq Require Import ZArith Lia List Bool.
From Verif Require Import Spec.FeedSpec Base.Outcome Base.Util Model.Sink Model.Ts Model.ProgramFilter Spec.PcrSpec Spec.FilterSpec Spec.TuneSpec
  Spec.TransSpec Spec.ProgramSpec Proofs.FeedProofs Proofs.TransProofs Proofs.ProgramProofs Proofs.ProgramMain Proofs.ProgramExact.
From Verif Require Props.FilterProps.
Import ListNotations.
Open Scope Z_scope.

(** C24: in front of any sink, the filter takes the steps of [program_step]; the
    exit code is 222 if it gave up before it began, else the sink's (C26). *)
Theorem C24_refines : forall npackets o stage, (forall m, (1 <= npackets m)%nat) -> sane_option o ->
  forall k ps n d d1, Forall (sane_packet stage) ps -> (List.length ps < n)%nat -> sk_start k d = Ok (d1, true) ->
  exists out e h d2, trans (program_step npackets o stage) k [] d1 ps out e h d2 /\
  let run := FeedPackets (list_source packet) (program_filter npackets o k stage) n ps (pf_init o, d) in
  match e with
  | TransSpec.Crashed f => run = Some (Fail f)
  | _ =>
      match sk_end k d2 with
      | Fail f => run = Some (Fail f)
      | Ok d3 =>
          if given_up o h && negb (begun h) then exists s, run = Some (Ok (222, (s, d3)))
          else
            match sk_exit k d3 with
            | Fail f => run = Some (Fail f)
            | Ok c => exists s, run = Some (Ok (c, (s, d3)))
            end
      end
  end.
Proof. exact program_refines. Qed.
Print Assumptions C24_refines.

(** The steps leave no choice. *)
Theorem C24_spec_deterministic : forall npackets o stage k h d ps o1 e1 h1 d1 o2 e2 h2 d2,
  trans (program_step npackets o stage) k h d ps o1 e1 h1 d1 -> trans (program_step npackets o stage) k h d ps o2 e2 h2 d2 ->
  o1 = o2 /\ e1 = e2 /\ h1 = h2 /\ d1 = d2.
Proof. intros npackets o stage. exact (trans_det _ (program_step_det npackets o stage)). Qed.
Print Assumptions C24_spec_deterministic.

(** Until it begins, it outputs PAT packets at most, and those only when
    pre-streaming. *)
Theorem C24_quiet_before : forall npackets o stage k d ps out e h d',
  trans (program_step npackets o stage) k [] d ps out e h d' -> begun h = false -> e = AtEnd \/ e = Halted ->
  (exists rest, pat_packets ps = out ++ rest) /\ (pfo_pre_streaming o = false -> out = []).
Proof. intros npackets o stage k d ps out e h d' T B E. exact (waiting_quiet npackets o stage k [] d ps out e h d' T eq_refl B E). Qed.
Print Assumptions C24_quiet_before.

(** It begins at a packet with a PCR of the service that is in the window. *)
Theorem C24_begins_in_window : forall npackets o stage k d ps out e h d',
  trans (program_step npackets o stage) k [] d ps out e h d' -> begun h = true ->
  exists a p b o1 ha da ts v ws we, ps = a ++ p :: b /\ trans (program_step npackets o stage) k [] d a o1 AtEnd ha da /\
    delivered base_pids (pfo_sid o) stage (tabs ha) p ts /\ service_pcr o (hear ha p ts) p = Some v /\
    window o (Clk v :: hear ha p ts) = Some (ws, we) /\ reached v ws = true /\ reached v we = false /\
    o1 = (if pfo_pre_streaming o then pat_packets a else []).
Proof. exact begins_in_window. Qed.
Print Assumptions C24_begins_in_window.

(** It halts only when it gives up or at a PCR that has reached the end, which is
    not output ... *)
Theorem C24_halts_only_at_end : forall npackets o stage k d ps out h d',
  trans (program_step npackets o stage) k [] d ps out Halted h d' ->
  exists a p b ha ts, ps = a ++ p :: b /\ trans (program_step npackets o stage) k [] d a out AtEnd ha d' /\
    delivered base_pids (pfo_sid o) stage (tabs ha) p ts /\
    (given_up o (hear ha p ts) = true \/
     exists v ws we, service_pcr o (hear ha p ts) p = Some v /\ window o (Clk v :: hear ha p ts) = Some (ws, we) /\ reached v we = true).
Proof. exact halts_at_end. Qed.
Print Assumptions C24_halts_only_at_end.

(** ... and at such a PCR it does. *)
Theorem C24_halts_at_end : forall npackets o stage k d a p b out e h d' o1 ha da ts v ws we,
  trans (program_step npackets o stage) k [] d (a ++ p :: b) out e h d' ->
  trans (program_step npackets o stage) k [] d a o1 AtEnd ha da -> begun ha = true ->
  delivered base_pids (pfo_sid o) stage (tabs ha) p ts -> ~ bad_pat o p ts ->
  service_pcr o (hear ha p ts) p = Some v -> window o (Clk v :: hear ha p ts) = Some (ws, we) -> reached v we = true ->
  e = Halted /\ out = o1.
Proof. exact ends_at_end. Qed.
Print Assumptions C24_halts_at_end.

Definition keep := FilterProps.keep.
Definition pkt := FilterProps.pkt.
Definition pcrp (id pid v : Z) : packet := mkPacket (Raw id) pid false (Some v) None None (fun _ => []) (fun _ => O).
Definition two (_ : pmt) : nat := 2%nat.
Definition tagless := mkStream true false 2 false None.
Definition pmt101 := mkPmt 101 0 0x100 [] [(0x100, tagless); (0x110, mkStream false true 15 false (Some 0x10)); (0x111, mkStream false true 15 false (Some 0x11))].
Definition pat101 := mkPat 7 0 [(101, 0x1F0)].
(** An event from second 1 to second 3 on the clock. *)
Definition eit101 := mkEit 101 7 4 0 [mkEvent 5 1000 2 0].
Definition opt101 := mkPfOption 101 5 0x100 0 0 [0x10] [] 0 0 None false.
Definition pPat := pkt 1 0 [TPat (Some pat101)].
Definition prefix : list packet :=
  [ pPat; pkt 2 0x1F0 [TPmt (Some pmt101)]; pkt 3 0x12 [TEit (Some eit101)]; pcrp 4 0x100 26999999; pkt 5 0x110 [] ].
Definition stream101 : list packet :=
  prefix ++ [ pcrp 6 0x100 27000000; pkt 7 0x110 []; pkt 8 0x111 []; pkt 9 0x1F0 []; pkt 10 0x1F0 []; pkt 11 0x1F0 []; pkt 12 0 [];
    pcrp 13 0x100 80999999; pkt 14 0x110 []; pcrp 15 0x100 81000000; pkt 16 0x110 [] ].
Definition out101 : list packet :=
  [ pPat; pmt_packet 0x1F0 (reduced opt101 pmt101) 0; pmt_packet 0x1F0 (reduced opt101 pmt101) 1; pcrp 6 0x100 27000000; pkt 7 0x110 [];
    pmt_packet 0x1F0 (reduced opt101 pmt101) 0; pmt_packet 0x1F0 (reduced opt101 pmt101) 1; pmt_packet 0x1F0 (reduced opt101 pmt101) 0;
    pkt 12 0 []; pcrp 13 0x100 80999999; pkt 14 0x110 [] ].
Example C24_case : exists s, FeedPackets (list_source packet) (program_filter two opt101 keep 0) 30 stream101 (pf_init opt101, [])
  = Some (Ok (0, (s, out101))).
Proof. eexists. vm_compute. reflexivity. Qed.
Ltac sane :=
  unfold stream101, prefix; cbn [app];
  repeat (apply Forall_cons; [split;
    [ intros v E; cbn in E; first [discriminate E | injection E as <-; vm_compute; split; [discriminate|reflexivity]]
    | intros t It; cbn in It; repeat destruct It as [<-|It]; try contradiction; cbn; try exact I; try lia; repeat constructor; cbn; lia ]|]);
  apply Forall_nil.
Example C24_case_hypotheses : (forall m, (1 <= two m)%nat) /\ sane_option opt101 /\ Forall (sane_packet 0) stream101.
Proof.
  split; [intros; unfold two; lia|]. split.
  - repeat split; vm_compute; try reflexivity; discriminate.
  - sane.
Qed.

(** In full ("at or after" on the circle of PCRs) C24 is false: an end just before
    the wrap of the PCR is missed when the next PCR comes after the wrap, and
    output goes on. *)
Theorem C24_end_at_wrap_refuted : exists o ps p v e s out,
  sane_option o /\ Forall (sane_packet 0) ps /\
  FeedPackets (list_source packet) (program_filter two o keep 0) 30 ps (pf_init o, []) = Some (Ok (0, (s, out))) /\
  e = to_pcr (pfo_clock_pcr o) (pfo_clock_time o) (ev_start (mkEvent 5 1000 2 0) + 2000) /\
  p_pcr p = Some v /\ In p out /\ 0 < pcr_ahead e v < ticks_per_s.
Proof.
  exists (mkPfOption 101 5 0x100 (pcr_cycle - 81000000 - 27) 0 [] [] 0 0 None false),
    [ pPat; pkt 2 0x1F0 [TPmt (Some pmt101)]; pkt 3 0x12 [TEit (Some eit101)]; pcrp 6 0x100 (pcr_cycle - 50000000); pkt 7 0x110 [];
      pcrp 8 0x100 5; pkt 9 0x110 [] ], (pcrp 8 0x100 5), 5, (pcr_cycle - 27).
  eexists. eexists. split; [|split; [|split; [|split; [|split; [|split]]]]].
  - repeat split; vm_compute; try reflexivity; discriminate.
  - sane.
  - vm_compute. reflexivity.
  - vm_compute. reflexivity.
  - reflexivity.
  - cbn. auto 10.
  - vm_compute. split; reflexivity.
Qed.
Print Assumptions C24_end_at_wrap_refuted.

(** C25: the output of a run that began is the PAT packets of the latest PAT (or,
    when pre-streaming, those that came), one cycle of the PMT without the
    unwanted streams, the packet with the PCR, and more; when the sink refuses
    one of these, what it got until then. *)
Theorem C25_starts_with_pat_pmt_pcr : forall npackets o stage k d ps out e h d',
  trans (program_step npackets o stage) k [] d ps out e h d' -> begun h = true ->
  exists a p b src m, ps = a ++ p :: b /\ p_pcr p <> None /\
    (pfo_pre_streaming o = false -> latest_pat [] (a ++ [p]) <> []) /\
    let opening := (if pfo_pre_streaming o then pat_packets a else latest_pat [] (a ++ [p])) ++ pmt_cycle npackets src (reduced o m) ++ [p] in
    (exists ha o1 da ts, trans (program_step npackets o stage) k [] d a o1 AtEnd ha da /\ delivered base_pids (pfo_sid o) stage (tabs ha) p ts /\
       pmt_now o (hear ha p ts) = Some (src, m) /\ src = pmt_pid o (hear ha p ts)) /\
    ((e <> AtEnd /\ exists rest, out ++ rest = opening) \/ exists more, out = opening ++ more).
Proof. exact output_starts. Qed.
Print Assumptions C25_starts_with_pat_pmt_pcr.

Definition opt101_pre := mkPfOption 101 5 0x100 0 0 [0x10] [] 0 0 None true.
Example C25_case_pre : exists s, FeedPackets (list_source packet) (program_filter two opt101_pre keep 0) 30
    (pkt 0 0 [] :: stream101) (pf_init opt101_pre, []) = Some (Ok (0, (s, pkt 0 0 [] :: out101))).
Proof. eexists. vm_compute. reflexivity. Qed.

(** C26 (with [C24_refines], which has the exit codes): giving up ends the run at
    once, at whatever packet the table comes with ... *)
Theorem C26_gives_up_at_once : forall npackets o stage k d a p b out e h d' o1 ha da ts,
  trans (program_step npackets o stage) k [] d (a ++ p :: b) out e h d' -> trans (program_step npackets o stage) k [] d a o1 AtEnd ha da ->
  delivered base_pids (pfo_sid o) stage (tabs ha) p ts -> ~ bad_pat o p ts -> given_up o (hear ha p ts) = true ->
  e = Halted /\ out = o1 /\ given_up o h = true /\ begun h = begun ha.
Proof. exact gives_up_halts. Qed.
Print Assumptions C26_gives_up_at_once.

(** The exit code: 222 if it gave up before it began, in all other cases that of
    the sink. *)
Theorem C26_exit_code : forall npackets o stage, (forall m, (1 <= npackets m)%nat) -> sane_option o ->
  forall k ps n d d1 code s d3, Forall (sane_packet stage) ps -> (List.length ps < n)%nat -> sk_start k d = Ok (d1, true) ->
  FeedPackets (list_source packet) (program_filter npackets o k stage) n ps (pf_init o, d) = Some (Ok (code, (s, d3))) ->
  exists out e h d2, trans (program_step npackets o stage) k [] d1 ps out e h d2 /\ sk_end k d2 = Ok d3 /\
    (given_up o h = true -> begun h = false -> code = 222) /\
    (given_up o h = false \/ begun h = true -> sk_exit k d3 = Ok code).
Proof.
  intros npackets o stage N O k ps n d d1 code s d3 F L S R. destruct (C24_refines npackets o stage N O k ps n d d1 F L S) as (out & e & h & d2 & T & H).
  exists out, e, h, d2. split; [exact T|]. cbv zeta in H. rewrite R in H.
  assert (X : match sk_end k d2 with
     | Fail f => Some (Ok (code, (s, d3))) = Some (Fail f)
     | Ok d4 => if given_up o h && negb (begun h) then exists s0, Some (Ok (code, (s, d3))) = Some (Ok (222, (s0, d4)))
         else match sk_exit k d4 with Fail f => Some (Ok (code, (s, d3))) = Some (Fail f)
              | Ok c => exists s0, Some (Ok (code, (s, d3))) = Some (Ok (c, (s0, d4))) end end).
  { destruct e; try exact H. discriminate H. }
  clear H. destruct (sk_end k d2) as [d4|]; [|discriminate]. destruct (given_up o h), (begun h); cbn [andb negb] in X;
    try (destruct X as [s0 X]; injection X as -> -> ->; repeat split; intros; (reflexivity || discriminate || intuition discriminate));
    destruct (sk_exit k d4) as [c|] eqn:C; try discriminate X; destruct X as [s0 X]; injection X as -> -> ->; repeat split; intros; auto; discriminate.
Qed.
Print Assumptions C26_exit_code.

(** ... and a run in which it gave up was ended by that. *)
Theorem C26_gave_up_halted : forall npackets o stage k d ps out e h d',
  trans (program_step npackets o stage) k [] d ps out e h d' -> given_up o h = true -> e = Halted.
Proof. intros npackets o stage k d ps out e h d' T G. exact (gave_up_halts npackets o stage k [] d ps out e h d' T eq_refl G). Qed.
Print Assumptions C26_gave_up_halted.

Definition eit_other := mkEit 101 7 4 1 [mkEvent 6 1000 2 0; mkEvent 7 3000 2 0].
Example C26_case_222 : exists s, FeedPackets (list_source packet) (program_filter two opt101 keep 0) 30
    (prefix ++ [pkt 6 0x12 [TEit (Some eit_other)]; pcrp 7 0x100 27000000]) (pf_init opt101, []) = Some (Ok (222, (s, []))).
Proof. eexists. vm_compute. reflexivity. Qed.
(** Once it has begun, an EIT without the event does not end it. *)
Example C26_case_begun : exists s d, FeedPackets (list_source packet) (program_filter two opt101 keep 0) 30
    (prefix ++ [pcrp 7 0x100 27000000; pkt 6 0x12 [TEit (Some eit_other)]; pkt 8 0x110 []]) (pf_init opt101, []) = Some (Ok (0, (s, d)))
    /\ List.length d = 6%nat.
Proof. eexists. eexists. split; vm_compute; reflexivity. Qed.

(** C27: the PMT output is the service's, without the excluded streams. *)
Theorem C27_output_pmt : forall o m, let r := reduced o m in
  pmt_sid r = pmt_sid m /\ pmt_version r = pmt_version m /\ pmt_pcr_pid r = pmt_pcr_pid m /\ pmt_ca_pids r = pmt_ca_pids m /\
  forall pid e, In (pid, e) (pmt_streams r) <-> In (pid, e) (pmt_streams m) /\ ~ excluded o e.
Proof. exact reduced_spec. Qed.
Print Assumptions C27_output_pmt.

(** The PIDs removed are those of the excluded streams. *)
Theorem C27_removed_pids : forall o m pid,
  removed o m pid = true <-> exists e, In (pid, e) (pmt_streams m) /\ excluded o e.
Proof. exact removed_iff. Qed.
Print Assumptions C27_removed_pids.

(** While streaming, packets of removed PIDs are dropped, PMT packets replaced by
    packets of the reduced PMT, all others output.  Missing: packets of the PCR
    PID that have no PCR. *)
Theorem C27_packets_partial : forall npackets o stage h p qs v h', program_step npackets o stage h p qs v h' -> begun h = true -> v = Go ->
  exists ts, delivered base_pids (pfo_sid o) stage (tabs h) p ts /\
  forall src m, pmt_now o (hear h p ts) = Some (src, m) ->
    (p_pid p <> pmt_pcr_pid m \/ p_pcr p <> None /\ window o (Clk (match p_pcr p with Some c => c | None => 0 end) :: hear h p ts) <> None) ->
    (p_pid p <> pmt_pid o (hear h p ts) -> qs = if removed o m (p_pid p) then [] else [p]) /\
    (p_pid p = pmt_pid o (hear h p ts) -> src = p_pid p /\
       qs = [pmt_packet src (reduced o m) (pmt_count o (hear h p ts) mod npackets (reduced o m))]).
Proof. exact stream_step. Qed.
Print Assumptions C27_packets_partial.

(** The exact rule for all packets: while streaming, a packet of the PCR PID that
    has no PCR, or comes while the clock is not set, is output as it is, even if
    its stream is removed. *)
Theorem C27_exact : forall npackets o stage h p qs v h', program_step npackets o stage h p qs v h' -> begun h = true -> v = Go ->
  exists ts, delivered base_pids (pfo_sid o) stage (tabs h) p ts /\
  forall src m, pmt_now o (hear h p ts) = Some (src, m) ->
    let unexamined := p_pid p = pmt_pcr_pid m /\ (p_pcr p = None \/ exists c, p_pcr p = Some c /\ window o (Clk c :: hear h p ts) = None) in
    (unexamined -> qs = [p]) /\
    (~ unexamined -> p_pid p <> pmt_pid o (hear h p ts) -> qs = if removed o m (p_pid p) then [] else [p]) /\
    (~ unexamined -> p_pid p = pmt_pid o (hear h p ts) -> src = p_pid p /\
       qs = [pmt_packet src (reduced o m) (pmt_count o (hear h p ts) mod npackets (reduced o m))]).
Proof. exact stream_step_exact. Qed.
Print Assumptions C27_exact.

Example C27_case : removed opt101 pmt101 0x111 = true /\ removed opt101 pmt101 0x110 = false /\
  pmt_streams (reduced opt101 pmt101) = [(0x100, tagless); (0x110, mkStream false true 15 false (Some 0x10))].
Proof. vm_compute. auto. Qed.

(** In full C27 is false: when a removed stream carries the PCR, its packets
    without PCR are output and those with PCR are not. *)
Definition pmt_av := mkPmt 101 0 0x110 [] [(0x110, mkStream false true 15 false (Some 0x11)); (0x120, tagless)].
Definition opt_av := mkPfOption 101 5 0x110 0 0 [0x10] [] 0 0 None false.
Theorem C27_pcr_stream_refuted : exists o m ps p q s out,
  sane_option o /\ Forall (sane_packet 0) ps /\
  FeedPackets (list_source packet) (program_filter two o keep 0) 30 ps (pf_init o, []) = Some (Ok (0, (s, out))) /\
  In (pkt 2 0x1F0 [TPmt (Some m)]) ps /\ removed o m (p_pid p) = true /\ p_pid q = p_pid p /\
  In p ps /\ In p out /\ p_pcr p = None /\ In q ps /\ ~ In q out /\ p_pcr q = Some 30000000.
Proof.
  exists opt_av, pmt_av,
    [ pPat; pkt 2 0x1F0 [TPmt (Some pmt_av)]; pkt 3 0x12 [TEit (Some eit101)]; pcrp 6 0x110 27000000; pkt 7 0x110 [];
      pcrp 8 0x110 30000000; pkt 9 0x110 [] ], (pkt 7 0x110 []), (pcrp 8 0x110 30000000).
  eexists. eexists. split; [|split; [|split]].
  - repeat split; vm_compute; try reflexivity; discriminate.
  - sane.
  - vm_compute. reflexivity.
  - split; [cbn; auto|]. split; [reflexivity|]. split; [reflexivity|]. split; [cbn; auto 10|]. split; [cbn; auto 10|].
    split; [reflexivity|]. split; [cbn; auto 10|]. split; [|reflexivity].
    intros I. cbn in I. repeat destruct I as [I|I]; try discriminate; contradiction.
Qed.
Print Assumptions C27_pcr_stream_refuted.

(** C28: after the clock is reset, it is set from the first TOT and the last PCR
    examined before it, or else the first examined after it.  Missing: PCRs are
    examined only once the event is known (next theorem). *)
Theorem C28_clock_pair_partial : forall o x old, resets o x old = true -> forall new,
  (forall a y b, new = a ++ y :: b -> resets o y (b ++ x :: old) = false) ->
  exists pid pcr time, clock_now o (new ++ x :: old) = (pid, pcr, time) /\ paired new pcr time /\
    exists src t, x = Tab src (TPmt (Some t)) /\ pid = pmt_pcr_pid t.
Proof. exact (clock_since two). Qed.
Print Assumptions C28_clock_pair_partial.

Theorem C28_examined_partial : forall npackets o stage h p qs v h', program_step npackets o stage h p qs v h' -> (forall f, v <> Boom f) ->
  exists ts, delivered base_pids (pfo_sid o) stage (tabs h) p ts /\
  (given_up o (hear h p ts) = false -> (p_pid p <> 0 \/ pfo_pre_streaming o = false \/ begun h = true) ->
   clks h' = match service_pcr o (hear h p ts) p with
             | Some c => if begun h || (match event_now o (hear h p ts) with Some _ => true | None => false end) then c :: clks h else clks h
             | None => clks h
             end).
Proof. exact examined. Qed.
Print Assumptions C28_examined_partial.

(** The PCR PID changes from 0x200 (the clock given) to 0x100; TOT, then PCRs. *)
Example C28_case : let x := Tab 0x1F0 (TPmt (Some pmt101)) in let o := mkPfOption 101 5 0x200 0 0 [] [] 0 0 None false in
  resets o x [] = true /\ clock_now o ([Clk 200; Clk 100; Tab 0x14 (TTot (Some 7)); Clk 50; Clk 25] ++ [x]) = (0x100, Some 50, Some 7).
Proof. split; reflexivity. Qed.

(** In full C28 is false.  The PCR PID is not the one of the clock given.  A TOT
    says 0, a PCR of 0 comes next; an hour later an EIT announces the event for
    the hour that begins, and PCRs follow.  The TOT is paired with the PCR that
    came an hour later, so nothing is output in the whole hour of the event. *)
Definition hour : Z := 3600 * ticks_per_s.
Definition opt_moved := mkPfOption 101 5 0x200 0 0 [] [] 0 0 None false.
Definition moved : list packet :=
  [ pPat; pkt 2 0x1F0 [TPmt (Some pmt101)]; pkt 3 0x14 [TTot (Some 0)]; pcrp 4 0x100 0;
    pkt 5 0x12 [TEit (Some (mkEit 101 7 4 0 [mkEvent 5 3600000 3600 0]))];
    pcrp 6 0x100 hour; pkt 7 0x110 []; pcrp 8 0x100 (hour + 1800 * ticks_per_s); pkt 9 0x110 []; pcrp 10 0x100 (2 * hour - 1) ].
Theorem C28_late_eit_refuted : exists s,
  sane_option opt_moved /\ Forall (sane_packet 0) moved /\
  FeedPackets (list_source packet) (program_filter two opt_moved keep 0) 30 moved (pf_init opt_moved, []) = Some (Ok (0, (s, []))).
Proof.
  eexists. split; [|split].
  - repeat split; vm_compute; try reflexivity; discriminate.
  - unfold moved. sane.
  - vm_compute. reflexivity.
Qed.
Print Assumptions C28_late_eit_refuted.
(** With the EIT before the TOT the same packets are output. *)
Example C28_early_eit : exists s d,
  FeedPackets (list_source packet) (program_filter two opt_moved keep 0) 30
    ([ pPat; pkt 2 0x1F0 [TPmt (Some pmt101)]; pkt 5 0x12 [TEit (Some (mkEit 101 7 4 0 [mkEvent 5 3600000 3600 0]))];
       pkt 3 0x14 [TTot (Some 0)]; pcrp 4 0x100 0 ] ++ skipn 5 moved) (pf_init opt_moved, []) = Some (Ok (0, (s, d))) /\ List.length d = 8%nat.
Proof. eexists. eexists. split; vm_compute; reflexivity. Qed.

(** C29 in full (no stream makes it abort) is false.  A PAT moves the PMT to
    another PID and a packet of that PID comes before its PMT is complete: *)
Theorem C29_pmt_pid_change_refuted : exists ps, Forall (sane_packet 0) ps /\
  FeedPackets (list_source packet) (program_filter two opt101 keep 0) 30 ps (pf_init opt101, []) = Some (Fail AssertFail).
Proof.
  exists (prefix ++ [pcrp 6 0x100 27000000; pkt 7 0 [TPat (Some (mkPat 7 1 [(101, 0x1F1)]))]; pkt 8 0x1F1 []]). split.
  - sane.
  - vm_compute. reflexivity.
Qed.
Print Assumptions C29_pmt_pid_change_refuted.
(** the same while waiting for the start: *)
Theorem C29_pmt_pid_change_waiting_refuted : exists ps, Forall (sane_packet 0) ps /\
  FeedPackets (list_source packet) (program_filter two opt101 keep 0) 30 ps (pf_init opt101, []) = Some (Fail AssertFail).
Proof.
  exists (prefix ++ [pkt 7 0 [TPat (Some (mkPat 7 1 [(101, 0x1F1)]))]; pcrp 6 0x100 27000000]). split.
  - sane.
  - vm_compute. reflexivity.
Qed.
Print Assumptions C29_pmt_pid_change_waiting_refuted.
(** and a PCR beyond the cycle, which the 9-bit extension can encode. *)
Theorem C29_invalid_pcr_refuted : exists v, 0 <= v < 2 ^ 33 * 300 + 512 /\
  FeedPackets (list_source packet) (program_filter two opt101 keep 0) 30 (prefix ++ [pcrp 6 0x100 v]) (pf_init opt101, []) = Some (Fail AssertFail).
Proof. exists (2 ^ 33 * 300). split; [lia|vm_compute; reflexivity]. Qed.
Print Assumptions C29_invalid_pcr_refuted.

(** What holds: it survives when PATs list the service with one PMT PID, the PMT
    comes there, and values are in range. *)
Theorem C29_survives_partial : forall npackets o stage mpid k ps n d, (forall m, (1 <= npackets m)%nat) -> sane_option o -> ~ In mpid base_pids ->
  never_fails k -> (List.length ps < n)%nat -> Forall (sane_packet stage) ps ->
  (forall p t, In p ps -> In t (p_tabs p stage) -> steady o mpid (p_pid p) (tb_body t)) ->
  exists code s, FeedPackets (list_source packet) (program_filter npackets o k stage) n ps (pf_init o, d) = Some (Ok (code, s)).
Proof. exact program_survives. Qed.
Print Assumptions C29_survives_partial.

(** The exact rule, for a sink that takes everything and values in range: it fails
    if and only if, before it ends, it hears a PAT without the service or a packet
    is [troubled]. *)
Theorem C29_exact : forall npackets o stage k ps n d d1, (forall m, (1 <= npackets m)%nat) -> sane_option o ->
  never_fails k -> never_refuses k -> Forall (sane_packet stage) ps -> (List.length ps < n)%nat -> sk_start k d = Ok (d1, true) ->
  (exists f, FeedPackets (list_source packet) (program_filter npackets o k stage) n ps (pf_init o, d) = Some (Fail f)) <->
  exists pre p post out h d2 ts, ps = pre ++ p :: post /\ trans (program_step npackets o stage) k [] d1 pre out AtEnd h d2 /\
    delivered base_pids (pfo_sid o) stage (tabs h) p ts /\ (bad_pat o p ts \/ troubled o (hear h p ts) p).
Proof. intros npackets o stage k ps n d d1 Np So. exact (program_fails_iff npackets o stage Np So k ps n d d1). Qed.
Print Assumptions C29_exact.

(** The PMT is on PID 0x1F0 and the PAT says 0x1F1. *)
Example C29_case_exact : never_fails keep /\ never_refuses keep /\
  let h := [Tab 0 (TPat (Some (mkPat 7 0 [(101, 0x1F1)]))); Begun; Tab 0x1F0 (TPmt (Some pmt101))] in
  troubled opt101 h (pkt 9 0x1F1 []) /\ ~ troubled opt101 h (pkt 9 0x1F0 []).
Proof.
  split; [repeat split; cbn; eauto|]. split; [split; cbn; congruence|]. cbn zeta. split.
  - split; [reflexivity|]. exists 0x1F0, pmt101. split; [reflexivity|]. left. do 2 (split; [reflexivity|]).
    split; [discriminate|]. intros H. vm_compute in H. discriminate H.
  - intros (_ & src & m & _ & [(_ & X & _)|(X & _)]); vm_compute in X; discriminate X.
Qed.

Example C29_case : ~ In 0x1F0 base_pids /\ never_fails keep /\
  forall p t, In p stream101 -> In t (p_tabs p 0) -> steady opt101 0x1F0 (p_pid p) (tb_body t).
Proof.
  split; [cbn; lia|]. split; [repeat split; cbn; eauto|]. intros p t Hp Ht. cbn in Hp.
  repeat (destruct Hp as [<-|Hp]; [cbn in Ht; repeat (destruct Ht as [<-|Ht]); try contradiction|]); try contradiction;
    (split; [reflexivity|]; split; [intros t q E|intros src m E]; vm_compute in E; try discriminate; first [reflexivity|injection E; intros; subst; reflexivity]).
Qed.
