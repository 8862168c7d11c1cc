(** C98: the clock given to filter-program. *)
From Coq Require Import Ascii String ZArith Lia List Bool.
From Verif Require Import Base.Outcome Base.Util Model.FileSource Model.StdoutSink Model.Ts Model.Commands Model.Main
  Spec.PcrSpec Spec.SourceSpec Spec.StdoutSpec Spec.ProgramSpec Spec.PipeSpec Spec.MainSpec Spec.MomentSpec Proofs.MomentProofs.
From Verif Require Props.FilterProps Props.ProgramProps Props.PipeProps Props.MainProps Props.CommandProps.
Import ListNotations.
Open Scope list_scope.
Open Scope Z_scope.

(** It does not matter when the clock was read: with a PCR and a time that were read
    [d] milliseconds later (or earlier) the command does the same, byte for byte. *)
Theorem C98_same_moment : forall lib sys a d bs n, (forall p, zlen (li_bytes lib p) = 188) -> (forall m, (1 <= li_npackets lib m)%nat) ->
  let a' := with_clock (pcr_after d (pa_clock_pcr a)) (pa_clock_time a + d) a in
  sane_args a -> sane_args a' -> has_input sys bs n -> Forall no_error (sy_writes sys) -> Forall (sane_packet 1) (views (li_packet lib) [] bs) ->
  main lib sys (FilterProgram a) n = main lib sys (FilterProgram a') n.
Proof. exact main_moment. Qed.
Print Assumptions C98_same_moment.

(** A time that is [d] milliseconds fast is the same as a start margin that is [d]
    longer and an end margin that is [d] shorter, as long as the service keeps its
    PCR PID. *)
Theorem C98_wrong_clock : forall lib sys a d bs n, (forall p, zlen (li_bytes lib p) = 188) -> (forall m, (1 <= li_npackets lib m)%nat) ->
  let fast := with_clock (pa_clock_pcr a) (pa_clock_time a + d) a in
  let shifted := with_margins (or_zero (pa_start_margin a) + d) (or_zero (pa_end_margin a) - d) a in
  sane_args fast -> sane_args shifted -> has_input sys bs n -> Forall no_error (sy_writes sys) -> Forall (sane_packet 1) (views (li_packet lib) [] bs) ->
  Forall (keeps_pcr_pid a) (views (li_packet lib) [] bs) ->
  main lib sys (FilterProgram fast) n = main lib sys (FilterProgram shifted) n.
Proof. exact main_margins. Qed.
Print Assumptions C98_wrong_clock.

(** The clock of C90_program_case, read 100000 s later; the PCR has wrapped round. *)
Definition a0 := CommandProps.case_args.
Definition stream := PipeProps.stream2.
Definition later := with_clock (pcr_after 100000000 (pa_clock_pcr a0)) (pa_clock_time a0 + 100000000) a0.
Definition fast := with_clock (pa_clock_pcr a0) (pa_clock_time a0 + 1000) a0.
Definition shifted := with_margins 1000 (-1000) a0.
Definition lib := CommandProps.case_lib stream.
Definition sys := CommandProps.case_sys stream.
Ltac sane_args_ := repeat split; vm_compute; try reflexivity; try discriminate; exact I.
Example C98_same_moment_case : sane_args a0 /\ sane_args later /\ pa_clock_pcr later = 2700000000000 mod pcr_cycle /\ pcr_cycle < 2700000000000 /\
  exists e, main lib sys (FilterProgram a0) 4000 = Some (Ok e) /\ main lib sys (FilterProgram later) 4000 = Some (Ok e) /\ zlen (en_stdout e) = 188 * 11.
Proof.
  split; [sane_args_|]. split; [sane_args_|]. split; [reflexivity|]. split; [reflexivity|].
  eexists. split; [vm_compute; reflexivity|]. split; vm_compute; reflexivity.
Qed.

(** With a clock that is 1 s fast the program starts a packet with a PCR earlier. *)
Example C98_wrong_clock_case : sane_args fast /\ sane_args shifted /\ Forall (keeps_pcr_pid a0) (views (li_packet lib) [] (PipeProps.demo_packets 0 stream)) /\
  exists e, main lib sys (FilterProgram fast) 4000 = Some (Ok e) /\ main lib sys (FilterProgram shifted) 4000 = Some (Ok e) /\
    main lib sys (FilterProgram a0) 4000 <> Some (Ok e) /\ 0 < zlen (en_stdout e).
Proof.
  split; [sane_args_|]. split; [sane_args_|]. split.
  - assert (P : forall p, In p stream -> 0 <= p_pid p < 8192) by (intros p H; repeat (destruct H as [<-|H]; [cbn; lia|]); destruct H).
    apply Forall_forall. intros p H. destruct (PipeProps.demo_views stream P p H) as [q [Iq [E1 [E2 E3]]]]. intros t m Ht. rewrite E3 in Ht. clear - Iq Ht.
    repeat (destruct Iq as [<-|Iq]; [cbn in Ht; repeat (destruct Ht as [<-|Ht]; [cbn [tb_body]; intros E _; first [discriminate E | injection E as <-; reflexivity]|]); destruct Ht|]).
    destruct Iq.
  - eexists. split; [vm_compute; reflexivity|]. split; [vm_compute; reflexivity|]. split; [|vm_compute; reflexivity].
    vm_compute. discriminate.
Qed.

(** If the service moves its PCR to another PID, then the clock is taken anew from
    the broadcast; a clock that was fast does no harm then, but margins still count. *)
Definition pmt_moved := mkPmt 101 1 0x101 [] [(0x100, ProgramProps.tagless); (0x110, mkStream false true 15 false (Some 0x10))].
Definition moved : list packet :=
  [ ProgramProps.pPat; FilterProps.pkt 2 0x1F0 [TPmt (Some pmt_moved)]; FilterProps.pkt 3 0x12 [TEit (Some ProgramProps.eit101)];
    FilterProps.pkt 4 0x14 [TTot (Some 0)]; ProgramProps.pcrp 5 0x101 0; ProgramProps.pcrp 6 0x101 13500000; FilterProps.pkt 7 0x110 [];
    ProgramProps.pcrp 8 0x101 27000000; FilterProps.pkt 9 0x110 [] ].
Example C98_wrong_clock_refuted : exists e e',
  main (CommandProps.case_lib moved) (CommandProps.case_sys moved) (FilterProgram fast) 4000 = Some (Ok e) /\
  main (CommandProps.case_lib moved) (CommandProps.case_sys moved) (FilterProgram shifted) 4000 = Some (Ok e') /\
  zlen (en_stdout e) < zlen (en_stdout e').
Proof. eexists. eexists. split; [vm_compute; reflexivity|]. split; vm_compute; reflexivity. Qed.
