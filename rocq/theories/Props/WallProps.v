(** C93: the wall clock. *)
From Coq Require Import ZArith Lia List Bool.
From Verif Require Import Base.Outcome Base.Util Model.Clock Model.Sink Model.Ts Model.RingFileSink Model.ServiceRecorder Model.PosixFile Model.Main
  Spec.ClockSpec Spec.FilterSpec Spec.TransSpec Spec.PipeSpec Spec.TuneSpec Spec.FileSpec Spec.RecorderSpec Spec.MainSpec Spec.WallSpec
  Proofs.FilterMain Proofs.RecorderProofs Proofs.RecorderMain Proofs.MainProofs Proofs.CommandProofs Proofs.WallProofs Proofs.WallMain.
From Verif Require Model.FileSource Model.PesPrinter Model.PesWall Spec.SourceSpec Proofs.PesWallProofs Props.PesProps.
From Verif Require Model.Options Model.RecorderOption Model.Commands Spec.OptionSpec Props.MainProps Props.RecorderProps Props.PipeProps Props.CommandProps.
Import ListNotations.
Open Scope Z_scope.

(** ** Commands without times of their own *)
Theorem C93_other_commands : forall lib sys local c n, ~ keeps_time c -> main lib (with_wall sys local) c n = main lib sys c n.
Proof. intros lib sys local c n K. destruct c; try (destruct (K I); fail); reflexivity. Qed.
Print Assumptions C93_other_commands.

(** print-pes reads the wall clock at each TOT, once for each PCR PID, and the
    model of [main] leaves this out.  With the readings, the exit code and the
    lines are the same. *)
Theorem C93_print_pes : forall view local reads bs n,
  Forall SourceSpec.read_ok reads -> SourceSpec.packets_of (SourceSpec.bytes_of reads) bs -> (List.length (SourceSpec.bytes_of reads) < n)%nat ->
  option_map (fun r => match r with Ok (code, (_, (_, s))) => Ok (code, PesPrinter.pp_out s) | Fail f => Fail f end)
    (Commands.run_main view (PesWall.pw_sink local) reads (O, PesPrinter.pp_init) n) =
  option_map (fun r => match r with Ok (code, (_, s)) => Ok (code, PesPrinter.pp_out s) | Fail f => Fail f end)
    (Commands.print_pes_main view reads n).
Proof.
  intros view local reads bs n R P L. pose proof (PesWallProofs.print_pes_er local view reads bs n R P L) as E.
  unfold PesWallProofs.lines, PesWallProofs.lines_wall in E.
  destruct (Commands.print_pes_main view reads n) as [[[c [h s]]|f]|]; cbn [option_map rmap fst snd] in *;
    (etransitivity; [|exact E]); clear E; match goal with |- option_map _ ?x = _ => destruct x as [[[c' [h' [m s']]]|f']|] end; reflexivity.
Qed.
Print Assumptions C93_print_pes.

(** ** What is recorded *)
Lemma last_entry : forall o local bytes stage n ps s0 s1 code s, rc_Start o local s0 = Ok (s1, true) ->
  FeedPackets (list_source packet) (recorder o local bytes stage) n ps s0 = Some (Ok (code, s)) -> exists m tr, rc_trace s = tr ++ [Msg m].
Proof.
  intros o local bytes stage n ps s0 s1 code s E F. unfold FeedPackets in F. change (sk_start (recorder o local bytes stage) s0) with (rc_Start o local s0) in F. rewrite E in F.
  destruct (feed_loop _ _ _ _ _) as [[s2|]|]; try discriminate. cbn in F. injection F as _ <-. cbn. eauto.
Qed.

(** For any two wall clocks: the same calls on the file, with the same bytes; the
    same positions in the chunk messages; the same exit code. *)
Theorem C93_recording : forall o local local' bytes stage ops ps code s code' s',
  RecorderProps.runs o local bytes stage ops ps code s -> RecorderProps.runs o local' bytes stage ops ps code' s' ->
  code' = code /\ same_recording (rc_trace s) (rc_trace s').
Proof.
  intros o local local' bytes stage ops ps code s code' s' R R'.
  assert (X : (rc_trace s = [Ring EvSeekFail] /\ rc_trace s' = [Ring EvSeekFail] /\ code = code') \/ (rc_trace s <> [Ring EvSeekFail] /\ rc_trace s' <> [Ring EvSeekFail])).
  { destruct R as (G & n & s0 & N & F), R' as (_ & n' & s0' & N' & F'). rewrite N in N'. injection N' as <-.
    destruct (rc_Start o local s0) as [[s1 [|]]|f] eqn:E.
    - right. pose proof E as E'. rewrite (start_alone o local local') in E'.
      destruct (last_entry _ _ _ _ _ _ _ _ _ _ E F) as (m & tr & ->), (last_entry _ _ _ _ _ _ _ _ _ _ E' F') as (m' & tr' & ->).
      split; intros X; apply (f_equal (@rev _)) in X; rewrite rev_app_distr in X; discriminate.
    - pose proof E as E'. rewrite (start_alone o local local') in E'.
      unfold FeedPackets in F, F'. change (sk_start (recorder o local bytes stage) s0) with (rc_Start o local s0) in F.
      change (sk_start (recorder o local' bytes stage) s0) with (rc_Start o local' s0) in F'. rewrite E in F. rewrite E' in F'.
      injection F as <- <-. injection F' as <- <-. left.
      unfold rc_Start in E. destruct (_ =? 0); [discriminate|]. apply bind_ok in E as ([[r2 evs] ok] & E0 & E). apply bind_ok in E as (s2 & E2 & E). destruct ok; [discriminate|]. injection E as <-.
      unfold rg_SetPosition, assert in E0. destruct (_ <=? _); [|discriminate]. destruct (_ =? 0); [|discriminate]. destruct (_ <? _); [|discriminate].
      destruct (_ =? 0); [|discriminate]. destruct (rg_next _) as [[|] ?]; [discriminate E0|]. injection E0 as <- <-. cbn [rc_ring_events bind] in E2. injection E2 as <-.
      unfold rc_new in N. destruct (rg_new _ _ _); [|discriminate]. injection N as <-. auto.
    - unfold FeedPackets in F. change (sk_start (recorder o local bytes stage) s0) with (rc_Start o local s0) in F. rewrite E in F. discriminate. }
  destruct X as [(-> & -> & ->)|[X X']]; [split; [reflexivity|split; reflexivity]|].
  destruct (RecorderProps.runs_all _ _ _ _ _ _ _ _ R) as [(_ & _ & _ & D)|(r & ok & Rc & S & C & _ & _ & _ & Ch & _)]; [contradiction|].
  destruct (RecorderProps.runs_all _ _ _ _ _ _ _ _ R') as [(_ & _ & _ & D)|(r' & ok' & Rc' & S' & C' & _ & _ & _ & Ch' & _)]; [contradiction|].
  assert (r' = r) as -> by (apply (record_det o still stage _ _ _ _ (record_strip _ _ _ _ _ _ _ Rc') _ (record_strip _ _ _ _ _ _ _ Rc))).
  rewrite S in S'. injection S' as _ S2 ->. split; [congruence|]. split; [exact S2|]. rewrite Ch, Ch', S2. reflexivity.
Qed.
Print Assumptions C93_recording.

(** ** The messages *)

(** If, once recording has started, the stream clock does not stop being ready,
    the wall clock has no part in the messages. *)
Theorem C93_messages : forall o local local' bytes stage ops ps code s,
  RecorderProps.runs o local bytes stage ops ps code s -> holds (rco_sid o) stage [] [] ps ->
  exists s', RecorderProps.runs o local' bytes stage ops ps code s' /\ rc_trace s' = rc_trace s.
Proof.
  intros o local local' bytes stage ops ps code s (G & n & s0 & N & F) H.
  set (m := S (List.length ps)).
  pose proof (feed_twin o bytes local stage ops s0 ps m N ltac:(unfold m; lia) H) as A. pose proof (feed_twin o bytes local' stage ops s0 ps m N ltac:(unfold m; lia) H) as B.
  assert (Fm : FeedPackets (list_source packet) (recorder o local bytes stage) m ps s0 = Some (Ok (code, s))).
  { unfold FeedPackets in *. destruct (sk_start (recorder o local bytes stage) s0) as [[s1 [|]]|]; auto.
    assert (L : forall k a x y r, feed_loop (list_source packet) (recorder o local bytes stage) k x y = Some r -> (List.length x < a)%nat ->
      feed_loop (list_source packet) (recorder o local bytes stage) a x y = Some r).
    { clear. induction k as [|k IH]; intros a x y r E L; [discriminate|]. destruct a as [|a]; [lia|]. cbn [feed_loop] in *. destruct x as [|p x]; cbn [list_source sr_next] in *; [exact E|].
      destruct (sk_handle _ y p) as [[y1 [|]]|]; auto. apply IH; [exact E|cbn in L; lia]. }
    destruct (feed_loop (list_source packet) (recorder o local bytes stage) n ps s1) as [r|] eqn:E; [|discriminate].
    rewrite (L _ m _ _ _ E); [exact F|unfold m; lia]. }
  rewrite Fm in A. destruct (FeedPackets (list_source packet) (recorder o still bytes stage) m ps s0) as [[[c t]|]|]; try contradiction. destruct A as [-> A].
  destruct (FeedPackets (list_source packet) (recorder o local' bytes stage) m ps s0) as [[[c' t']|]|] eqn:F'; try contradiction. destruct B as [-> B].
  exists t'. split; [split; [exact G|exists m, s0; auto]|congruence].
Qed.
Print Assumptions C93_messages.

(** ** From the command line to the standard output *)
Theorem C93_record_service : forall lib sys local sid file cs nc start bs n, has_input sys bs n ->
  (forall mid en h, filtered (sid mod 2 ^ 16) None 0 anything [] tt (views (li_packet lib) [] bs) mid en h tt -> holds (sid mod 2 ^ 16) 1 [] [] mid) ->
  main lib (with_wall sys local) (RecordService sid file cs nc start) n = main lib sys (RecordService sid file cs nc start) n.
Proof.
  intros lib sys local sid file cs nc start bs n Hi H. destruct (input_the _ _ _ Hi) as (R & P & L). unfold main.
  change (the_reads (with_wall sys local)) with (the_reads sys). cbn [with_wall sy_local sy_file_fd sy_ops sy_flushes].
  destruct (RecorderOption.load_recorder_option cs nc start) as [[[cs' nc'] st]|]; [|reflexivity].
  set (o := mkRcOption (Commands.id16 sid) cs' nc' st). unfold record_on.
  destruct (rc_new o (px_ops (px_open_write file (sy_file_fd sys)) (sy_ops sys))) as [s0|f] eqn:N; [|reflexivity].
  destruct (command_shown o (li_bytes lib) (li_packet lib) sid s0 (the_reads sys) bs n R P L) as (mid & e & h & code & F & _ & A).
  specialize (H _ _ _ F). change (sid mod 2 ^ 16) with (rco_sid o) in H.
  assert (E : shown (Commands.record_service_main (li_packet lib) (li_bytes lib) sid o local s0 (the_reads sys) n) =
              shown (Commands.record_service_main (li_packet lib) (li_bytes lib) sid o (sy_local sys) s0 (the_reads sys) n)).
  { rewrite !A, (fed_twin o (li_bytes lib) local _ _ _ N H), (fed_twin o (li_bytes lib) (sy_local sys) _ _ _ N H). reflexivity. }
  destruct (Commands.record_service_main (li_packet lib) (li_bytes lib) sid o local s0 (the_reads sys) n) as [[[c [se [t s]]]|f]|],
    (Commands.record_service_main (li_packet lib) (li_bytes lib) sid o (sy_local sys) s0 (the_reads sys) n) as [[[c' [se' [t' s']]]|f']|]; try discriminate E; try reflexivity.
  - injection E as -> E. rewrite E. destruct (existsb _ _); [reflexivity|]. unfold report. cbn [snd bind]. rewrite E. reflexivity.
  - injection E as ->. reflexivity.
Qed.
Print Assumptions C93_record_service.

(** Whatever the stream clock does, the recording is the same. *)
Theorem C93_record_service_file : forall lib sys local sid file cs nc start bs n e e', has_input sys bs n ->
  valid_geometry cs nc (match start with Some p => p | None => 0 end) ->
  main lib sys (RecordService sid file cs nc start) n = Some (Ok e) -> main lib (with_wall sys local) (RecordService sid file cs nc start) n = Some (Ok e') ->
  en_code e' = en_code e /\ same_recording (en_trace e) (en_trace e').
Proof.
  intros lib sys local sid file cs nc start bs n e e' Hi G E E'. destruct (input_the _ _ _ Hi) as (R & P & L). unfold main in E, E'.
  change (the_reads (with_wall sys local)) with (the_reads sys) in E'. cbn [with_wall sy_local sy_file_fd sy_ops sy_flushes] in E'.
  assert (Ld : RecorderOption.load_recorder_option cs nc start = Some (cs, nc, match start with Some p => p | None => 0 end)).
  { destruct (geometry cs nc start) as [[_ X]|[X _]]; [| | |contradiction|exact X];
      destruct G as (G1 & G2 & G3 & G4 & G5); unfold in_long; [lia|lia|].
    destruct start as [p|]; cbn; [|exact Logic.I]. nia. }
  rewrite Ld in E, E'. set (o := mkRcOption (Commands.id16 sid) cs nc (match start with Some p => p | None => 0 end)) in *. unfold record_on in E, E'.
  destruct (rc_new o (px_ops (px_open_write file (sy_file_fd sys)) (sy_ops sys))) as [s0|f] eqn:N; [|discriminate].
  destruct (Commands.record_service_main (li_packet lib) (li_bytes lib) sid o (sy_local sys) s0 (the_reads sys) n) as [[[c [se [t s]]]|f]|] eqn:M; try discriminate.
  destruct (Commands.record_service_main (li_packet lib) (li_bytes lib) sid o local s0 (the_reads sys) n) as [[[c' [se' [t' s']]]|f']|] eqn:M'; try discriminate.
  destruct (existsb (entry_asserts _) (rc_trace s)); [discriminate|]. destruct (existsb (entry_asserts _) (rc_trace s')); [discriminate|].
  unfold report in E, E'. cbn [bind snd] in E, E'. injection E as E. injection E' as E'. apply bind_ok in E as (x & _ & E), E' as (x' & _ & E'). injection E as <-. injection E' as <-.
  cbn [en_code en_trace snd].
  destruct (PipeProps.C63_record_service _ _ _ _ o _ _ _ _ _ _ _ _ _ G N R P L M) as (mid & en & h & c0 & Ft & Ru & C).
  destruct (PipeProps.C63_record_service _ _ _ _ o _ _ _ _ _ _ _ _ _ G N R P L M') as (mid' & en' & h' & c0' & Ft' & Ru' & C').
  destruct (filtered_det _ _ _ _ _ _ _ _ _ _ _ _ _ _ _ Ft' Ft) as (-> & -> & -> & _).
  destruct (C93_recording _ _ _ _ _ _ _ _ _ _ _ Ru Ru') as [-> Sm]. split; [|exact Sm].
  destruct en; try (eapply exit_code_fun; eauto; fail). destruct C, C'. congruence.
Qed.
Print Assumptions C93_record_service_file.

(** ** Cases *)

(** The recording of C33: the stream clock holds. *)
Example C93_case_holds : holds 101 0 [] [] RecorderProps.rstream.
Proof.
  destruct (rc_new RecorderProps.ropt []) as [s0|] eqn:N; [|vm_compute in N; discriminate].
  apply (watch_holds RecorderProps.ropt RecorderProps.rbytes 0 [] s0 RecorderProps.rstream N). injection N as <-. vm_compute. reflexivity.
Qed.
Example C93_case : exists s, RecorderProps.runs RecorderProps.ropt (fun n => 1000 * Z.of_nat n) RecorderProps.rbytes 0 [] RecorderProps.rstream 0 s /\
  List.length (messages (rc_trace s)) = 10%nat.
Proof.
  destruct RecorderProps.C33_case as (s & R & M & _).
  destruct (C93_messages _ _ (fun n => 1000 * Z.of_nat n) _ _ _ _ _ _ R C93_case_holds) as (s' & R' & E). exists s'. split; [exact R'|]. rewrite E.
  apply (f_equal (@List.length Z)) in M. rewrite map_length in M. exact M.
Qed.

(** The same from the command line; here the input goes on with a PAT without the
    service. *)
Example C93_case_main : let lib := CommandProps.case_lib PipeProps.stream3 in let sys := CommandProps.case_sys PipeProps.stream3 in let bs := PipeProps.demo_packets 0 PipeProps.stream3 in
  has_input sys bs (Nat.mul 20 1000) /\
  (forall mid en h, filtered (65637 mod 2 ^ 16) None 0 anything [] tt (views (li_packet lib) [] bs) mid en h tt -> holds (65637 mod 2 ^ 16) 1 [] [] mid).
Proof.
  cbv zeta. split; [apply CommandProps.C90_record_case|]. intros mid en h F.
  destruct (rc_new (mkRcOption 101 8192 2 8192) []) as [s0|] eqn:N; [|vm_compute in N; discriminate].
  apply (watch_holds (mkRcOption 101 8192 2 8192) PipeProps.demo_bytes 1 [] s0 mid N). injection N as <-.
  pattern mid. apply (filtered_by_run (ServiceFilter.mkSfOption 101 None) _ mid en h 1000) with (3 := F); cbv beta.
  - apply Nat.ltb_lt. vm_compute. reflexivity.
  - vm_compute. reflexivity.
Qed.

(** When the stream clock is lost, by five PCRs from elsewhere, the time stamps
    of the messages are those of the wall clock. *)
Definition lost_stream : list packet :=
  [ RecorderProps.rpkt 0 None [TPat (Some RecorderProps.rpat)]; RecorderProps.rpkt 0x1F0 None [TPmt (Some RecorderProps.rpmt)];
    RecorderProps.rpkt 0x100 (Some 0) []; RecorderProps.rpkt 0x14 None [TTot (Some RecorderProps.T0)];
    RecorderProps.rpkt 0x12 None [TEit (Some (RecorderProps.reit 1 RecorderProps.T0))] ] ++
  repeat (RecorderProps.rpkt 0x100 (Some 900000000) []) 5 ++ repeat (RecorderProps.rpkt 0x100 None []) 40.
Definition stamps (tr : list entry) : list Z :=
  flat_map (fun m => match m with MChunk t _ => [t] | MEvent _ _ _ _ _ t _ => [t] | _ => [] end) (messages tr).
Example C93_case_lost : exists s s', RecorderProps.runs RecorderProps.ropt (fun _ => 0) RecorderProps.rbytes 0 [] lost_stream 0 s /\
  RecorderProps.runs RecorderProps.ropt (fun n => Z.of_nat n) RecorderProps.rbytes 0 [] lost_stream 0 s' /\
  stamps (rc_trace s) <> stamps (rc_trace s') /\ same_recording (rc_trace s) (rc_trace s').
Proof.
  eexists. eexists. split; [|split; [|split]].
  - split; [unfold valid_geometry; cbn; lia|]. exists 200%nat. eexists. split; [reflexivity|]. vm_compute. reflexivity.
  - split; [unfold valid_geometry; cbn; lia|]. exists 200%nat. eexists. split; [reflexivity|]. vm_compute. reflexivity.
  - vm_compute. discriminate.
  - split; vm_compute; reflexivity.
Qed.

(** print-pes, with a wall clock that goes backwards. *)
Example C93_case_pes : let reads := PipeProps.demo_reads PesProps.pes_case in let bs := PipeProps.demo_packets 0 PesProps.pes_case in
  Forall SourceSpec.read_ok reads /\ SourceSpec.packets_of (SourceSpec.bytes_of reads) bs /\ (List.length (SourceSpec.bytes_of reads) < 2000)%nat /\
  exists code h n s, Commands.run_main (PipeProps.demo_view PesProps.pes_case) (PesWall.pw_sink (fun n => - Z.of_nat n)) reads (O, PesPrinter.pp_init) 2000 = Some (Ok (code, (h, (n, s)))) /\
    n = 1%nat /\ List.length (PesPrinter.pp_out s) = 15%nat.
Proof.
  intros reads bs.
  assert (P : forall p, In p PesProps.pes_case -> 0 <= p_pid p < 8192) by (intros p H; repeat (destruct H as [<-|H]; [cbn; lia|]); destruct H).
  destruct (PipeProps.demo_input PesProps.pes_case 0 ltac:(vm_compute; discriminate) ltac:(lia) P) as [A [_ [C D]]].
  split; [exact A|]. split; [exact C|]. split; [unfold reads, PipeProps.demo_reads; rewrite D; apply Nat.ltb_lt; vm_compute; reflexivity|].
  eexists. eexists. eexists. eexists. split; [vm_compute; reflexivity|]. split; reflexivity.
Qed.
