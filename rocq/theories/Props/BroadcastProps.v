(** C100: filter-program on a whole transport stream. *)
From Coq Require Import Ascii String ZArith Lia List Bool.
From Verif Require Import Base.Outcome Base.Util Model.Sink Model.StdoutSink Model.Ts Model.FileSource Model.ProgramFilter Model.Commands Model.Main
  Spec.PcrSpec Spec.FilterSpec Spec.TuneSpec Spec.TransSpec Spec.ProgramSpec Spec.SeekSpec Spec.SourceSpec Spec.StdoutSpec Spec.PipeSpec Spec.MainSpec Spec.OnAirSpec Spec.BroadcastSpec
  Proofs.BroadcastProofs.
From Verif Require Props.FilterProps Props.ProgramProps Props.OnAirProps Props.PipeProps Props.MainProps Props.CommandProps.
Import ListNotations.
Open Scope list_scope.
Open Scope Z_scope.

(** mirakc-arib filter-program on the packets of a transport stream with any number of
    services: if the program is on air (see [broadcast]) then the exit code is 0 and
    the standard output is the bytes of [recorded] and nothing else. *)
Theorem C100_recorded : forall lib sys a audio video bs n, (forall p, zlen (li_bytes lib p) = 188) -> (forall m, (1 <= li_npackets lib m)%nat) ->
  Z.abs (pa_clock_time a) < 2 ^ 60 -> (forall w, pa_wait_until a = Some w -> Z.abs w < 2 ^ 60) ->
  Options.LoadComponentTags (pa_audio_tags a) = Ok (Some audio) -> Options.LoadComponentTags (pa_video_tags a) = Ok (Some video) ->
  has_input sys bs n -> Forall no_error (sy_writes sys) -> Forall (sane_packet 1) (views (li_packet lib) [] bs) ->
  exists o,
  (pfo_sid o = pa_sid a mod 65536 /\ pfo_eid o = pa_eid a mod 65536 /\
   pfo_clock_pid o = pa_clock_pid a mod 65536 /\ pfo_clock_pcr o = pa_clock_pcr a /\
   pfo_clock_time o = 40587 * 86400000 + 9 * 3600000 + pa_clock_time a /\
   pfo_audio_tags o = audio /\ pfo_video_tags o = video /\
   (forall v, pa_start_margin a = Some v -> pfo_start_margin o = v) /\ (pa_start_margin a = None -> pfo_start_margin o = 0) /\
   (forall v, pa_end_margin a = Some v -> pfo_end_margin o = v) /\ (pa_end_margin a = None -> pfo_end_margin o = 0) /\
   pfo_wait_until o = option_map (fun w => 40587 * 86400000 + 9 * 3600000 + w) (pa_wait_until a) /\
   pfo_pre_streaming o = pa_pre_streaming a) /\
  (sane_option o ->
   forall t mpid m ca e K p y q z r x mid post, broadcast o t mpid m ca e K p y q z r x mid post ->
   views (li_packet lib) [] bs = map fst (p ++ y :: q ++ z :: r ++ x :: mid ++ post) ->
   exists end_, main lib sys (FilterProgram a) n = Some (Ok end_) /\ en_code end_ = 0 /\
     en_stdout end_ = concat (map (li_bytes lib) (recorded (li_npackets lib) o t mpid m ca y q z r x mid))).
Proof.
  intros lib sys a audio video bs n B NP T U A V I W S.
  destruct (CommandProps.C90_filter_program lib sys a audio video bs n B NP T U A V I W S) as (o & O & X). exists o. split; [exact O|].
  intros So t mpid m ca e K p y q z r x mid post BC Vw. destruct (X So) as (q1 & en & h & out & en' & h' & F & G & M).
  change (2 ^ 16) with 65536 in *. rewrite <- (proj1 O) in F, M. rewrite Vw in F.
  destruct (on_broadcast _ _ _ _ _ _ _ _ _ _ _ _ _ _ _ _ _ _ _ _ _ _ BC F G) as (-> & Bh & D).
  assert (Pc : program_code o h' = 0) by (unfold program_code; rewrite Bh, andb_false_r; reflexivity).
  destruct D as [->|(-> & -> & Mi)].
  - assert (Y : exists e0, main lib sys (FilterProgram a) n = Some (Ok e0) /\
      en_stdout e0 = concat (map (li_bytes lib) (recorded (li_npackets lib) o t mpid m ca y q z r x mid)) /\ en_code e0 = program_code o h') by (destruct en; exact M).
    destruct Y as (e0 & E1 & E2 & E3). exists e0. rewrite E3, Pc. auto.
  - destruct M as (e0 & E1 & E2 & E3). exists e0. split; [exact E1|]. split; [|exact E2]. rewrite Pc in E3.
    destruct E3 as [(_ & (v & Iv & Mv) & _)|(_ & E3)]; [|exact E3]. rewrite (Mi v Iv) in Mv. discriminate.
Qed.
Print Assumptions C100_recorded.

(** A transport stream with the services 101 and 102; program 5 of service 101 is on
    air for 2 s; audio stream 16 of the two is wanted. *)
Definition pkt := ProgramProps.pkt.
Definition at_tick := OnAirProps.at_tick.
Definition t0 := OnAirProps.begin_tick.
Definition pmt101 := ProgramProps.pmt101.
Definition opt := OnAirProps.opt.
Definition e5 := OnAirProps.e5.
Definition pat2 := mkPat 7 0 [(0, 0x10); (102, 0x2F0); (101, 0x1F0)].
Definition pats (id : Z) : packet * Z := (pkt id 0 [TPat (Some pat2)], 0).
Definition p0 : list (packet * Z) := [ (pkt 1 0x110 [], 0); (pkt 2 0x12 [], 0); (pkt 3 0 [], 0) ].
Definition y0 := pats 4.
Definition q0 : list (packet * Z) := [ (pkt 5 0x2F0 [TPmt (Some (mkPmt 102 0 0x200 [] []))], 0); (pkt 6 0x110 [], 0); (pkt 7 0x12 [], 0) ].
Definition z0 : packet * Z := (pkt 8 0x1F0 [TPmt (Some pmt101)], 0).
Definition r0 : list (packet * Z) :=
  [ pats 9; (pkt 10 0x1F0 [TPmt (Some pmt101)], 0); (pkt 11 1 [TCat (Some (mkCat 0 [0x700]))], 0);
    (pkt 12 0x12 [TEit (Some (mkEit 101 7 4 0 [e5]))], 0); at_tick 13 (t0 - 1); (pkt 14 0x110 [], 0) ].
Definition x0 := at_tick 15 t0.
Definition mid0 : list (packet * Z) :=
  [ (pkt 16 0x110 [], 0); (pkt 17 0x111 [], 0); (pkt 18 0x210 [], 0); pats 19; (pkt 20 0x1F0 [TPmt (Some pmt101)], 0); (pkt 21 0x700 [], 0);
    (pkt 22 0x1FFF [], 0); at_tick 23 (t0 + 53999999); (pkt 24 0x12 [], 0) ].
Definition post0 : list (packet * Z) := [ at_tick 25 (t0 + 54000000); (pkt 26 0x110 [], 0); (pkt 27 0 [TPat (Some (mkPat 7 1 []))], 0) ].
Definition all0 : list packet := map fst (p0 ++ y0 :: q0 ++ z0 :: r0 ++ x0 :: mid0 ++ post0).

Ltac each := OnAirProps.each.
Ltac spread I := unfold p0, y0, q0, z0, r0, x0, mid0, post0 in I; cbn [app firstn map] in I.
Ltac tables := let t := fresh "t" in let It := fresh "It" in intros t It; vm_compute in It; each;
  (split; [split; [reflexivity|split; intros ? ? ?H; vm_compute in H |- *; congruence]|]);
  (split; [intros ? ? ?H; vm_compute in H |- *; congruence|]); (split; [intros ? ?H; vm_compute in H |- *; congruence|reflexivity]).

Example C100_hypotheses : broadcast opt pat2 0x1F0 pmt101 [0x700] e5 5 p0 y0 q0 z0 r0 x0 mid0 post0 /\ sane_option opt /\ Forall (sane_packet 1) all0.
Proof.
  split; [|split; [vm_compute; intuition discriminate|]].
  - constructor.
    + split; [discriminate|reflexivity].
    + vm_compute. intuition discriminate.
    + vm_compute. intuition discriminate.
    + apply Forall_forall. intros p I. spread I. each; intros Q b Ib; vm_compute in Q, Ib; each; try discriminate; try exact Logic.I; try reflexivity; intuition discriminate.
    + intros p I (Q & R). unfold p0 in I. each; vm_compute in Q, R; try discriminate; destruct R.
    + split; [split; [reflexivity|left; reflexivity]|vm_compute; lia].
    + split; [reflexivity|]. split; [reflexivity|left; reflexivity].
    + right. exists (pkt 11 1 [TCat (Some (mkCat 0 [0x700]))], 0), (mkCat 0 [0x700]).
      split; [unfold p0, q0, r0; cbn [app In]; do 10 right; left; reflexivity|]. split; [reflexivity|left; reflexivity].
    + exists (pkt 10 0x1F0 [TPmt (Some pmt101)], 0), (pkt 12 0x12 [TEit (Some (mkEit 101 7 4 0 [e5]))], 0).
      split; [unfold q0, r0; cbn [app In]; do 5 right; left; reflexivity|]. split; [unfold q0, r0; cbn [app In]; do 7 right; left; reflexivity|].
      split; [reflexivity|]. split; [eexists _, _; split; [left; reflexivity|reflexivity]|]. split; [reflexivity|]. eexists _, _; split; [left; reflexivity|reflexivity].
    + split; intros p I Nz Ps; spread I; each; vm_compute in Ps; try discriminate; try (exfalso; apply Nz; reflexivity); clear Nz Ps; tables.
    + reflexivity.
    + reflexivity.
    + apply Forall_forall. intros y I. spread I. each; intros Q v E; vm_compute in Q, E; try discriminate; injection E as <-; reflexivity.
    + intros y I (Q & E). spread I. each; vm_compute in Q, E; try congruence; split; reflexivity.
    + reflexivity.
    + intros y I (Q & E). spread I. each; vm_compute in Q, E; try congruence; reflexivity.
    + split; [split; [reflexivity|vm_compute; discriminate]|]. split; [vm_compute; discriminate|reflexivity].
    + intros y I (Q & E). spread I. each; vm_compute in Q, E; try congruence; reflexivity.
    + intros y r [= <- <-]. split; [split; [reflexivity|vm_compute; discriminate]|]. split; [vm_compute; discriminate|reflexivity].
  - apply Forall_forall. intros p I. unfold all0 in I. spread I.
    each; (split; [intros v E; vm_compute in E; try discriminate; injection E as <-; vm_compute; intuition discriminate|]);
      intros t It; vm_compute in It; each; cbn; auto; repeat constructor; cbn; lia.
Qed.

(** The options --sid=101 --eid=5 --clock-pid=256 --clock-pcr=5 --clock-time=-3506749200000 --audio-tags=16. *)
Definition args0 : program_args := mkProgramArgs 101 5 256 5 (-3506749200000) (Some [MainProps.letters "16"%string]) None None None None false.
Definition lib0 : library :=
  let l := CommandProps.case_lib all0 in
  mkLibrary (fun h _ => nth (List.length h) all0 (pkt 0 0x1FFF [])) (li_deliveries l) (li_sections l) (li_logos l) (li_closing l) (li_bytes l) (li_npackets l) (li_mjd l) (li_decode l) (li_name l)
    (li_parts l) (li_parsers l) (li_block l) (li_show l) (li_help l).
Definition sys0 : system := CommandProps.case_sys all0.
Example C100_case : load_program_filter args0 = Ok (Some opt) /\ views (li_packet lib0) [] (PipeProps.demo_packets 0 all0) = all0 /\
  recorded (li_npackets lib0) opt pat2 0x1F0 pmt101 [0x700] y0 q0 z0 r0 x0 mid0 =
    (let one := mkPat 7 0 [(0, 0x10); (101, 0x1F0)] in let less := reduced opt pmt101 in
    [ gen_pat (fst (pats 9)) one; pmt_packet 0x1F0 less 0; pmt_packet 0x1F0 less 1; fst x0; pkt 16 0x110 []; gen_pat (fst (pats 19)) one;
      pmt_packet 0x1F0 less 0; pkt 21 0x700 []; fst (at_tick 23 (t0 + 53999999)); pkt 24 0x12 [] ]) /\
  exists e, main lib0 sys0 (FilterProgram args0) (Nat.mul 6 1000) = Some (Ok e) /\ en_code e = 0 /\
    en_stdout e = concat (map (li_bytes lib0) (recorded (li_npackets lib0) opt pat2 0x1F0 pmt101 [0x700] y0 q0 z0 r0 x0 mid0)).
Proof.
  split; [vm_compute; reflexivity|]. split; [reflexivity|]. split; [vm_compute; reflexivity|].
  eexists. split; [vm_compute; reflexivity|]. split; vm_compute; reflexivity.
Qed.
