(** C101: sync-clocks and filter-program. *)
From Coq Require Import Ascii String ZArith Lia List Bool.
From Verif Require Import Base.Outcome Base.Util Model.FileSource Model.StdoutSink Model.Ts Model.PcrSynchronizer Model.ProgramFilter Model.Commands Model.Documents Model.Main
  Spec.PcrSpec Spec.SourceSpec Spec.StdoutSpec Spec.FilterSpec Spec.PipeSpec Spec.ProgramSpec Spec.JsonSpec Spec.DocSpec Spec.DocumentsSpec Spec.MainSpec Spec.OnAirSpec Spec.BroadcastSpec
  Spec.SyncSpec Spec.LateSpec Proofs.JsonTextProofs Proofs.DocumentsProofs Proofs.MainProofs Proofs.CommandProofs Proofs.SyncProofs Proofs.PipeJson Proofs.LateProofs.
From Verif Require Props.SyncProps Props.JsonProps Props.PipeProps Props.MainProps Props.CommandProps Props.BroadcastProps.
Import ListNotations.
Open Scope list_scope.
Open Scope Z_scope.

(** If the services have one PCR PID, all clocks that sync-clocks reports are the time of
    one TOT together with the first PCR that came after that TOT. *)
Theorem C101_clock : forall lib sys sids xsids ns xs bs n l pp, ids_given sids ns -> ids_given xsids xs -> has_input sys bs n -> sy_flushes sys = [] ->
  views (li_packet lib) [] bs = map fst l -> let tr := trace (map fst l) in
  proper tr -> (forall p c, In p (map fst l) -> p_pcr p = Some c -> 0 <= c < 300 * 2 ^ 33) ->
  (forall t, In (Tab 0 (TPat (Some t))) tr -> exists sid q, lists t sid q /\ (ns = [] \/ In sid ns) /\ ~ In sid xs) ->
  pp <> 0x1FFF -> (forall q m, In (Tab q (TPmt (Some m))) tr -> pmt_pcr_pid m = pp) ->
  (forall p t x, In p (map fst l) -> In t (p_tabs p 0) -> tb_body t = TTot (Some x) -> 0 <= x < 2 ^ 44) ->
  exists e, main lib sys (SyncClocks sids xsids) n = Some (Ok e) /\
    (en_code e = 0 -> exists docs x u v w, prints (array_of clock_object) [docs] e /\ tot_then_pcr l pp x u v w /\
       forall c, In c docs -> cd_pid c = pp /\ cd_pcr c = v /\ cd_time c = unix x).
Proof.
  intros lib sys sids xsids ns xs bs n l pp A B I F Vw tr Pr Pc Se Nn Pm To. destruct (input_the _ _ _ I) as (R & P & L).
  destruct (load_sync _ _ _ _ A B) as [o [E W]].
  assert (M : exists code seen s, sync_clocks_main (li_packet lib) sids xsids (the_reads sys) n = Some (Ok (code, (seen, s))) /\
     Sink.FeedPackets (Sink.list_source packet) (ps_sink o) n (map fst l) ps_init = Some (Ok (code, s))).
  { unfold sync_clocks_main. rewrite E. destruct (main_ok _ (li_packet lib) (ps_sink o) (the_reads sys) bs ps_init n
      (fun c s => Sink.FeedPackets (Sink.list_source packet) (ps_sink o) n (map fst l) ps_init = Some (Ok (c, s))) R P L) as [c [seen [s [M K]]]]; [|eauto].
    rewrite Vw. intros Ln. destruct (SyncProps.C47_returns o (map fst l) n Pc To Ln) as [c [s K]]. eauto. }
  destruct M as (code & seen & s & M & K). unfold main. rewrite M.
  destruct (prints_ok lib sys _ code seen s _ (array_of clock_object) clocks_json ps_out F) as (e & -> & <- & Q).
  { intros d _. apply array_ok. intros y. apply clock_ok. }
  exists e. split; [reflexivity|]. intros Ec. rewrite Ec in K.
  assert (Sa : sane_tots tr).
  { intros pid x Ix. apply in_flat_map in Ix as (p & Ip & Ix). unfold events in Ix. destruct (p_pid p =? 0x1FFF); [destruct Ix|]. apply in_app_or in Ix as [Ix|Ix].
    - apply in_map_iff in Ix as (tb & Q1 & Q2). injection Q1 as _ Q1. exact (To p tb x Ip Q2 Q1).
    - destruct (p_pcr p); [destruct Ix as [Ix|[]]; discriminate|destruct Ix]. }
  assert (S : selecting o tr). { intros t It. destruct (Se t It) as (sid & q & Li & Ch). exists sid, q. split; [exact Li|]. apply W. exact Ch. }
  destruct (sync_first o pp Nn _ _ _ _ Pr Sa S Pm K eq_refl) as (h & rest & docs & a & x & b & pcr & Eh & O & T & Qb & D).
  destruct (timed_then _ _ _ _ _ _ _ _ Eh T Qb) as (u & w & TP). exists docs, x, u, pcr, w. split; [rewrite <- O; exact Q|]. split; [exact TP|exact D].
Qed.
Print Assumptions C101_clock.

(** Such a clock is late: by what the TOT is late and by the time to the next PCR.
    filter-program with this clock then records from the first PCR at or after the start
    and [late] to the first PCR at or after the end and [late].  Nothing of the program
    is missed if the start margin is at least [late]. *)
Theorem C101_late : forall lib sys a audio video bs n, (forall p, zlen (li_bytes lib p) = 188) -> (forall m, (1 <= li_npackets lib m)%nat) ->
  Z.abs (pa_clock_time a) < 2 ^ 60 -> (forall w, pa_wait_until a = Some w -> Z.abs w < 2 ^ 60) ->
  Options.LoadComponentTags (pa_audio_tags a) = Ok (Some audio) -> Options.LoadComponentTags (pa_video_tags a) = Ok (Some video) ->
  has_input sys bs n -> Forall no_error (sy_writes sys) -> Forall (sane_packet 1) (views (li_packet lib) [] bs) ->
  (* the clock *)
  forall before pp x u v w K E G, tot_then_pcr before pp x u v w -> ticking K pp before -> punctual E before -> frequent pp G before ->
  pa_clock_pid a = pp -> pa_clock_pcr a = v -> pa_clock_time a = unix x ->
  exists o late, (pfo_sid o = pa_sid a mod 65536 /\ pfo_eid o = pa_eid a mod 65536 /\
   pfo_clock_pid o = pa_clock_pid a mod 65536 /\ pfo_clock_pcr o = pa_clock_pcr a /\
   pfo_clock_time o = 40587 * 86400000 + 9 * 3600000 + pa_clock_time a /\
   pfo_audio_tags o = audio /\ pfo_video_tags o = video /\
   (forall v, pa_start_margin a = Some v -> pfo_start_margin o = v) /\ (pa_start_margin a = None -> pfo_start_margin o = 0) /\
   (forall v, pa_end_margin a = Some v -> pfo_end_margin o = v) /\ (pa_end_margin a = None -> pfo_end_margin o = 0) /\
   pfo_wait_until o = option_map (fun w => 40587 * 86400000 + 9 * 3600000 + w) (pa_wait_until a) /\
   pfo_pre_streaming o = pa_pre_streaming a) /\
  0 <= late <= E + G /\ late_clock o K late /\
  (sane_option o ->
   forall t mpid m ca e p y q z r x mid post, let see := seen_late late in
   broadcast o t mpid m ca e (K + late) (map see p) (see y) (map see q) (see z) (map see r) (see x) (map see mid) (map see post) ->
   views (li_packet lib) [] bs = map fst (p ++ y :: q ++ z :: r ++ x :: mid ++ post) ->
   (exists end_, main lib sys (FilterProgram a) n = Some (Ok end_) /\ en_code end_ = 0 /\
     en_stdout end_ = concat (map (li_bytes lib) (recorded (li_npackets lib) o t mpid m ca y q z r x mid))) /\
   start_tick o e + late <= snd x /\ (forall f g, post = f :: g -> end_tick o e + late <= snd f) /\
   (late <= 27000 * pfo_start_margin o -> forall f, In f (p ++ y :: q ++ z :: r) -> has_pcr o f -> snd f < 27000 * ev_start e)).
Proof.
  intros lib sys a audio video bs n B NP T U A V I W S before pp x u v w K E G TP Ti Pu Fr Ap Av At.
  destruct (BroadcastProps.C100_recorded lib sys a audio video bs n B NP T U A V I W S) as (o & O & X).
  destruct (late_by _ _ _ _ _ _ _ _ _ Ti Pu Fr TP) as (late & Lt & Ev). exists o, late. split; [exact O|]. split; [exact Lt|].
  assert (Lc : late_clock o K late).
  { destruct O as (_ & _ & _ & O1 & O2 & _). unfold late_clock. rewrite O1, O2, Av, At, Ev. unfold unix. f_equal. lia. }
  split; [exact Lc|]. intros So t mpid m ca e p y q z r x' mid post see BC Vw.
  assert (Fm : forall l, map fst (map see l) = map fst l) by (intros l; rewrite map_map; reflexivity).
  assert (Vw' : views (li_packet lib) [] bs = map fst (map see p ++ see y :: map see q ++ see z :: map see r ++ see x' :: map see mid ++ map see post)).
  { rewrite Vw. repeat (progress (rewrite ?map_app; cbn [map app])). rewrite !Fm. reflexivity. }
  split; [|split; [|split]].
  - destruct (X So _ _ _ _ _ _ _ _ _ _ _ _ _ _ BC Vw') as (end_ & E1 & E2 & E3). exists end_. split; [exact E1|]. split; [exact E2|]. rewrite E3. f_equal. f_equal.
    unfold recorded. rewrite !Fm. replace (map fst (see y :: map see q ++ see z :: map see r)) with (map fst (y :: q ++ z :: r)); [reflexivity|].
    repeat (progress (rewrite ?map_app; cbn [map app])). rewrite !Fm. reflexivity.
  - destruct (bc_begin _ _ _ _ _ _ _ _ _ _ _ _ _ _ _ BC) as (_ & Q & _). cbn [see seen_late snd] in Q. lia.
  - intros f g ->. destruct (bc_after _ _ _ _ _ _ _ _ _ _ _ _ _ _ _ BC _ _ eq_refl) as (_ & Q & _). cbn [see seen_late snd] in Q. lia.
  - intros Mg f If Hf. assert (If' : In (see f) (map see p ++ see y :: map see q ++ see z :: map see r)).
    { apply (in_map see) in If. repeat (progress (rewrite ?map_app in If; cbn [map] in If)). exact If. }
    pose proof (bc_before _ _ _ _ _ _ _ _ _ _ _ _ _ _ _ BC _ If' Hf) as Q. cbn [see seen_late snd] in Q. unfold start_tick in Q. lia.
Qed.
Print Assumptions C101_late.

(** sync-clocks 10 s before the program of C100_case: the TOT comes 270 ticks late and
    the next PCR half a millisecond after its time. *)
Definition pkt := ProgramProps.pkt.
Definition t0 := OnAirProps.begin_tick.
Definition pmt101 := ProgramProps.pmt101.
Definition tot0 : Z := 99990000.
Definition at_tick (id t : Z) : packet * Z := OnAirProps.at_tick id t.
Definition before0 : list (packet * Z) :=
  [ at_tick 1 (27000 * tot0 - 5000); (pkt 2 0 [TPat (Some BroadcastProps.pat2)], 27000 * tot0 - 4000);
    (pkt 3 0x11 [TSdt (Some (mkSdt 7 4 [(101, mkService 1 0 None)]))], 27000 * tot0 - 3000); (pkt 4 0x1F0 [TPmt (Some pmt101)], 27000 * tot0 - 2000);
    at_tick 5 (27000 * tot0 - 1000); (pkt 6 0x14 [TTot (Some tot0)], 27000 * tot0 + 270); (pkt 7 0x110 [], 27000 * tot0 + 300);
    at_tick 8 (27000 * tot0 + 13500); at_tick 9 (27000 * tot0 + 20000) ].
Definition lib_of (stream : list packet) : library :=
  let l := CommandProps.case_lib stream in
  mkLibrary (fun h _ => nth (List.length h) stream (pkt 0 0x1FFF [])) (li_deliveries l) (li_sections l) (li_logos l) (li_closing l) (li_bytes l) (li_npackets l) (li_mjd l) (li_decode l) (li_name l)
    (li_parts l) (li_parsers l) (li_block l) (li_show l) (li_help l).
Definition clock0 : Z := (5 + (27000 * tot0 + 13500)) mod pcr_cycle.

Ltac each := OnAirProps.each.
Ltac inevs I := cbn [timed_trace trace flat_map before0 map events fst snd pkt at_tick OnAirProps.at_tick ProgramProps.pkt FilterProps.pkt ProgramProps.pcrp OnAirProps.pcrp p_pid p_tabs p_pcr tb_body app Z.eqb Pos.eqb] in I.
Ltac in_trace H := vm_compute in H; repeat (destruct H as [H|H]; [try discriminate H|]); try (destruct H; fail).
Example C101_clock_case : ids_given None [] /\ proper (trace (map fst before0)) /\
  (forall q m, In (Tab q (TPmt (Some m))) (trace (map fst before0)) -> pmt_pcr_pid m = 0x100) /\
  (forall t, In (Tab 0 (TPat (Some t))) (trace (map fst before0)) -> exists sid q, lists t sid q /\ (@nil Z = [] \/ In sid []) /\ ~ In sid []) /\
  tot_then_pcr before0 0x100 tot0 (27000 * tot0 + 270) clock0 (27000 * tot0 + 13500) /\
  exists e, main (lib_of (map fst before0)) (CommandProps.case_sys (map fst before0)) (SyncClocks None None) (Nat.mul 3 1000) = Some (Ok e) /\ en_code e = 0 /\
    en_stdout e = MainProps.letters "[{""nid"":4,""tsid"":7,""sid"":101,""clock"":{""pid"":256,""pcr"":122749635905,""time"":-3506649210000}}]
"%string.
Proof.
  split; [reflexivity|]. split; [|split; [|split; [|split]]].
  - intros pid b H. in_trace H; injection H as <- <-; try exact I; try reflexivity.
    intros sid q J. cbn in J. repeat (destruct J as [J|J]; [injection J as <- <-; intros _; lia|]). destruct J.
  - intros q m H. in_trace H; injection H as <- <-; reflexivity.
  - intros t H. in_trace H; injection H as <-. exists 101, 0x1F0. split; [split; [discriminate|exists [(0, 0x10); (102, 0x2F0)], []; split; [reflexivity|intros r []]]|auto].
  - eexists _, _, _. split; [vm_compute; apply (f_equal2 (@app (ev * Z)) (x1 := [_; _; _; _; _]) eq_refl); apply f_equal;
      apply (f_equal2 (@app (ev * Z)) (x1 := []) eq_refl); reflexivity|intros e u []].
  - eexists. split; [vm_compute; reflexivity|]. split; vm_compute; reflexivity.
Qed.

(** filter-program with this clock on a stream with the program: the packet 27, with a
    PCR between the start and half a millisecond later, is missed; it is not missed
    with a start margin of 1 ms. *)
Definition late0 : Z := 13500.
Definition with_margin (margin : Z) := mkPfOption 101 5 0x100 clock0 tot0 [0x10] [] margin 0 None false.
Definition y0 := BroadcastProps.y0.
Definition z0 := BroadcastProps.z0.
Definition r0 : list (packet * Z) := BroadcastProps.r0 ++ [at_tick 27 (t0 + 13499)].
Definition x0 := at_tick 15 (t0 + 13500).
Definition mid0 : list (packet * Z) := [ (pkt 16 0x110 [], 0); BroadcastProps.pats 19; at_tick 23 (t0 + 54013499) ].
Definition post0 : list (packet * Z) := [ at_tick 25 (t0 + 54013500) ].
Definition all0 : list packet := map fst (BroadcastProps.p0 ++ y0 :: BroadcastProps.q0 ++ z0 :: r0 ++ x0 :: mid0 ++ post0).
Definition args (margin : Z) : program_args := mkProgramArgs 101 5 256 clock0 (unix tot0) (Some [MainProps.letters "16"%string]) None (Some margin) None None false.
Ltac spread I := unfold BroadcastProps.p0, y0, BroadcastProps.y0, BroadcastProps.q0, z0, BroadcastProps.z0, r0, BroadcastProps.r0, x0, mid0, post0 in I; cbn [app firstn map] in I.
Ltac tables := BroadcastProps.tables.
Example C101_late_case : ticking 5 0x100 before0 /\ punctual 270 before0 /\ late_clock (with_margin 0) 5 late0 /\
  (let see := seen_late late0 in
   broadcast (with_margin 0) BroadcastProps.pat2 0x1F0 pmt101 [0x700] OnAirProps.e5 (5 + late0) (map see BroadcastProps.p0) (see y0) (map see BroadcastProps.q0) (see z0) (map see r0)
     (see x0) (map see mid0) (map see post0)) /\
  load_program_filter (args 0) = Ok (Some (with_margin 0)) /\
  exists e e', main (lib_of all0) (CommandProps.case_sys all0) (FilterProgram (args 0)) (Nat.mul 6 1000) = Some (Ok e) /\
    en_stdout e = concat (map (li_bytes (lib_of all0))
      ([gen_pat (fst (BroadcastProps.pats 9)) (mkPat 7 0 [(0, 0x10); (101, 0x1F0)])] ++ pmt_cycle ProgramProps.two 0x1F0 (reduced (with_margin 0) pmt101) ++
       [fst x0; pkt 16 0x110 []; gen_pat (fst (BroadcastProps.pats 19)) (mkPat 7 0 [(0, 0x10); (101, 0x1F0)]); fst (at_tick 23 (t0 + 54013499))])) /\
    main (lib_of all0) (CommandProps.case_sys all0) (FilterProgram (args 1)) (Nat.mul 6 1000) = Some (Ok e') /\ zlen (en_stdout e') = zlen (en_stdout e) + 3 * 188.
Proof.
  split; [|split; [|split; [|split; [|split]]]].
  - intros v u H. in_trace H; injection H as <- <-; reflexivity.
  - intros v u H. in_trace H; injection H as <- <-; vm_compute; split; discriminate.
  - reflexivity.
  - intros see. constructor.
    + split; [discriminate|reflexivity].
    + vm_compute. intuition discriminate.
    + vm_compute. intuition discriminate.
    + apply Forall_forall. intros p I. spread I. each; intros Q b Ib; vm_compute in Q, Ib; each; try discriminate; try exact Logic.I; try reflexivity; intuition discriminate.
    + intros p I (Q & R). spread I. each; vm_compute in Q, R; try discriminate; destruct R.
    + split; [split; [reflexivity|left; reflexivity]|vm_compute; lia].
    + split; [reflexivity|]. split; [reflexivity|left; reflexivity].
    + right. exists (see (pkt 11 1 [TCat (Some (mkCat 0 [0x700]))], 0)), (mkCat 0 [0x700]).
      split; [unfold BroadcastProps.p0, BroadcastProps.q0, r0, BroadcastProps.r0; cbn [app In map]; do 10 right; left; reflexivity|]. split; [reflexivity|left; reflexivity].
    + exists (see (pkt 10 0x1F0 [TPmt (Some pmt101)], 0)), (see (pkt 12 0x12 [TEit (Some (mkEit 101 7 4 0 [OnAirProps.e5]))], 0)).
      split; [unfold BroadcastProps.q0, r0, BroadcastProps.r0; cbn [app In map]; do 5 right; left; reflexivity|].
      split; [unfold BroadcastProps.q0, r0, BroadcastProps.r0; cbn [app In map]; do 7 right; left; reflexivity|].
      split; [reflexivity|]. split; [eexists _, _; split; [left; reflexivity|reflexivity]|]. split; [reflexivity|]. eexists _, _; split; [left; reflexivity|reflexivity].
    + split; intros p I Nz Ps; spread I; each; vm_compute in Ps; try discriminate; try (exfalso; apply Nz; reflexivity); clear Nz Ps; tables.
    + reflexivity.
    + reflexivity.
    + apply Forall_forall. intros y I. spread I. each; intros Q v E; vm_compute in Q, E; try discriminate; injection E as <-; reflexivity.
    + intros y I (Q & E). spread I. each; vm_compute in Q, E; try congruence; split; reflexivity.
    + reflexivity.
    + intros y I (Q & E). spread I. each; vm_compute in Q, E; try congruence; reflexivity.
    + split; [split; [reflexivity|vm_compute; discriminate]|]. split; [vm_compute; discriminate|reflexivity].
    + intros y I (Q & E). spread I. each; vm_compute in Q, E; try congruence; reflexivity.
    + intros y r [= <- <-]. split; [split; [reflexivity|vm_compute; discriminate]|]. split; [vm_compute; discriminate|reflexivity].
  - vm_compute. reflexivity.
  - eexists _, _. split; [vm_compute; reflexivity|]. split; [vm_compute; reflexivity|]. split; vm_compute; reflexivity.
Qed.
