(** C102: seek-start behind filter-service. *)
From Coq Require Import String ZArith Lia List Bool.
From Verif Require Import Base.Outcome Base.Util Model.Sink Model.Ts Model.FileSource Model.ServiceFilter Model.StartSeeker Model.Main
  Spec.PcrSpec Spec.SourceSpec Spec.StdoutSpec Spec.TransSpec Spec.FilterSpec Spec.PipeSpec Spec.TuneSpec Spec.TwiceSpec Spec.ProgramSpec Spec.SeekSpec Spec.MainSpec Spec.PipelineSpec
  Spec.BehindSpec Spec.SeekBehindSpec
  Proofs.PipeProofs Proofs.SeekBehindProofs.
From Verif Require Model.StdoutSink Proofs.WallMain Props.SeekProps Props.PipeProps Props.PipelineProps Props.BehindProps Props.CommandProps.
Import ListNotations.
Open Scope Z_scope.

(** filter-service --sid=S in.ts | seek-start --sid=S ...: the second process never
    aborts, ends with 0 and writes all it got, or a packet of PID 0 and then all
    from the first PMT with other streams on. *)
Theorem C102_seek : forall lib view, faithful (li_packet lib) (li_bytes lib) -> faithful view (li_bytes lib) -> true_pats (li_bytes lib) ->
  forall sid sys1 bs n1 e1, has_input sys1 bs n1 -> Forall is_byte (input_bytes sys1) -> Forall no_error (sy_writes sys1) ->
  main lib sys1 (FilterService sid) n1 = Some (Ok e1) -> seeks lib view sid bs ->
  forall d p sys2 n2, ~ no_limit d p -> reads_from sys2 (en_stdout e1) n2 -> Forall no_error (sy_writes sys2) ->
  let o := mkSsOption (sid mod 2 ^ 16) (match d with Some v => v | None => 0 end) (match p with Some v => v mod 2 ^ 32 | None => 0 end) in
  sane_seek o ->
  exists out e r, packets_of (en_stdout e1) out /\ main (with_packet lib view) sys2 (SeekStart sid d p) n2 = Some (Ok e) /\ en_code e = 0 /\
    seek o 0 [] None 0 (views view [] out) r /\
    match r with
    | Whole _ => en_stdout e = en_stdout e1
    | Cut i j _ => exists a, znth i out = Some a /\ pid_bytes a = 0 /\ 0 < j < zlen out /\ en_stdout e = a ++ concat (zdrop j out)
    end.
Proof. exact seek_behind. Qed.
Print Assumptions C102_seek.

(** ** Cases *)
Definition with_other (v : Z) : body := TPat (Some (mkPat 7 v [(0, 0x10); (101, 0x1F0); (102, 0x1F1)])).
Definition without (v : Z) : body := TPat (Some (mkPat 7 v [(0, 0x10); (102, 0x1F1)])).
Definition with_one (v : Z) : body := TPat (Some (mkPat 7 v [(0, 0x10); (101, 0x1F0)])).
(** The service goes off the air; before that its streams change, or not. *)
Definition going (change : bool) : list packet :=
  [ SeekProps.spkt 0 0x500 None []; SeekProps.spkt 1 0 None [(with_other 0, 1)]; SeekProps.spkt 2 0x1F0 None [(TPmt (Some SeekProps.pmt_a), 2)];
    SeekProps.spkt 3 0x500 None []; SeekProps.spkt 4 0x100 (Some 0) [];
    SeekProps.spkt 5 0x1F0 None [(TPmt (Some (if change then SeekProps.pmt_b else SeekProps.pmt_a)), 5)];
    SeekProps.spkt 6 0x11 None []; SeekProps.spkt 7 0 None [(without 1, 7)]; SeekProps.spkt 8 0x100 (Some 5) [] ].
(** What is sent, as the second process sees it. *)
Definition gone (change : bool) : list packet :=
  [ SeekProps.spkt 1 0 None [(with_one 0, 0)]; SeekProps.spkt 2 0x1F0 None [(TPmt (Some SeekProps.pmt_a), 1)]; SeekProps.spkt 4 0x100 (Some 0) [];
    SeekProps.spkt 5 0x1F0 None [(TPmt (Some (if change then SeekProps.pmt_b else SeekProps.pmt_a)), 3)]; SeekProps.spkt 6 0x11 None [] ].
Definition seek_101 := SeekStart 101 (Some 1000) (Some 100).

(** seek-start by itself aborts on the second stream.  Behind filter-service,
    which ends with 1, it writes the PAT packet and two packets of the first stream
    and all five packets of the second. *)
Definition behind_seek (change : bool) : option (Z * Z * Z * Z * bool) :=
  let lib := CommandProps.case_lib (going change) in
  match main lib (CommandProps.case_sys (going change)) (FilterService 101) 3000 with
  | Some (Ok e1) =>
      match main (with_packet lib (PipeProps.demo_view (gone change))) (PipelineProps.piped (en_stdout e1)) seek_101 3000 with
      | Some (Ok e) => Some (en_code e1, zlen (en_stdout e1), en_code e, zlen (en_stdout e), if list_eq_dec Z.eq_dec (ztake 188 (en_stdout e1)) (ztake 188 (en_stdout e)) then true else false)
      | _ => None
      end
  | _ => None
  end.
Example C102_case : behind_seek true = Some (1, 5 * 188, 0, 3 * 188, true) /\ behind_seek false = Some (1, 5 * 188, 0, 5 * 188, true) /\
  main (CommandProps.case_lib (going false)) (CommandProps.case_sys (going false)) seek_101 3000 = Some (Fail AssertFail).
Proof. split; [|split]; vm_compute; reflexivity. Qed.

Lemma going_pids : forall b p, In p (going b) -> 0 <= p_pid p < 8192.
Proof. intros b p I. cbn in I. repeat (destruct I as [<-|I]; [cbn; lia|]). destruct I. Qed.
Lemma going_sent : forall b, exists m, WallMain.passed (mkSfOption 101 None) 1000 (views (PipeProps.demo_view (going b)) [] (PipeProps.demo_packets 0 (going b))) = Some m /\
  Forall2 seen_as m (views (PipeProps.demo_view (gone b)) [] (map PipeProps.demo_bytes m)) /\ List.length m = 5%nat /\
  map p_pid (views (PipeProps.demo_view (gone b)) [] (map PipeProps.demo_bytes m)) = map p_pid (gone b) /\
  map (fun p => p_tabs p 0%nat) (views (PipeProps.demo_view (gone b)) [] (map PipeProps.demo_bytes m)) = map (fun p => p_tabs p 0%nat) (gone b).
Proof.
  intros b. destruct b; (eexists; split; [vm_compute; reflexivity|]; split; [|split; [reflexivity|split; vm_compute; reflexivity]]; repeat constructor; vm_compute; reflexivity).
Qed.
Example C102_case_conditions : forall b, let lib := CommandProps.case_lib (going b) in
  faithful (li_packet lib) (li_bytes lib) /\ faithful (PipeProps.demo_view (gone b)) (li_bytes lib) /\ true_pats (li_bytes lib) /\
  has_input (CommandProps.case_sys (going b)) (PipeProps.demo_packets 0 (going b)) 3000 /\ ~ no_limit (Some 1000) (Some 100) /\
  sane_seek (mkSsOption (101 mod 2 ^ 16) 1000 (100 mod 2 ^ 32)) /\
  seeks lib (PipeProps.demo_view (gone b)) 101 (PipeProps.demo_packets 0 (going b)).
Proof.
  intros b lib. split; [apply PipeProps.demo_faithful|]. split; [apply PipeProps.demo_faithful|]. split; [apply (BehindProps.behind_faithful [])|].
  destruct (PipeProps.demo_input (going b) 0 ltac:(change (zlen (going b)) with 9; lia) ltac:(lia) (going_pids b)) as (A1 & A2 & A3 & A4). cbv zeta in *.
  split; [split; [exact A1|]; split; [exact A3|]; unfold zlen in A4; change (List.length (going b)) with 9%nat in A4|].
  { change (input_bytes (CommandProps.case_sys (going b))) with (bytes_of (map ReadData (PipeProps.demo_packets 0 (going b)))). lia. }
  split; [intros [[X|X] _]; discriminate|]. split; [split; cbn; lia|].
  unfold seeks. cbv zeta. change (101 mod 2 ^ 16) with 101. cbn [lib CommandProps.case_lib li_packet li_bytes].
  assert (V := PipeProps.demo_views (going b) (going_pids b)).
  split; [|split; [|split]].
  - intros p t I It P. destruct (V p I) as (q & Iq & E1 & E2 & E3). rewrite E3 in It. rewrite E1 in P. clear - Iq It P. unfold going in Iq. cbn [In] in Iq.
    destruct Iq as [<-|[<-|[<-|[<-|[<-|[<-|[<-|[<-|[<-|[]]]]]]]]]]; cbn in P, It; try discriminate P; try contradiction; destruct It as [<-|[]];
      (split; [exact Logic.I|intros u x L; cbn in L; try discriminate L; injection L as _ <-; cbn; lia]).
  - intros pre p post t E P It C. assert (I : In p (views (PipeProps.demo_view (going b)) [] (PipeProps.demo_packets 0 (going b)))) by (rewrite E; apply in_elt).
    destruct (V p I) as (q & Iq & E1 & E2 & E3). rewrite E3 in It. rewrite E1 in P. clear - Iq It P. exfalso.
    repeat (destruct Iq as [<-|Iq]; [cbn in P, It; first [lia|destruct It]|]). destruct Iq.
  - intros p v I E. destruct (V p I) as (q & Iq & E1 & E2 & E3). rewrite E2 in E. clear - Iq E.
    repeat (destruct Iq as [<-|Iq]; [cbn in E; first [discriminate E|injection E as <-; vm_compute; split; [discriminate|reflexivity]]|]). destruct Iq.
  - intros sent e h F. pattern sent. apply (WallMain.filtered_by_run (mkSfOption 101 None) _ sent e h 1000) with (3 := F); cbv beta.
    + rewrite views_length, PipelineProps.demo_count. cbn. lia.
    + destruct (going_sent b) as (m & -> & S & L & Pp & Pt). split; [exact S|]. revert Pp Pt. generalize (views (PipeProps.demo_view (gone b)) [] (map PipeProps.demo_bytes m)). intros qs Pp Pt n p t E It.
      assert (Lq : List.length qs = 5%nat) by (rewrite <- (map_length p_pid), Pp; reflexivity).
      do 5 (destruct qs as [|? qs]; [discriminate Lq|]). destruct qs; [|discriminate Lq]. cbn [map gone] in Pp, Pt. injection Pp as P0 P1 P2 P3 P4. injection Pt as T0 T1 T2 T3 T4.
      destruct (znth_range _ _ _ _ E) as [B1 B2]. change (zlen _) with 5 in B2. assert (C : n = 0 \/ n = 1 \/ n = 2 \/ n = 3 \/ n = 4) by lia.
      repeat (destruct C as [->|C]); try subst n; injection E as <-; rewrite ?T0, ?T1, ?T2, ?T3, ?T4 in It; cbn in It; try contradiction;
        destruct It as [<-|[]]; cbn [tb_first]; (split; [lia|eexists; split; [reflexivity|congruence]]).
Qed.
