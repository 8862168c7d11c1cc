(** C95: a command that reads event information, behind filter-service. *)
From Coq Require Import ZArith Lia List Bool String.
From Verif Require Import Base.Outcome Base.Util Model.Sink Model.Ts Model.FileSource Model.Main
  Spec.SourceSpec Spec.StdoutSpec Spec.FilterSpec Spec.TwiceSpec Spec.PipeSpec Spec.OthersSpec Spec.MainSpec Spec.PipelineSpec Spec.BehindSpec
  Proofs.PipeProofs Proofs.BehindProofs.
From Verif Require Model.StdoutSink Spec.OptionSpec Props.PipeProps Props.PipelineProps Props.EventProps Props.JsonProps Props.CarouselProps Props.OthersJsonProps Props.CommandProps Props.MainProps
  Props.ProgramProps Props.EitProps.
Import ListNotations.
Open Scope Z_scope.

(** filter-service --sid=S in.ts | track-airtime ..., and likewise
    filter-program-metadata, collect-eits and collect-eitpfs: the same output and the
    same exit code as the command alone on the part of the input from the first PAT
    with the service to the first PAT without it.  filter-service ends with 1 if
    there is such a PAT, with 0 otherwise. *)
Theorem C95_events : forall lib, faithful (li_packet lib) (li_bytes lib) -> true_pats (li_bytes lib) -> keeps_apart lib ->
  forall sid sys1 bs n1 e1, has_input sys1 bs n1 -> Forall is_byte (input_bytes sys1) -> Forall no_error (sy_writes sys1) ->
  main lib sys1 (FilterService sid) n1 = Some (Ok e1) ->
  well_placed (sid mod 2 ^ 16) (views (li_packet lib) [] bs) -> pat_first (sid mod 2 ^ 16) (views (li_packet lib) [] bs) ->
  exists before during after, bs = before ++ during ++ after /\
    on_air (sid mod 2 ^ 16) (views (li_packet lib) [] before) (views (li_packet lib) (rev before) during) (views (li_packet lib) (rev during ++ rev before) after) /\
    (en_code e1 = 0 /\ after = [] \/ en_code e1 = 1 /\ after <> []) /\
    forall c sys n sys2 n2, reads_events c -> has_input sys during n -> Forall is_byte (input_bytes sys) -> reads_from sys2 (en_stdout e1) n2 ->
      sy_flushes sys2 = sy_flushes sys -> main lib sys c n = main lib sys2 c n2.
Proof. exact behind_events. Qed.
Print Assumptions C95_events.

(** All packets on the PIDs of service information other than the PAT pass in that
    part, unchanged and in order. *)
Theorem C95_information : forall lib, faithful (li_packet lib) (li_bytes lib) -> true_pats (li_bytes lib) ->
  forall sid sys1 bs n1 e1, has_input sys1 bs n1 -> Forall is_byte (input_bytes sys1) -> Forall no_error (sy_writes sys1) ->
  main lib sys1 (FilterService sid) n1 = Some (Ok e1) ->
  well_placed (sid mod 2 ^ 16) (views (li_packet lib) [] bs) -> pat_first (sid mod 2 ^ 16) (views (li_packet lib) [] bs) ->
  exists before during after out, bs = before ++ during ++ after /\
    on_air (sid mod 2 ^ 16) (views (li_packet lib) [] before) (views (li_packet lib) (rev before) during) (views (li_packet lib) (rev during ++ rev before) after) /\
    (en_code e1 = 0 /\ after = [] \/ en_code e1 = 1 /\ after <> []) /\
    packets_of (en_stdout e1) out /\ Forall is_byte (en_stdout e1) /\ agree pid_bytes (fun pid => In pid info_pids) during out.
Proof. exact behind_info. Qed.
Print Assumptions C95_information.

(** If the PATs always list the service and the first one comes before the first
    EIT and TOT packets: the same as the command alone on the whole input. *)
Theorem C95_whole : forall lib, faithful (li_packet lib) (li_bytes lib) -> true_pats (li_bytes lib) -> keeps_apart lib ->
  forall sid sys1 bs n1 e1, has_input sys1 bs n1 -> Forall is_byte (input_bytes sys1) -> Forall no_error (sy_writes sys1) ->
  main lib sys1 (FilterService sid) n1 = Some (Ok e1) ->
  well_placed (sid mod 2 ^ 16) (views (li_packet lib) [] bs) -> pat_first (sid mod 2 ^ 16) (views (li_packet lib) [] bs) ->
  en_code e1 = 0 ->
  (forall pre x post, bs = pre ++ x :: post -> pid_bytes x = 0x12 \/ pid_bytes x = 0x14 ->
    exists p, In p (views (li_packet lib) [] pre) /\ announces (sid mod 2 ^ 16) p) ->
  forall c sys n sys2 n2, reads_events c -> has_input sys bs n -> Forall is_byte (input_bytes sys) -> reads_from sys2 (en_stdout e1) n2 ->
    sy_flushes sys2 = sy_flushes sys -> main lib sys c n = main lib sys2 c n2.
Proof. exact behind_whole. Qed.
Print Assumptions C95_whole.

(** ** Cases *)
(** A PAT without a transport stream id, an EIT, a packet of another service, the
    PAT with service 1, EITs and other packets, a PAT without it, an EIT. *)
Definition carrying (pid : Z) (l : list body) : packet :=
  mkPacket (Raw 0) pid true None None None (fun _ => map (fun b => mkTable b 0) l) (fun _ => 1%nat).
Definition listed : packet := carrying 0 [TPat (Some (mkPat 2 1 [(0, 0x10); (1, 0x100); (4, 0x400)]))].
Definition unlisted : packet := carrying 0 [TPat (Some (mkPat 2 2 [(0, 0x10); (4, 0x400)]))].
Definition eit_now (version start : Z) : packet :=
  carrying 0x12 [TEit (Some (mkEit 1 2 3 version [mkEvent 10 EventProps.some_day 60 0; mkEvent 11 (EventProps.some_day + start) 1800 0]))].
Definition plain (pid : Z) : packet := carrying pid [].
Definition airing (last : list packet) : list packet :=
  [listed; plain 0x500; eit_now 1 60000; plain 0x11; eit_now 2 90000; plain 0x12; plain 0x100; listed; eit_now 3 90000] ++ last.
Definition zapped : list packet := [eit_now 0 30000; plain 0x500] ++ airing [unlisted; eit_now 4 120000; plain 0x12].
Definition quiet : list packet := [plain 0x500; plain 0x11] ++ airing [].

(** Byte 3 of a packet says what it carries. *)
Definition behind_view (l : list packet) (h : list (list Z)) (b : list Z) : packet :=
  let p := nth (Z.to_nat (nth 3 b 0)) l JsonProps.nothing in
  mkPacket (Raw (PipeProps.num b)) (pid_bytes b) (p_pusi p) (p_pcr p) (p_pts p) (p_dts p) (p_tabs p) (p_regen p).
Definition sections_at {P} (l : list (list P)) : list (list Z) -> list Z -> list P := 
  OthersJsonProps.by_number_at [0x12] [[]; []; []; []; nth 0 l []; []; nth 1 l []; nth 3 l []; []; []; nth 4 l []].
Definition behind_lib (l : list packet) : library :=
  mkLibrary (behind_view l) (sections_at CarouselProps.carousel) (sections_at JsonProps.pf_stream) (fun _ _ => ([], true)) (fun _ => [])
    PipeProps.demo_bytes ProgramProps.two EitProps.dates (fun _ => ""%string) (fun _ => "NHK"%string) (fun _ => (false, [])) MainProps.no_parsers
    (fun _ => ([], None)) (fun _ => ""%string) "help"%string.
Definition behind_sys (l : list packet) : system := CommandProps.case_sys l.

Lemma behind_faithful : forall l, faithful (behind_view l) PipeProps.demo_bytes /\ true_pats PipeProps.demo_bytes /\ keeps_apart (behind_lib l).
Proof.
  intros l. split; [|split].
  - split; [|split; [reflexivity|apply (PipeProps.demo_faithful [])]]. intros h b T. apply (proj1 (PipeProps.demo_faithful []) [] b T).
  - intros p t. split; [|split; reflexivity]. apply Forall_forall. intros x I. cbn in I. unfold is_byte. repeat (destruct I as [<-|I]; [lia|]). destruct I.
  - cbn [keeps_apart behind_lib li_packet li_deliveries li_sections]. unfold keeps_apart. cbn [behind_lib li_packet li_deliveries li_sections].
    split; [intros h h' b _; reflexivity|]. split; [apply OthersJsonProps.by_number_at_ok|]. split; [apply OthersJsonProps.by_number_at_ok|].
    split; intros h b _ N; intros; apply OthersJsonProps.by_number_at_ok; intros pid [<-|[]]; assumption.
Qed.

(** filter-service --sid=65537 on the first stream ends with 1; track-airtime
    --sid=1 --eid=11 behind it prints the three EITs in between, as it does on the
    nine packets of that part alone; filter-program-metadata likewise.  On the second
    stream it ends with 0, and the collectors print what they print of all of it. *)
Definition run_behind (l : list packet) (first n : Z) (c : command) : option (Z * Z * bool * Z) :=
  let lib := behind_lib l in
  match main lib (behind_sys l) (FilterService 65537) 4000 with
  | Some (Ok e1) =>
      let direct := mkSystem [] 0 (map ReadData (ztake n (zdrop first (PipeProps.demo_packets 0 l)))) [] [] (fun _ => 0) 4 [] in
      match main lib direct c 4000, main lib (PipelineProps.piped (en_stdout e1)) c 4000 with
      | Some (Ok e), Some (Ok e') =>
          Some (en_code e1, en_code e', if list_eq_dec Z.eq_dec (en_stdout e) (en_stdout e') then true else false,
                zlen (List.filter (fun x => x =? 10) (en_stdout e')))
      | _, _ => None
      end
  | _ => None
  end.
Example C95_case_airtime : run_behind zapped 2 9 (TrackAirtime 1 11) = Some (1, 0, true, 3).
Proof. vm_compute. reflexivity. Qed.
Example C95_case_metadata : run_behind zapped 2 9 (FilterProgramMetadata (Some 1)) = Some (1, 0, true, 3).
Proof. vm_compute. reflexivity. Qed.
Example C95_case_eits : run_behind quiet 0 99 (CollectEits None None None false false false) = Some (0, 0, true, 3).
Proof. vm_compute. reflexivity. Qed.
Example C95_case_eitpf : run_behind quiet 0 99 (CollectEitpf (Some [[49]]) false false false) = Some (0, 0, true, 3).
Proof. vm_compute. reflexivity. Qed.

Lemma behind_tables : forall l bs h p, In p (views (behind_view l) h bs) -> exists q, (In q l \/ q = JsonProps.nothing) /\ p_tabs p = p_tabs q.
Proof.
  induction bs as [|b bs IH]; intros h p I; [destruct I|]. cbn [views] in I. destruct I as [<-|I]; [|exact (IH _ _ I)].
  unfold behind_view. cbv zeta. cbn [p_tabs]. exists (nth (Z.to_nat (nth 3 b 0)) l JsonProps.nothing). split; [|reflexivity].
  destruct (Nat.lt_ge_cases (Z.to_nat (nth 3 b 0)) (List.length l)) as [L|L]; [left; apply nth_In; exact L|right; apply nth_overflow; exact L].
Qed.
Definition patlike (b : body) : bool :=
  match b with
  | TPat (Some t) => match pmt_pid_of 1 t with Some q => negb (zmem q [0; 1; 0x14; 0x1FFF]) | None => true end
  | TEit _ => true
  | _ => false
  end.
Lemma behind_conditions : forall l bs, forallb (fun p => forallb (fun t => patlike (tb_body t)) (p_tabs p 0)) l = true ->
  well_placed 1 (views (behind_view l) [] bs) /\ pat_first 1 (views (behind_view l) [] bs).
Proof.
  intros l bs H.
  assert (K : forall p t, In p (views (behind_view l) [] bs) -> In t (p_tabs p 0) -> patlike (tb_body t) = true).
  { intros p t I It. destruct (behind_tables _ _ _ _ I) as (q & [Iq| ->] & E); rewrite E in It; [|destruct It].
    rewrite forallb_forall in H. specialize (H q Iq). rewrite forallb_forall in H. exact (H t It). }
  split.
  - intros p t I It P. specialize (K p t I It). split; [destruct (tb_body t); auto; discriminate|].
    intros u q L. unfold listing, usable_pat in L. destruct (tb_body t) as [[t'|]| | | | | | |]; try discriminate. cbn [fst Z.eqb andb] in L.
    destruct (negb (pat_tsid t' =? 0)); [|discriminate]. cbn [patlike] in K. destruct (pmt_pid_of 1 t') as [q'|]; [|discriminate]. injection L as _ <-.
    intros X. apply zmem_In in X. rewrite X in K. discriminate.
  - intros pre p post t E P It C. assert (I : In p (views (behind_view l) [] bs)) by (rewrite E; apply in_elt). specialize (K p t I It).
    unfold a_cat, service_pmt in C. cbn [snd] in C. destruct (tb_body t); try discriminate K; destruct C as [C|C]; congruence.
Qed.
Example C95_case_conditions : forall l, l = zapped \/ l = quiet ->
  has_input (behind_sys l) (PipeProps.demo_packets 0 l) 4000 /\ Forall is_byte (input_bytes (behind_sys l)) /\ Forall no_error (sy_writes (behind_sys l)) /\
  well_placed (65537 mod 2 ^ 16) (views (li_packet (behind_lib l)) [] (PipeProps.demo_packets 0 l)) /\
  pat_first (65537 mod 2 ^ 16) (views (li_packet (behind_lib l)) [] (PipeProps.demo_packets 0 l)) /\
  reads_events (TrackAirtime 1 11) /\ reads_events (CollectEits None None None false false false) /\ reads_events (CollectEitpf (Some [[49]]) false false false).
Proof.
  intros l Hl.
  assert (B : forall p, In p l -> 0 <= p_pid p < 8192) by (intros p I; destruct Hl as [-> | ->]; cbn in I; repeat (destruct I as [<-|I]; [cbn; lia|]); destruct I).
  assert (L : zlen l <= 14) by (destruct Hl as [-> | ->]; vm_compute; discriminate).
  destruct (PipeProps.demo_input l 0 ltac:(lia) ltac:(lia) B) as (A1 & A2 & A3 & A4). cbv zeta in *. change (map ReadData (PipeProps.demo_packets 0 l)) with (PipeProps.demo_reads l) in *.
  assert (E : input_bytes (behind_sys l) = bytes_of (PipeProps.demo_reads l)) by reflexivity.
  split; [split; [exact A1|]; rewrite E; split; [exact A3|]; unfold zlen in L; lia|]. split; [rewrite E; exact A2|]. split; [constructor|].
  change (65537 mod 2 ^ 16) with 1. cbn [behind_lib li_packet].
  destruct (behind_conditions l (PipeProps.demo_packets 0 l)) as [C1 C2]; [destruct Hl as [-> | ->]; vm_compute; reflexivity|].
  split; [exact C1|]. split; [exact C2|]. split; [exact I|]. split; [right; exact I|]. exists [1]. split; [|right; split; [discriminate|reflexivity]].
  split; [|repeat constructor; lia]. constructor; [|constructor]. apply (OptionSpec.numeral_one 1). lia.
Qed.
