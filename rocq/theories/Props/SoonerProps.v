(** C96: an option that ends a command sooner only cuts its output short. *)
From Coq Require Import ZArith Lia List Bool.
From Verif Require Import Base.Outcome Base.Util Model.Sink Model.FileSource Model.StdoutSink Model.Ts Model.Pcr Model.ServiceFilter Model.EitSection Model.EitCollector Model.Commands Model.Documents Model.Main
  Spec.SourceSpec Spec.StdoutSpec Spec.TransSpec Spec.PipeSpec Spec.EitSpec Spec.SelectSpec Spec.DocumentsSpec Spec.MainSpec Spec.SoonerSpec
  Proofs.PipeProofs Proofs.PipeOptions Proofs.PipeJson Proofs.DocumentsProofs Proofs.CommandProofs Proofs.CutProofs Proofs.SelectProofs Proofs.SoonerProofs.
From Verif Require Model.ProgramFilter Model.EitpfCollector Props.ScanProps Props.EitProps Props.CarouselProps Props.PfProps Props.JsonProps Props.MainProps Props.SelectProps
  Props.PipeProps Props.ProgramProps Props.FilterProps Props.CommandProps.
Import ListNotations.
Open Scope Z_scope.

Lemma both_print : forall lib sys S h (d : S) h' d' out e e' (Q : list eit_doc -> list eit_doc -> Prop), sy_flushes sys = [] ->
  report_jsonl lib sys (Some (Ok (0, (h, d)))) (fun s => map (eit_json (li_parsers lib) (li_block lib)) (out s)) = Some (Ok e) ->
  report_jsonl lib sys (Some (Ok (0, (h', d')))) (fun s => map (eit_json (li_parsers lib) (li_block lib)) (out s)) = Some (Ok e') ->
  Q (out d) (out d') ->
  exists docs docs', en_code e = en_code e' /\
    prints (eit_object (li_decode lib) (li_parsers lib) (li_block lib)) docs e /\
    prints (eit_object (li_decode lib) (li_parsers lib) (li_block lib)) docs' e' /\ Q docs docs'.
Proof.
  intros lib sys S h d h' d' out e e' Q F H H' A.
  destruct (prints_ok lib sys _ 0 h d _ (eit_object (li_decode lib) (li_parsers lib) (li_block lib)) (eit_json (li_parsers lib) (li_block lib)) out F)
    as (e0 & E0 & Q0 & Q1). { intros x _. apply eit_ok. }
  destruct (prints_ok lib sys _ 0 h' d' _ (eit_object (li_decode lib) (li_parsers lib) (li_block lib)) (eit_json (li_parsers lib) (li_block lib)) out F)
    as (e1 & E1 & Q2 & Q3). { intros x _. apply eit_ok. }
  rewrite H in E0. rewrite H' in E1. injection E0 as <-. injection E1 as <-. exists (out d), (out d'). split; [congruence|]. auto.
Qed.

(** * collect-eits: --streaming and --time-limit *)
Theorem C96_collect_eits : forall lib sys sids xsids limit limit' streaming streaming' actual others bs n e e', no_later streaming limit streaming' limit' ->
  has_input sys bs n -> sy_flushes sys = [] ->
  main lib sys (CollectEits sids xsids limit streaming actual others) n = Some (Ok e) ->
  main lib sys (CollectEits sids xsids limit' streaming' actual others) n = Some (Ok e') ->
  exists docs docs', en_code e = en_code e' /\
    prints (eit_object (li_decode lib) (li_parsers lib) (li_block lib)) docs e /\
    prints (eit_object (li_decode lib) (li_parsers lib) (li_block lib)) docs' e' /\ is_prefix docs docs'.
Proof.
  intros lib sys sids xsids limit limit' streaming streaming' actual others bs n e e' N I F H H'. destruct (input_the _ _ _ I) as (R & P & L).
  unfold main in H, H'. unfold collect_eits_main, load_eit_collector in H, H'.
  destruct (Options.LoadSidSet sids) as [ss|]; cbn [bind] in H, H'; [|discriminate]. destruct (Options.LoadSidSet xsids) as [xx|]; cbn [bind] in H, H'; [|discriminate].
  set (o := mkEitOption ss xx (match limit with Some v => v | None => 30000 end) streaming (negb others) (negb actual)) in H.
  set (o' := mkEitOption ss xx (match limit' with Some v => v | None => 30000 end) streaming' (negb others) (negb actual)) in H'.
  unfold ec_new in H, H'. cbn [o o' eo_actual eo_others] in H, H'. unfold assert in H, H'. destruct (negb others || negb actual); [|discriminate].
  fold o in H. fold o' in H'.
  destruct (run_main (li_deliveries lib) (eit_sink (li_mjd lib) o) (the_reads sys) ec_init n) as [[[c [h t]]|f]|] eqn:M; try discriminate H.
  destruct (run_main (li_deliveries lib) (eit_sink (li_mjd lib) o') (the_reads sys) ec_init n) as [[[c' [h' t']]|f]|] eqn:M'; try discriminate H'.
  destruct (run_states _ _ (eit_sink (li_mjd lib) o) _ _ _ ec_init _ _ _ _ R P L eq_refl M) as (r & d & b & E & En & Ex). destruct (run_states _ _ (eit_sink (li_mjd lib) o') _ _ _ ec_init _ _ _ _ R P L eq_refl M') as (r' & d' & b' & E' & En' & Ex').
  injection En as <-. injection En' as <-. injection Ex as <-. injection Ex' as <-.
  refine (both_print lib sys _ h d h' d' _ e e' is_prefix F H H' _).
  refine (proj1 (hand_ahead (eit_sink (li_mjd lib) o) (eit_sink (li_mjd lib) o') ec_out ec_out (fun _ => True) (fun l => l) eq
    (eits_ahead (li_mjd lib) o o' eq_refl eq_refl eq_refl eq_refl N) _ _ (eits_grow (li_mjd lib) o') _ _ _ _ _ _ _ _ _ _ eq_refl E E')).
  - intros x y <-. reflexivity.
  - auto.
  - auto.
Qed.
Print Assumptions C96_collect_eits.

(** * collect-eits: the actual and the other schedules *)
Theorem C96_actual : forall lib sys sids xsids limit (mine : bool) K bs n e, kept_apart K (concat (views (li_deliveries lib) [] bs)) ->
  (exists ns, ids_given sids ns) -> (exists xs, ids_given xsids xs) -> has_input sys bs n -> sy_flushes sys = [] -> wires (concat (views (li_deliveries lib) [] bs)) ->
  main lib sys (CollectEits sids xsids limit true false false) n = Some (Ok e) ->
  exists e' docs docs', main lib sys (CollectEits sids xsids limit true mine (negb mine)) n = Some (Ok e') /\ en_code e = en_code e' /\
    prints (eit_object (li_decode lib) (li_parsers lib) (li_block lib)) docs e /\
    prints (eit_object (li_decode lib) (li_parsers lib) (li_block lib)) docs' e' /\
    only (fun d => if mine then K (doc_service d) else negb (K (doc_service d))) docs docs'.
Proof.
  intros lib sys sids xsids limit mine K bs n e A [ns Gs] [xs Gx] I F W. destruct (input_the _ _ _ I) as (R & P & L).
  destruct (collect_eits_options sids xsids ns xs limit true false false Gs Gx) as (o & Eo & So & _ & _ & Ho & _).
  destruct (collect_eits_options sids xsids ns xs limit true mine (negb mine) Gs Gx) as (o' & Eo' & So' & _ & _ & Ho' & _).
  set (K' := fun v => if mine then K v else negb (K v)).
  set (ds := concat (views (li_deliveries lib) [] bs)) in *.
  assert (H : forall x, In (DSection x) ds -> (schedule o' x <-> schedule o x /\ K' (service_of x) = true)).
  { intros x Ix. destruct (A x Ix) as [A1 A2]. rewrite Ho', Ho. unfold K'. destruct mine; cbn [negb]; split.
    - intros (V & N & Z & T & S & X). destruct T as [[T _]|[T C]]; [|discriminate]. split; [tauto|auto].
    - intros [(V & N & Z & T & S & X) C]. repeat split; auto. destruct T as [[T _]|[T _]]; [auto|]. rewrite A2 in C by auto. discriminate.
    - intros (V & N & Z & T & S & X). destruct T as [[T C]|[T _]]; [discriminate|]. rewrite A2 by auto. split; [tauto|auto].
    - intros [(V & N & Z & T & S & X) C]. repeat split; auto. destruct T as [[T _]|[T _]]; [|auto]. rewrite A1 in C by auto. discriminate. }
  assert (N : forall o1 sids0 xsids0 m, load_eit_collector sids0 xsids0 limit true m (negb m) = Ok o1 \/ load_eit_collector sids0 xsids0 limit true false false = Ok o1 -> ec_new o1 = Ok ec_init).
  { clear. intros o1 sids0 xsids0 m H. unfold load_eit_collector in H. destruct (Options.LoadSidSet sids0); cbn [bind] in H; [|destruct H; discriminate].
    destruct (Options.LoadSidSet xsids0); cbn [bind] in H; [|destruct H; discriminate]. destruct H as [H|H]; injection H as <-; [destruct m|]; reflexivity. }
  unfold main, collect_eits_main. rewrite Eo, Eo', (N o sids xsids mine (or_intror Eo)), (N o' sids xsids mine (or_introl Eo')).
  assert (Lv : (List.length (views (li_deliveries lib) [] bs) < n)%nat) by (rewrite views_length; pose proof (packets_length _ _ P); lia).
  pose proof (main_feed (li_deliveries lib) (eit_sink (li_mjd lib) o) _ bs ec_init n R P L) as M.
  pose proof (main_feed (li_deliveries lib) (eit_sink (li_mjd lib) o') _ bs ec_init n R P L) as M'.
  destruct (eits_run (li_mjd lib) o _ n ec_init Lv) as (t & r & Et & St & Rt). destruct (eits_run (li_mjd lib) o' _ n ec_init Lv) as (t' & r' & Et' & St' & Rt').
  rewrite (St So), app_nil_r in Et. rewrite (St' So'), app_nil_r in Et'. rewrite <- Et in Rt. rewrite <- Et' in Rt'. rewrite Rt in M. rewrite Rt' in M'.
  fold ds in M, M'. rewrite (eits_pick (li_mjd lib) o o' K' ds H) in M'.
  destruct (ec_deliver_all (li_mjd lib) o ec_init ds) as [s|f] eqn:D; cbn [bind] in M; [|rewrite M; discriminate].
  destruct (eits_apart (li_mjd lib) o K' ds s W D) as (s' & D' & O). rewrite D' in M'. cbn [bind] in M'.
  destruct M as [h ->], M' as [h' ->]. intros E.
  destruct (prints_ok lib sys _ 0 h' s' _ (eit_object (li_decode lib) (li_parsers lib) (li_block lib)) (eit_json (li_parsers lib) (li_block lib)) ec_out F)
    as (e1 & E1 & Q2 & Q3). { intros x _. apply eit_ok. }
  exists e1. destruct (both_print lib sys _ h s h' s' ec_out e e1 (only (fun d => K' (doc_service d))) F E E1 O) as (docs & docs' & B). exists docs, docs'. split; [exact E1|exact B].
Qed.
Print Assumptions C96_actual.

(** * collect-eitpf: --streaming *)
Lemma eitpf_runs : forall lib sys o o' bs n e e' (Q : list eit_doc -> list eit_doc -> Prop), has_input sys bs n -> sy_flushes sys = [] ->
  report_jsonl lib sys (run_main (li_sections lib) (EitpfCollector.pf_sink (li_mjd lib) o) (the_reads sys) EitpfCollector.pf_init n)
    (fun s => map (eit_json (li_parsers lib) (li_block lib)) (EitpfCollector.pf_out s)) = Some (Ok e) ->
  report_jsonl lib sys (run_main (li_sections lib) (EitpfCollector.pf_sink (li_mjd lib) o') (the_reads sys) EitpfCollector.pf_init n)
    (fun s => map (eit_json (li_parsers lib) (li_block lib)) (EitpfCollector.pf_out s)) = Some (Ok e') ->
  (forall r d b r' d' b', hand (EitpfCollector.pf_sink (li_mjd lib) o) EitpfCollector.pf_init (views (li_sections lib) [] bs) = (r, Ok (d, b)) ->
     hand (EitpfCollector.pf_sink (li_mjd lib) o') EitpfCollector.pf_init (views (li_sections lib) [] bs) = (r', Ok (d', b')) ->
     Q (EitpfCollector.pf_out d) (EitpfCollector.pf_out d')) ->
  exists docs docs', en_code e = en_code e' /\
    prints (eit_object (li_decode lib) (li_parsers lib) (li_block lib)) docs e /\
    prints (eit_object (li_decode lib) (li_parsers lib) (li_block lib)) docs' e' /\ Q docs docs'.
Proof.
  intros lib sys o o' bs n e e' Q I F H H' A. destruct (input_the _ _ _ I) as (R & P & L).
  destruct (run_main (li_sections lib) (EitpfCollector.pf_sink (li_mjd lib) o) (the_reads sys) EitpfCollector.pf_init n) as [[[c [h t]]|f]|] eqn:M; try discriminate H.
  destruct (run_main (li_sections lib) (EitpfCollector.pf_sink (li_mjd lib) o') (the_reads sys) EitpfCollector.pf_init n) as [[[c' [h' t']]|f]|] eqn:M'; try discriminate H'.
  destruct (run_states _ _ (EitpfCollector.pf_sink (li_mjd lib) o) _ _ _ EitpfCollector.pf_init _ _ _ _ R P L eq_refl M) as (r & d & b & E & En & Ex).
  destruct (run_states _ _ (EitpfCollector.pf_sink (li_mjd lib) o') _ _ _ EitpfCollector.pf_init _ _ _ _ R P L eq_refl M') as (r' & d' & b' & E' & En' & Ex').
  injection En as <-. injection En' as <-. injection Ex as <-. injection Ex' as <-.
  exact (both_print lib sys _ h d h' d' _ e e' Q F H H' (A _ _ _ _ _ _ E E')).
Qed.

Theorem C96_collect_eitpf : forall lib sys sids present following bs n e e', has_input sys bs n -> sy_flushes sys = [] ->
  main lib sys (CollectEitpf sids false present following) n = Some (Ok e) ->
  main lib sys (CollectEitpf sids true present following) n = Some (Ok e') ->
  exists docs docs', en_code e = en_code e' /\
    prints (eit_object (li_decode lib) (li_parsers lib) (li_block lib)) docs e /\
    prints (eit_object (li_decode lib) (li_parsers lib) (li_block lib)) docs' e' /\ is_prefix docs docs'.
Proof.
  intros lib sys sids present following bs n e e' I F H H'. unfold main, collect_eitpfs_main, load_eitpf_collector in H, H'.
  destruct (Options.LoadSidSet sids) as [ss|]; cbn [bind] in H, H'; [|discriminate].
  refine (eitpf_runs lib sys _ _ bs n e e' is_prefix I F H H' _). intros r d b r' d' b' E E'.
  set (o := EitpfCollector.mkPfOption ss false (negb following) (negb present)) in *. set (o' := EitpfCollector.mkPfOption ss true (negb following) (negb present)) in *.
  refine (proj1 (hand_ahead (EitpfCollector.pf_sink (li_mjd lib) o) (EitpfCollector.pf_sink (li_mjd lib) o') EitpfCollector.pf_out EitpfCollector.pf_out (fun _ => True) (fun l => l) eq
    (pf_ahead (li_mjd lib) o o' eq_refl eq_refl eq_refl (or_introl eq_refl)) _ _ (eitpfs_grow (li_mjd lib) o') _ _ _ _ _ _ _ _ _ _ eq_refl E E')).
  - intros x y <-. reflexivity.
  - auto.
  - auto.
Qed.
Print Assumptions C96_collect_eitpf.

(** --present and --following select the sections with number 0 and 1; without
    --streaming, the run with the option may end sooner. *)
Theorem C96_present_following : forall lib sys sids streaming (first : bool) bs n e e', has_input sys bs n -> sy_flushes sys = [] ->
  main lib sys (CollectEitpf sids streaming first (negb first)) n = Some (Ok e) ->
  main lib sys (CollectEitpf sids streaming false false) n = Some (Ok e') ->
  exists docs docs', en_code e = en_code e' /\
    prints (eit_object (li_decode lib) (li_parsers lib) (li_block lib)) docs e /\
    prints (eit_object (li_decode lib) (li_parsers lib) (li_block lib)) docs' e' /\
    is_prefix docs (filter (fun d => ed_number d =? if first then 0 else 1) docs') /\
    (streaming = true -> only (fun d => ed_number d =? if first then 0 else 1) docs' docs).
Proof.
  intros lib sys sids streaming first bs n e e' I F H H'. unfold main, collect_eitpfs_main, load_eitpf_collector in H, H'.
  destruct (Options.LoadSidSet sids) as [ss|]; cbn [bind] in H, H'; [|discriminate].
  refine (eitpf_runs lib sys _ _ bs n e e' (fun a b => is_prefix a (filter (fun d => ed_number d =? if first then 0 else 1) b) /\ (streaming = true -> only (fun d => ed_number d =? if first then 0 else 1) b a)) I F H H' _).
  intros r d b r' d' b' E E'.
  set (o := EitpfCollector.mkPfOption ss streaming (negb (negb first)) (negb first)) in *. set (o' := EitpfCollector.mkPfOption ss streaming (negb false) (negb false)) in *.
  set (num := if first then 0 else 1).
  assert (A := pf_kind_ahead (li_mjd lib) o o' num ltac:(unfold num; destruct first; auto) eq_refl eq_refl eq_refl ltac:(unfold num; destruct first; reflexivity) ltac:(unfold num; destruct first; reflexivity) eq_refl).
  destruct (hand_ahead (EitpfCollector.pf_sink (li_mjd lib) o) (EitpfCollector.pf_sink (li_mjd lib) o') EitpfCollector.pf_out EitpfCollector.pf_out (fun _ => True) (filter (fun d => ed_number d =? num)) (pf_kind num) A
    (fun x y Hk => proj2 (proj2 Hk)) (fun _ _ _ => Logic.I) (eitpfs_grow (li_mjd lib) o') (filter_prefix _ _) _ EitpfCollector.pf_init EitpfCollector.pf_init _ _ _ _ _ _ (conj eq_refl (conj eq_refl eq_refl)) E E') as [A1 A2].
  split; [exact A1|]. intros St.
  assert (b = true) as B.
  { clear A A1 A2 E' H H'. revert E. generalize EitpfCollector.pf_init as s. revert r d b. generalize (views (li_sections lib) [] bs) as ps.
    induction ps as [|p ps IH]; intros r d b s E; cbn [hand] in E; [injection E; auto|].
    destruct (sk_handle (EitpfCollector.pf_sink (li_mjd lib) o) s p) as [[s1 b1]|] eqn:E1; [|discriminate].
    assert (b1 = true) as ->.
    { cbn [EitpfCollector.pf_sink sk_handle] in E1. unfold EitpfCollector.pf_HandlePacket, EitpfCollector.pf_Done in E1. cbn [o EitpfCollector.po_streaming] in E1. rewrite St in E1.
      ib E1. injection E1 as _ <-. reflexivity. }
    destruct (hand (EitpfCollector.pf_sink (li_mjd lib) o) s1 ps) as [r1 x] eqn:E2. injection E as <- ->. exact (IH _ _ _ _ E2). }
  unfold only. exact (proj2 (proj2 (A2 B))).
Qed.
Print Assumptions C96_present_following.

(** * filter-program: --wait-until *)
Theorem C96_filter_program : forall lib sys a w w' bs n e e', w <= w' -> has_input sys bs n -> (forall p, zlen (li_bytes lib p) = 188) -> Forall no_error (sy_writes sys) ->
  main lib sys (FilterProgram (patient w a)) n = Some (Ok e) -> main lib sys (FilterProgram (patient w' a)) n = Some (Ok e') ->
  is_prefix (en_stdout e) (en_stdout e').
Proof.
  intros lib sys a w w' bs n e e' Le I size Wr H H'. destruct (input_the _ _ _ I) as (R & P & L). unfold main in H, H'.
  unfold load_program_filter in H, H'. cbn [patient pa_sid pa_eid pa_clock_pid pa_clock_pcr pa_clock_time pa_audio_tags pa_video_tags pa_start_margin pa_end_margin pa_wait_until pa_pre_streaming] in H, H'.
  destruct (ConvertUnixTimeToJstTime (pa_clock_time a)) as [ct|]; cbn [bind] in H, H'; [|discriminate].
  destruct (Options.LoadComponentTags (pa_audio_tags a)) as [[au|]|]; cbn [bind] in H, H'; try discriminate.
  destruct (Options.LoadComponentTags (pa_video_tags a)) as [[vi|]|]; cbn [bind] in H, H'; try discriminate.
  destruct (ConvertUnixTimeToJstTime w) as [z|] eqn:Z; cbn [bind] in H; [|discriminate]. destruct (ConvertUnixTimeToJstTime w') as [z'|] eqn:Z'; cbn [bind] in H'; [|discriminate].
  assert (Lz : z <= z').
  { unfold ConvertUnixTimeToJstTime, i64 in Z, Z'. repeat match type of Z with context [if ?c then _ else _] => destruct c; cbn [bind] in Z; try discriminate end.
    repeat match type of Z' with context [if ?c then _ else _] => destruct c; cbn [bind] in Z'; try discriminate end. injection Z as <-. injection Z' as <-. lia. }
  set (o := ProgramFilter.mkPfOption (id16 (pa_sid a)) (id16 (pa_eid a)) (id16 (pa_clock_pid a)) (pa_clock_pcr a) ct au vi (or_zero (pa_start_margin a)) (or_zero (pa_end_margin a)) None (pa_pre_streaming a)).
  change (ProgramFilter.mkPfOption _ _ _ _ _ _ _ _ _ (Some z) _) with (until z o) in H. change (ProgramFilter.mkPfOption _ _ _ _ _ _ _ _ _ (Some z') _) with (until z' o) in H'.
  unfold filter_program_main in H, H'. set (sid := pa_sid a) in *. set (opt := load_service_filter (Some sid)) in *.
  destruct (run_main (li_packet lib) (filter_program (li_bytes lib) (li_npackets lib) sid (until z o)) (the_reads sys) _ n) as [[[c [h [s [t v]]]]|f]|] eqn:M; try discriminate H.
  destruct (run_main (li_packet lib) (filter_program (li_bytes lib) (li_npackets lib) sid (until z' o)) (the_reads sys) _ n) as [[[c' [h' [s' [t' v']]]]|f]|] eqn:M'; try discriminate H'.
  cbn [report bind snd] in H, H'. injection H as <-. injection H' as <-. cbn [en_stdout].
  set (x0 := (sf_init opt, (ProgramFilter.pf_init o, so_init (sy_writes sys)))) in *.
  destruct (run_states _ _ (filter_program (li_bytes lib) (li_npackets lib) sid (until z o)) _ _ x0 x0 _ _ _ _ R P L eq_refl M) as (r & [s1 [t1 v1]] & b & E & En & Ex).
  destruct (run_states _ _ (filter_program (li_bytes lib) (li_npackets lib) sid (until z' o)) _ _ x0 x0 _ _ _ _ R P L eq_refl M') as (r' & [s1' [t1' v1']] & b' & E' & En' & Ex').
  injection En as <- <- <-. injection En' as <- <- <-.
  set (out := fun w => so_out w ++ so_buf w).
  assert (G := stdout_grows (li_bytes lib) size).
  set (k := fun y => ProgramFilter.program_filter (li_npackets lib) (until y o) (to_stdout (li_bytes lib)) 1).
  set (K := fun y => filter_program (li_bytes lib) (li_npackets lib) sid (until y o)).
  assert (GK : forall y, grows (K y) (fun x => fine (snd (snd x))) (fun x => out (snd (snd x)))).
  { intros y. apply (filter_grows _ 0 opt (k y) (fun x => fine (snd x)) (fun x => out (snd x))). apply (program_grows _ (li_npackets lib) (until y o) (to_stdout (li_bytes lib)) fine out G 1). }
  assert (Fi : fine (so_init (sy_writes sys))) by (apply fine_init; exact Wr).
  destruct (hand_grows (K z) _ _ (GK z) _ x0 _ _ _ Fi E) as [F1 _]. destruct (hand_grows (K z') _ _ (GK z') _ x0 _ _ _ Fi E') as [F2 _]. cbn [snd] in F1, F2.
  rewrite (stdout_ends (li_bytes lib) v1 _ F1 eq_refl), (stdout_ends (li_bytes lib) v1' _ F2 eq_refl).
  assert (A := behind_filter _ _ opt 0 (k z) (k z') _ _ _ _ (program_ahead (li_npackets lib) o z z' Lz (to_stdout (li_bytes lib)) _ fine out G 1) (fun x y Hxy => f_equal (fun x : sk_state (k z) => out (snd x)) (proj1 Hxy))).
  refine (proj1 (hand_ahead (K z) (K z') _ _ (fun x => fine (snd (snd x))) (fun l => l) _ A _ _ (GK z') _ _ x0 x0 _ _ _ _ _ _ (conj eq_refl (conj eq_refl Fi)) E E')).
  - intros [x1 x2] [y1 y2] [_ [Ey _]]. cbn [snd] in *. subst. reflexivity.
  - intros [x1 x2] [y1 y2] [_ [Ey Fy]]. cbn [snd] in *. subst. exact Fy.
  - auto.
Qed.
Print Assumptions C96_filter_program.

(** ** Examples *)
Definition case_input : forall k n, (188 * k < n)%nat -> (List.length (bytes_of (JsonProps.file k)) = 188 * k)%nat -> has_input (MainProps.demo_sys k []) (repeat JsonProps.plain k) n.
Proof.
  intros k n L E. destruct (JsonProps.file_packets k) as (A & B & C). split; [exact A|]. split; [exact B|].
  change (input_bytes (MainProps.demo_sys k [])) with (bytes_of (JsonProps.file k)). rewrite E. exact L.
Qed.

(** Done with the first service, or not. *)
Example C96_case_eits : let lib := SelectProps.select_lib CarouselProps.services in let sys := MainProps.demo_sys 2 [] in
  no_later false None true None /\ no_later false (Some 1000) false None /\ has_input sys (repeat JsonProps.plain 2) 800 /\
  (exists e, main lib sys (CollectEits None None None false false false) 800 = Some (Ok e)) /\
  (exists e, main lib sys (CollectEits None None None true false false) 800 = Some (Ok e)) /\
  exists c seen s seen' s',
    collect_eits_main (li_mjd lib) (li_deliveries lib) None None None false false false (JsonProps.file 2) 800 = Some (Ok (c, (seen, s))) /\
    map ed_sid (ec_out s) = [1] /\
    collect_eits_main (li_mjd lib) (li_deliveries lib) None None None true false false (JsonProps.file 2) 800 = Some (Ok (c, (seen', s'))) /\
    map ed_sid (ec_out s') = [1; 2].
Proof.
  cbv zeta. split; [left; reflexivity|]. split; [right; cbn; split; [reflexivity|lia]|]. split; [apply case_input; [apply Nat.ltb_lt; reflexivity|reflexivity]|].
  split; [eexists; vm_compute; reflexivity|]. split; [eexists; vm_compute; reflexivity|].
  do 5 eexists. split; [vm_compute; reflexivity|]. split; [reflexivity|]. split; [vm_compute; reflexivity|]. reflexivity.
Qed.

(** The time goes by between the two sections. *)
Definition slow : list (list delivery) := [[DTot (Some 86400000)]; [DSection (EitProps.eit 0x50 1 0 1 1 0x50)]; [DTot (Some 86420000)]; [DSection (EitProps.eit 0x50 1 1 1 1 0x50)]].
Example C96_case_limit : let lib := SelectProps.select_lib slow in
  exists c seen s seen' s',
    collect_eits_main (li_mjd lib) (li_deliveries lib) None None (Some 20000) false false false (JsonProps.file 4) 800 = Some (Ok (c, (seen, s))) /\
    map ed_number (ec_out s) = [0] /\
    collect_eits_main (li_mjd lib) (li_deliveries lib) None None None false false false (JsonProps.file 4) 800 = Some (Ok (c, (seen', s'))) /\
    map ed_number (ec_out s') = [0; 1].
Proof. cbv zeta. do 5 eexists. split; [vm_compute; reflexivity|]. split; [reflexivity|]. split; [vm_compute; reflexivity|]. reflexivity. Qed.

(** Service 1 in this stream, service 2 in another one. *)
Definition elsewhere : section := mkSection true 0x12 0x60 2 1 false 0 0 ([0; 2; 0; 3; 0; 0x60] ++ encode EitProps.film) [9; 9; 9; 9].
Definition two_streams : list (list delivery) := [[DSection (EitProps.eit 0x50 1 0 0 0 0x50)]; [DSection elsewhere]].
Definition here (v : Z * Z * Z) : bool := snd v =? 1.
Example C96_case_actual : let lib := SelectProps.select_lib two_streams in let sys := MainProps.demo_sys 2 [] in let bs := repeat JsonProps.plain 2 in
  kept_apart here (concat (views (li_deliveries lib) [] bs)) /\ has_input sys bs 800 /\ wires (concat (views (li_deliveries lib) [] bs)) /\
  (exists e, main lib sys (CollectEits None None None true false false) 800 = Some (Ok e)) /\
  exists c seen s seen' s' seen'' s'',
    collect_eits_main (li_mjd lib) (li_deliveries lib) None None None true false false (JsonProps.file 2) 800 = Some (Ok (c, (seen, s))) /\
    map ed_sid (ec_out s) = [1; 2] /\
    collect_eits_main (li_mjd lib) (li_deliveries lib) None None None true true false (JsonProps.file 2) 800 = Some (Ok (c, (seen', s'))) /\
    map ed_sid (ec_out s') = [1] /\
    collect_eits_main (li_mjd lib) (li_deliveries lib) None None None true false true (JsonProps.file 2) 800 = Some (Ok (c, (seen'', s''))) /\
    map ed_sid (ec_out s'') = [2].
Proof.
  cbv zeta. change (li_deliveries (SelectProps.select_lib two_streams)) with (JsonProps.taken two_streams []).
  rewrite (JsonProps.taken_views _ two_streams). split.
  { intros x H. cbn in H. destruct H as [H|[H|[]]]; injection H as <-; cbn; split; (lia || reflexivity). }
  split; [apply case_input; [apply Nat.ltb_lt; reflexivity|reflexivity]|]. split.
  { intros x H. cbn in H. destruct H as [H|[H|[]]]; injection H as <-; [apply EitProps.eit_wire; unfold byte; lia|].
    unfold wire, elsewhere. cbn [sn_ext sn_tid sn_version sn_number sn_last sn_payload sn_crc].
    split; [lia|]. split; [unfold byte; lia|]. split; [lia|]. do 2 (split; [unfold byte; lia|]). split; [|split; reflexivity].
    change (encode EitProps.film) with [0x12; 0x34; 0xEB; 0x7F; 0x20; 0x54; 0x00; 0x01; 0x36; 0x00; 0x20; 0x02; 0x4D; 0x00]. cbn [app]. EitProps.bytes. }
  split; [eexists; vm_compute; reflexivity|].
  do 7 eexists. split; [vm_compute; reflexivity|]. split; [reflexivity|]. split; [vm_compute; reflexivity|]. split; [reflexivity|]. split; [vm_compute; reflexivity|]. reflexivity.
Qed.

(** The pair of service 1, then another version of it. *)
Definition pairs : list (list section) := [[PfProps.pf 2 1 1 0]; [PfProps.pf 2 1 1 1]; [PfProps.pf 2 1 2 0; PfProps.pf 2 1 2 1]].
Definition pf_lib : library :=
  let l := SelectProps.select_lib [] in
  mkLibrary (li_packet l) (li_deliveries l) (JsonProps.taken pairs []) (li_logos l) (li_closing l) (li_bytes l) (li_npackets l) EitProps.dates (li_decode l) (li_name l) (li_parts l) (li_parsers l)
    (li_block l) (li_show l) (li_help l).
Example C96_case_eitpf : let lib := pf_lib in let sys := MainProps.demo_sys 3 [] in
  has_input sys (repeat JsonProps.plain 3) 800 /\
  forallb (fun x => match main lib sys (CollectEitpf SelectProps.one (fst x) (fst (snd x)) (snd (snd x))) 800 with Some (Ok _) => true | _ => false end)
    [(false, (false, false)); (true, (false, false)); (false, (true, false)); (true, (true, false)); (false, (false, true)); (true, (false, true))] = true /\
  map (fun x => match collect_eitpfs_main (li_mjd lib) (li_sections lib) SelectProps.one (fst x) (fst (snd x)) (snd (snd x)) (JsonProps.file 3) 800 with
                | Some (Ok (_, (_, s))) => map (fun d => (ed_version d, ed_number d)) (EitpfCollector.pf_out s) | _ => [] end)
    [(false, (false, false)); (true, (false, false)); (false, (true, false)); (true, (true, false)); (false, (false, true)); (true, (false, true))] =
    [[(1, 0); (1, 1)]; [(1, 0); (1, 1); (2, 0); (2, 1)]; [(1, 0)]; [(1, 0); (2, 0)]; [(1, 1)]; [(1, 1); (2, 1)]].
Proof.
  cbv zeta. split; [apply case_input; [apply Nat.ltb_lt; reflexivity|reflexivity]|]. split; vm_compute; reflexivity.
Qed.

(** The time comes in before the program starts; what was sent before stays. *)
Definition stream_t : list packet := firstn 2 PipeProps.stream2 ++ [FilterProps.pkt 40 0x14 [TTot (Some 500)]] ++ skipn 2 PipeProps.stream2.
Definition args_t : program_args := mkProgramArgs 101 5 256 0 (-3506749200000) None None None None None true.
Example C96_case_program : let lib := CommandProps.case_lib stream_t in let sys := CommandProps.case_sys stream_t in let bs := PipeProps.demo_packets 0 stream_t in
  has_input sys bs 4000 /\ (forall p, zlen (li_bytes lib p) = 188) /\ Forall no_error (sy_writes sys) /\
  exists e e', main lib sys (FilterProgram (patient (-3506749200000) args_t)) 4000 = Some (Ok e) /\ en_code e = 222 /\ zlen (en_stdout e) = 188 /\
    main lib sys (FilterProgram (patient 0 args_t)) 4000 = Some (Ok e') /\ en_code e' = 0 /\ zlen (en_stdout e') = 188 * 12.
Proof.
  cbv zeta.
  assert (P : forall p, In p stream_t -> 0 <= p_pid p < 8192) by (intros p H; repeat (destruct H as [<-|H]; [cbn; lia|]); destruct H).
  destruct (PipeProps.demo_input stream_t 0 ltac:(vm_compute; discriminate) ltac:(lia) P) as [A [_ [C D]]].
  split. { split; [exact A|]. split; [exact C|]. change (input_bytes (CommandProps.case_sys stream_t)) with (bytes_of (PipeProps.demo_reads stream_t)).
    unfold PipeProps.demo_reads. rewrite D. apply Nat.ltb_lt. reflexivity. }
  split; [intros p; apply (proj2 (PipeProps.demo_faithful stream_t))|]. split; [constructor|].
  eexists. eexists. split; [vm_compute; reflexivity|]. split; [reflexivity|]. split; [vm_compute; reflexivity|]. split; [vm_compute; reflexivity|]. split; vm_compute; reflexivity.
Qed.
