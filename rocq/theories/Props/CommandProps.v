(** C90: from the command line to the standard output. *)
From Coq Require Import Ascii String ZArith Lia List Bool Sorting.Sorted.
From Verif Require Import Base.Outcome Base.Util Model.FileSource Model.StdoutSink Model.Ts Model.EitSection Model.RecorderOption Model.ServiceRecorder Model.Commands Model.PosixFile
  Model.Documents Model.Main
  Spec.SourceSpec Spec.StdoutSpec Spec.FilterSpec Spec.TransSpec Spec.PipeSpec Spec.ProgramSpec Spec.EitSpec Spec.RecorderSpec Spec.SeekSpec
  Spec.JsonSpec Spec.DocSpec Spec.DocumentsSpec Spec.OptionSpec Spec.FileSpec Spec.MainSpec Proofs.DocumentsProofs Proofs.MainProofs Proofs.CommandProofs Proofs.PlacedProofs Proofs.JsonTextProofs.
From Verif Require Model.ProgramFilter Model.StartSeeker Model.ServiceScanner Model.PcrSynchronizer Model.EitCollector Model.EitpfCollector
  Model.AirtimeTracker Model.MetadataFilter Model.PesPrinter Model.PesText Model.Logo
  Spec.ScanSpec Spec.SyncSpec Spec.EventSpec Spec.CarouselSpec Spec.PfSpec Spec.PesSpec Spec.PesTextSpec Spec.LogoSpec
  Proofs.PipeProgram Props.SeekProps Props.ScanProps Props.ProgramProps Props.MainProps Props.RecorderProps Props.PipeProps Props.JsonProps Props.PesTextProps Props.LogoProps.
Import ListNotations.
Open Scope list_scope.
Open Scope Z_scope.

(** * Packets *)
Theorem C90_filter_service : forall lib sys sid bs n, (forall p, zlen (li_bytes lib p) = 188) ->
  has_input sys bs n -> Forall no_error (sy_writes sys) ->
  exists out en h, filtered (sid mod 2 ^ 16) None 0 anything [] tt (views (li_packet lib) [] bs) out en h tt /\
  match en with
  | FilterSpec.Crashed f => main lib sys (FilterService sid) n = Some (Fail f)
  | _ => exists e, main lib sys (FilterService sid) n = Some (Ok e) /\
      exit_code (sid mod 2 ^ 16) h 0 (en_code e) /\ en_stdout e = concat (map (li_bytes lib) out)
  end.
Proof.
  intros lib sys sid bs n B I W. destruct (input_the _ _ _ I) as (R & P & L).
  destruct (PipeProps.C61_filter_service (li_packet lib) (li_bytes lib) B sid _ bs (sy_writes sys) n R P W L) as (out & en & h & F & E).
  exists out, en, h. split; [exact F|]. unfold main. destruct en as [| | |f]; [| | |rewrite E; reflexivity];
    destruct E as (code & seen & s & w & -> & C & O); (eexists; split; [apply report_ok; reflexivity|auto]).
Qed.
Print Assumptions C90_filter_service.

Theorem C90_filter_program : forall lib sys a audio video bs n, (forall p, zlen (li_bytes lib p) = 188) -> (forall m, (1 <= li_npackets lib m)%nat) ->
  Z.abs (pa_clock_time a) < 2 ^ 60 -> (forall w, pa_wait_until a = Some w -> Z.abs w < 2 ^ 60) ->
  Options.LoadComponentTags (pa_audio_tags a) = Ok (Some audio) -> Options.LoadComponentTags (pa_video_tags a) = Ok (Some video) ->
  has_input sys bs n -> Forall no_error (sy_writes sys) -> Forall (sane_packet 1) (views (li_packet lib) [] bs) ->
  exists o,
  (ProgramFilter.pfo_sid o = pa_sid a mod 65536 /\ ProgramFilter.pfo_eid o = pa_eid a mod 65536 /\
   ProgramFilter.pfo_clock_pid o = pa_clock_pid a mod 65536 /\ ProgramFilter.pfo_clock_pcr o = pa_clock_pcr a /\
   ProgramFilter.pfo_clock_time o = 40587 * 86400000 + 9 * 3600000 + pa_clock_time a /\
   ProgramFilter.pfo_audio_tags o = audio /\ ProgramFilter.pfo_video_tags o = video /\
   (forall v, pa_start_margin a = Some v -> ProgramFilter.pfo_start_margin o = v) /\ (pa_start_margin a = None -> ProgramFilter.pfo_start_margin o = 0) /\
   (forall v, pa_end_margin a = Some v -> ProgramFilter.pfo_end_margin o = v) /\ (pa_end_margin a = None -> ProgramFilter.pfo_end_margin o = 0) /\
   ProgramFilter.pfo_wait_until o = option_map (fun w => 40587 * 86400000 + 9 * 3600000 + w) (pa_wait_until a) /\
   ProgramFilter.pfo_pre_streaming o = pa_pre_streaming a) /\
  (sane_option o ->
   exists mid en h out en' h', filtered (pa_sid a mod 2 ^ 16) None 0 anything [] tt (views (li_packet lib) [] bs) mid en h tt /\
   trans (program_step (li_npackets lib) o 1) anything [] tt mid out en' h' tt /\
   match en', en with
   | TransSpec.Crashed f, _ => main lib sys (FilterProgram a) n = Some (Fail f)
   | TransSpec.AtEnd, FilterSpec.Crashed f => main lib sys (FilterProgram a) n = Some (Fail f)
   | _, _ => exists e, main lib sys (FilterProgram a) n = Some (Ok e) /\ en_stdout e = concat (map (li_bytes lib) out) /\
       match en' with
       | TransSpec.AtEnd => exit_code (pa_sid a mod 2 ^ 16) h (program_code o h') (en_code e)
       | _ => en_code e = program_code o h'
       end
   end).
Proof.
  intros lib sys a audio video bs n B NP T U A V I W S. destruct (input_the _ _ _ I) as (R & P & L).
  destruct (PipeProps.C65_filter_program a audio video T U A V) as (o & E & O). exists o. split; [exact O|]. intros So.
  destruct (PipeProps.C62_filter_program (li_packet lib) (li_bytes lib) B (li_npackets lib) NP (pa_sid a) o _ bs (sy_writes sys) n So R P W L S)
    as (mid & en & h & out & en' & h' & F & G & K).
  exists mid, en, h, out, en', h'. split; [exact F|]. split; [exact G|]. unfold main. rewrite E.
  destruct en' as [| | |f']; [| | |rewrite K; reflexivity]; destruct en as [| | |f]; try (rewrite K; reflexivity);
    destruct K as (code & seen & s & t & w & -> & Q & C); (eexists; split; [apply report_ok; reflexivity|auto]).
Qed.
Print Assumptions C90_filter_program.

Theorem C90_seek_start : forall lib sys sid d p bs n, (forall p, zlen (li_bytes lib p) = 188) -> ~ no_limit d p ->
  has_input sys bs n -> Forall no_error (sy_writes sys) ->
  let o := StartSeeker.mkSsOption (sid mod 2 ^ 16) (match d with Some v => v | None => 0 end) (match p with Some v => v mod 2 ^ 32 | None => 0 end) in
  orderly o 0 (views (li_packet lib) [] bs) -> sane_seek o ->
  exists r e, seek o 0 [] None 0 (views (li_packet lib) [] bs) r /\ main lib sys (SeekStart sid d p) n = Some (Ok e) /\ en_code e = 0 /\
    en_stdout e = concat (map (li_bytes lib) (seek_output (views (li_packet lib) [] bs) r)).
Proof.
  intros lib sys sid d p bs n B N I W o O S. destruct (input_the _ _ _ I) as (R & P & L).
  destruct (PipeProps.C64_seek_start (li_packet lib) (li_bytes lib) B o _ bs (sy_writes sys) n R P W L O S) as (r & seen & s & w & K & E & Q).
  assert (X : StartSeeker.ss_LoadOption sid d p = Some o).
  { destruct (StartSeeker.ss_LoadOption sid d p) eqn:Y; [|apply load_none in Y; contradiction]. rewrite <- Y. unfold StartSeeker.ss_LoadOption in *. fold o in Y |- *.
    destruct (_ && _)%bool; [discriminate|reflexivity]. }
  exists r. eexists. split; [exact K|]. unfold main. rewrite X, E. split; [apply report_ok; reflexivity|auto].
Qed.
Print Assumptions C90_seek_start.

(** * JSON *)
Theorem C90_scan_services : forall lib sys sids xsids ns xs bs n, ids_given sids ns -> ids_given xsids xs -> has_input sys bs n -> sy_flushes sys = [] ->
  let ps := views (li_packet lib) [] bs in
  exists o e docs, (forall v, ScanSpec.chosen o v <-> (ns = [] \/ In v ns) /\ ~ In v xs) /\
    main lib sys (ScanServices sids xsids) n = Some (Ok e) /\ prints (array_of (service_object (li_name lib))) docs e /\
    ((en_code e = 1 /\ docs = [] /\ forall h rest, ps = h ++ rest -> ~ exists t d n, ScanSpec.ready h t d n) \/
     (exists h p rest t d n doc, en_code e = 0 /\ docs = [doc] /\ ps = h ++ p :: rest /\ ScanSpec.ready (h ++ [p]) t d n /\
        ScanSpec.service_list o t d n doc /\ forall h' h'', h = h' ++ h'' -> ~ exists t d n, ScanSpec.ready h' t d n)).
Proof.
  intros lib sys sids xsids ns xs bs n A B I F ps. destruct (input_the _ _ _ I) as (R & P & L).
  destruct (JsonProps.C76_scan_services (li_packet lib) sids xsids ns xs _ bs n A B R P L) as (o & code & seen & s & C & E & D).
  exists o. unfold main. rewrite E.
  destruct (prints_ok lib sys _ code seen s _ (array_of (service_object (li_name lib))) (services_json (li_name lib)) ServiceScanner.sc_out F) as (e & -> & <- & Q).
  { intros d _. apply array_ok. intros x. apply service_ok. }
  exists e, (ServiceScanner.sc_out s). auto.
Qed.
Print Assumptions C90_scan_services.

Theorem C90_sync_clocks : forall lib sys sids xsids ns xs bs n, ids_given sids ns -> ids_given xsids xs -> has_input sys bs n -> sy_flushes sys = [] ->
  let ps := views (li_packet lib) [] bs in
  SyncSpec.proper (SyncSpec.trace ps) -> (forall p c, In p ps -> p_pcr p = Some c -> 0 <= c < 300 * 2 ^ 33) ->
  (forall p t x, In p ps -> In t (p_tabs p 0) -> tb_body t = TTot (Some x) -> 0 <= x < 2 ^ 44) ->
  exists o e out, (forall v, SyncSpec.wanted o v <-> (ns = [] \/ In v ns) /\ ~ In v xs) /\
    main lib sys (SyncClocks sids xsids) n = Some (Ok e) /\ prints (array_of clock_object) out e /\
    ((en_code e = 1 /\ out = []) \/
     (en_code e = 0 /\ exists h rest docs, ps = h ++ rest /\ out = [docs] /\
        StronglySorted (fun a b => PcrSynchronizer.cd_sid a < PcrSynchronizer.cd_sid b) docs /\
        (docs = [] \/ exists t post, SyncSpec.since_pat (SyncSpec.trace h) t post /\ forall c, In c docs -> SyncSpec.genuine o t post c))).
Proof.
  intros lib sys sids xsids ns xs bs n A B I F ps X Y Z. destruct (input_the _ _ _ I) as (R & P & L).
  destruct (JsonProps.C76_sync_clocks (li_packet lib) sids xsids ns xs _ bs n A B R P L X Y Z) as (o & code & seen & s & C & E & D).
  exists o. unfold main. rewrite E.
  destruct (prints_ok lib sys _ code seen s _ (array_of clock_object) clocks_json PcrSynchronizer.ps_out F) as (e & -> & <- & Q).
  { intros d _. apply array_ok. intros x. apply clock_ok. }
  exists e, (PcrSynchronizer.ps_out s). auto.
Qed.
Print Assumptions C90_sync_clocks.

Theorem C90_collect_eits : forall lib sys sids xsids ns xs limit actual others bs n, sane_mjd (li_mjd lib) ->
  ids_given sids ns -> ids_given xsids xs -> (actual && others)%bool = false -> has_input sys bs n -> sy_flushes sys = [] ->
  let ps := views (li_deliveries lib) [] bs in
  wires (concat ps) ->
  exists o,
    (forall x, schedule o x <->
      sn_valid x = true /\ sn_next x = false /\ 6 <= zlen (sn_payload x) /\
      (0x50 <= sn_tid x <= 0x5F /\ others = false \/ 0x60 <= sn_tid x <= 0x6F /\ actual = false) /\
      (ns = [] \/ In (sid_of x) ns) /\ ~ In (sid_of x) xs) /\
    (CarouselSpec.steady o (concat ps) ->
     exists e docs ys handled rest,
       main lib sys (CollectEits sids xsids limit false actual others) n = Some (Ok e) /\ en_code e = 0 /\
       prints (eit_object (li_decode lib) (li_parsers lib) (li_block lib)) docs e /\
       ps = handled ++ rest /\ CarouselSpec.first_seen o (concat handled) ys /\ Forall2 (EitSpec.describes (li_mjd lib)) ys docs /\
       (rest <> [] -> CarouselSpec.complete_but_past o (concat handled) \/
          exists t, passed (li_mjd lib) o (concat handled) t /\ match limit with Some v => v | None => 30000 end <= t)).
Proof.
  intros lib sys sids xsids ns xs limit actual others bs n M A B AO I F ps W. destruct (input_the _ _ _ I) as (R & P & L).
  destruct (JsonProps.C76_collect_eits (li_mjd lib) (li_deliveries lib) sids xsids ns xs limit actual others _ bs n M A B AO R P L W) as (o & C & K).
  exists o. split; [exact C|]. intros S. destruct (K S) as (seen & s & ys & handled & rest & E & D).
  unfold main. rewrite E.
  destruct (prints_ok lib sys _ 0 seen s _ (eit_object (li_decode lib) (li_parsers lib) (li_block lib)) (eit_json (li_parsers lib) (li_block lib)) EitCollector.ec_out F)
    as (e & -> & Q0 & Q).
  { intros d _. apply eit_ok. }
  exists e, (EitCollector.ec_out s), ys, handled, rest. auto.
Qed.
Print Assumptions C90_collect_eits.

Theorem C90_collect_eitpf : forall lib sys sids ns streaming present following bs n, sane_mjd (li_mjd lib) -> ids_given sids ns ->
  (present && following)%bool = false -> has_input sys bs n -> sy_flushes sys = [] ->
  let ps := views (li_sections lib) [] bs in
  PfSpec.pf_wires (concat ps) -> (forall x, In x (concat ps) -> consistent x) ->
  exists o,
    (forall x, PfSpec.pf_counts o x <->
      sn_valid x = true /\ sn_next x = false /\ sn_tid x = 0x4E /\ 6 <= zlen (sn_payload x) /\ (sn_number x = 0 \/ sn_number x = 1) /\
      (ns = [] \/ In (sid_of x) ns)) /\
    (forall x, PfSpec.pf_selected o x <-> sn_number x = 0 /\ following = false \/ sn_number x = 1 /\ present = false) /\
    (streaming = true \/ (PfSpec.one_stream o (concat ps) /\ ns <> []) ->
     let all xs := forall sid, In sid ns -> PfSpec.complete o xs sid in
     exists e docs ys handled rest,
       main lib sys (CollectEitpf sids streaming present following) n = Some (Ok e) /\ en_code e = 0 /\
       prints (eit_object (li_decode lib) (li_parsers lib) (li_block lib)) docs e /\
       ps = handled ++ rest /\ PfSpec.news o (concat handled) ys /\ Forall2 (EitSpec.describes (li_mjd lib)) ys docs /\
       (streaming = true -> rest = []) /\
       (streaming = false -> forall k, (0 < k < List.length handled)%nat -> ~ all (concat (firstn k handled))) /\
       (rest <> [] -> all (concat handled))).
Proof.
  intros lib sys sids ns streaming present following bs n M A PF I F ps W Co. destruct (input_the _ _ _ I) as (R & P & L).
  destruct (JsonProps.C77_collect_eitpfs (li_mjd lib) (li_sections lib) sids ns streaming present following _ bs n M A PF R P L W Co) as (o & C1 & C2 & K).
  exists o. split; [exact C1|]. split; [exact C2|]. intros S all. destruct (K S) as (seen & s & ys & handled & rest & E & D).
  unfold main. rewrite E.
  destruct (prints_ok lib sys _ 0 seen s _ (eit_object (li_decode lib) (li_parsers lib) (li_block lib)) (eit_json (li_parsers lib) (li_block lib)) EitpfCollector.pf_out F)
    as (e & -> & Q0 & Q).
  { intros d _. apply eit_ok. }
  exists e, (EitpfCollector.pf_out s), ys, handled, rest. auto.
Qed.
Print Assumptions C90_collect_eitpf.

Theorem C90_collect_logos : forall lib sys bs n, has_input sys bs n -> sy_flushes sys = [] -> logo_bytes lib ->
  exists e docs qs ls, main lib sys CollectLogos n = Some (Ok e) /\ en_code e = 0 /\ prints logo_object docs e /\
    LogoSpec.taken (li_logos lib) [] bs qs ls /\ Forall2 LogoSpec.described (LogoSpec.visible (ls ++ li_closing lib (rev qs))) docs.
Proof.
  intros lib sys bs n I F [B1 B2]. destruct (input_the _ _ _ I) as (R & P & L).
  destruct (LogoProps.C82_collect_logos (li_logos lib) (li_closing lib) _ bs n R P L) as (seen & s & qs & ls & E & T & _ & D).
  { intros h p. apply Forall_forall. apply B1. } { intros h. apply Forall_forall. apply B2. }
  unfold main. rewrite E. destruct (prints_ok lib sys _ 0 seen s _ logo_object logo_json Logo.lc_out F) as (e & -> & Q0 & Q).
  { intros d H. apply logo_ok. clear - D H. induction D as [|l d' ls' ds Hd D IH]; [contradiction|]. destruct H as [->|H]; [eapply logo_chars; exact Hd|auto]. }
  exists e, (Logo.lc_out s), qs, ls. auto.
Qed.
Print Assumptions C90_collect_logos.

Theorem C90_metadata : forall lib sys sid bs n, has_input sys bs n -> sy_flushes sys = [] -> EventSpec.sane_eits (views (li_packet lib) [] bs) ->
  exists e docs, main lib sys (FilterProgramMetadata sid) n = Some (Ok e) /\ en_code e = 0 /\
    prints (meta_object (li_decode lib) (li_parts lib) (li_parsers lib)) docs e /\ JsonProps.documents sid (EventSpec.eits (views (li_packet lib) [] bs)) docs.
Proof.
  intros lib sys sid bs n I F S. destruct (input_the _ _ _ I) as (R & P & L).
  destruct (JsonProps.C76_metadata (li_packet lib) sid _ bs n R P L S) as (seen & out & E & D).
  unfold main. rewrite E.
  destruct (prints_ok lib sys _ 0 seen out _ (meta_object (li_decode lib) (li_parts lib) (li_parsers lib)) (meta_json (li_parts lib) (li_parsers lib)) (fun s => s) F) as (e & Q1 & Q0 & Q).
  { intros d _. apply meta_ok. }
  exists e, out. rewrite <- Q1. auto.
Qed.
Print Assumptions C90_metadata.

Theorem C90_track_airtime : forall lib sys sid eid bs n, has_input sys bs n -> sy_flushes sys = [] -> EventSpec.sane_eits (views (li_packet lib) [] bs) ->
  let o := AirtimeTracker.mkAtOption (sid mod 65536) (eid mod 65536) in
  exists e docs h rest, main lib sys (TrackAirtime sid eid) n = Some (Ok e) /\ en_code e = 0 /\ prints airtime_object docs e /\
    views (li_packet lib) [] bs = h ++ rest /\ EventSpec.airtimes o (EventSpec.eits h) docs /\
    (rest = [] /\ ~ EventSpec.lacking o (views (li_packet lib) [] bs) \/
     exists h0 p, h = h0 ++ [p] /\ ~ EventSpec.lacking o h0 /\ EventSpec.lacking o [p]).
Proof.
  intros lib sys sid eid bs n I F S o. destruct (input_the _ _ _ I) as (R & P & L).
  destruct (JsonProps.C76_airtime (li_packet lib) sid eid _ bs n R P L S) as (seen & s & h & rest & E & D).
  unfold main. rewrite E. destruct (prints_ok lib sys _ 0 seen s _ airtime_object airtime_json AirtimeTracker.at_out F) as (e & -> & Q0 & Q).
  { intros d _. apply airtime_ok. }
  exists e, (AirtimeTracker.at_out s), h, rest. auto.
Qed.
Print Assumptions C90_track_airtime.

(** * record-service: the messages on the standard output and the calls on the
    file *)
Theorem C90_record_service : forall lib sys sid file cs nc start bs n, (forall k, Z.abs (sy_local sys k) < 2 ^ 44) ->
  valid_geometry cs nc (match start with Some p => p | None => 0 end) -> file <> [] -> 0 <= sy_file_fd sys -> has_input sys bs n -> sy_flushes sys = [] ->
  let ps := views (li_packet lib) [] bs in
  (forall p t, In p ps -> In t (p_tabs p 0) -> tame (sid mod 2 ^ 16) None (p_pid p, tb_body t)) ->
  (forall p v, In p ps -> p_pcr p = Some v -> 0 <= v < 2 ^ 33 * 300) ->
  (forall p t, In p ps -> In t (p_tabs p 1) -> sane_table (tb_body t)) ->
  let o := mkRcOption (sid mod 2 ^ 16) cs nc (match start with Some p => p | None => 0 end) in
  exists e mid en h c s, main lib sys (RecordService sid file cs nc start) n = Some (Ok e) /\
    filtered (sid mod 2 ^ 16) None 0 anything [] tt ps mid en h tt /\ RecorderProps.runs o (sy_local sys) (li_bytes lib) 1 (sy_ops sys) mid c s /\
    en_trace e = rc_trace s /\ match en with FilterSpec.Crashed _ => en_code e = c /\ c <> 0 | _ => exit_code (sid mod 2 ^ 16) h c (en_code e) end /\
    prints (message_object (li_decode lib) (li_parts lib) (li_parsers lib) "stop"%string) (messages (en_trace e)) e.
Proof.
  intros lib sys sid file cs nc start bs n Lo G Fi Fd I F ps T0 Pc T1 o. destruct (input_the _ _ _ I) as (R & P & L).
  assert (Ld : load_recorder_option cs nc start = Some (cs, nc, match start with Some p => p | None => 0 end)).
  { destruct (geometry cs nc start) as [[_ X]|[X _]]; [| | |contradiction|exact X];
      destruct G as (G1 & G2 & G3 & G4 & G5); unfold in_long; [lia|lia|].
    destruct start as [p|]; cbn; [|exact Logic.I]. nia. }
  destruct (PipeProps.C63_no_abort o (sy_local sys) (li_bytes lib) (li_packet lib) Lo G sid (sy_ops sys) _ bs n eq_refl R P L T0 Pc T1)
    as (s0 & code & [seen [t s]] & N & E).
  destruct (PipeProps.C63_record_service (li_packet lib) (li_bytes lib) (sy_local sys) sid o (sy_ops sys) s0 _ bs n code seen t s G N R P L E)
    as (mid & en & h & c & Ft & Ru & C).
  assert (D : decent s).
  { destruct Ru as (_ & m & s1 & N1 & Fe). rewrite N in N1. injection N1 as <-.
    eapply run_decent; [| exact N| |exact Fe].
    - destruct G as (G1 & G2 & G3 & G4 & G5). cbn [o rco_start_pos]. nia.
    - intros q x Hq Hx.
      destruct (PipeProgram.filtered_origin _ _ _ (fun _ => True) _ _ _ _ _ _ _ _ Ft (fun _ _ => Logic.I) (fun _ _ _ _ => Logic.I) q Hq) as [[Hi _]|[p [pt [mp [z [_ [_ [-> _]]]]]]]].
      + exact (T1 q x Hi Hx).
      + cbn in Hx. apply repeat_spec in Hx. subst x. exact Logic.I. }
  destruct (trace_ok lib (rc_trace s)) as (js & J1 & J2 & J3).
  { eapply Forall_impl; [|apply (d_msgs _ D)]. intros m M. apply M. } { eapply Forall_impl; [|apply (d_msgs _ D)]. intros m M. apply M. }
  assert (W : px_open_write file (sy_file_fd sys) = mkPosix (sy_file_fd sys) false) by (destruct file; [congruence|reflexivity]).
  assert (As : existsb (entry_asserts (mkPosix (sy_file_fd sys) false)) (rc_trace s) = false).
  { clear. induction (rc_trace s) as [|[m|r] tr IH]; [reflexivity|exact IH|]. cbn [existsb entry_asserts]. rewrite IH. destruct r; reflexivity. }
  exists (mkEnded code (to_cout [] false (map (json_line (li_decode lib)) js)) (rc_trace s)), mid, en, h, c, s.
  split.
  { unfold main. rewrite Ld. unfold record_on. rewrite W. unfold px_ops. cbn [px_fd]. replace (sy_file_fd sys <? 0) with false by (symmetry; apply Z.ltb_ge; exact Fd).
    change (id16 sid) with (sid mod 2 ^ 16). fold o. rewrite N, E, As. cbn [report bind snd px_stdio]. rewrite J1. cbn [bind]. rewrite F. reflexivity. }
  split; [exact Ft|]. split; [exact Ru|]. split; [reflexivity|]. split; [exact C|]. cbn [en_trace].
  rewrite cout_all. eexists. split; [reflexivity|]. exists (map (meaning (li_decode lib)) js). split; [apply jsonl_read|auto].
Qed.
Print Assumptions C90_record_service.

(** * print-pes *)
Theorem C90_print_pes : forall lib sys bs n, PesTextSpec.legible (li_show lib) -> has_input sys bs n ->
  (forall p, In p (views (li_packet lib) [] bs) -> PesSpec.proper p /\ PesSpec.in_range p /\ PesTextSpec.narrow p) ->
  exists e h text texts, main lib sys PrintPes n = Some (Ok e) /\ en_code e = 0 /\ spells (en_stdout e) text /\
    PesSpec.takes (views (li_packet lib) [] bs) h /\ text = String.concat ""%string texts /\
    Forall2 (PesTextSpec.written (li_show lib)) (PesSpec.printed (PesSpec.received [] h)) texts.
Proof.
  intros lib sys bs n S I H. destruct (input_the _ _ _ I) as (R & P & L).
  destruct (PesTextProps.C83_print_pes (li_show lib) (li_packet lib) _ bs n S R P L H) as (seen & s & h & texts & E & V & T & W & _).
  unfold main. rewrite E. eexists. exists h, (PesText.pp_output (li_show lib) (PesPrinter.pp_out s)), texts.
  split; [apply report_ok; reflexivity|]. cbn [en_code en_stdout]. split; [reflexivity|]. split; [reflexivity|]. auto.
Qed.
Print Assumptions C90_print_pes.

(** * Cases *)
Definition case_lib (stream : list packet) : library :=
  mkLibrary (PipeProps.demo_view stream) (fun _ _ => []) (fun _ _ => []) (fun _ _ => ([], true)) (fun _ => [])
    PipeProps.demo_bytes ProgramProps.two (fun _ => None) (fun _ => ""%string) (fun _ => "NHK"%string) (fun _ => (false, [])) MainProps.no_parsers
    (fun _ => ([], None)) (fun _ => ""%string) "help"%string.
Definition case_sys (stream : list packet) : system :=
  mkSystem (MainProps.letters "in.ts") 3 (PipeProps.demo_reads stream) [] [] (fun _ => 0) 4 [].

(** mirakc-arib record-service --sid=65637 --file=rec --chunk-size=8192 --num-chunks=2 --start-pos=8192 in.ts *)
Example C90_record_case : let lib := case_lib PipeProps.stream3 in let sys := case_sys PipeProps.stream3 in let bs := PipeProps.demo_packets 0 PipeProps.stream3 in
  has_input sys bs (Nat.mul 20 1000) /\ valid_geometry 8192 2 8192 /\
  (forall p t, In p (views (li_packet lib) [] bs) -> In t (p_tabs p 0) -> tame (65637 mod 2 ^ 16) None (p_pid p, tb_body t)) /\
  (forall p v, In p (views (li_packet lib) [] bs) -> p_pcr p = Some v -> 0 <= v < 2 ^ 33 * 300) /\
  (forall p t, In p (views (li_packet lib) [] bs) -> In t (p_tabs p 1) -> sane_table (tb_body t)) /\
  exists e, main lib sys (RecordService 65637 (MainProps.letters "rec") 8192 2 (Some 8192)) (Nat.mul 20 1000) = Some (Ok e) /\
    chunk_positions (messages (en_trace e)) = [8192; 0; 8192] /\ ztake 16 (en_stdout e) = MainProps.letters "{""type"":""start""}".
Proof.
  cbv zeta. destruct PipeProps.C63_case_conditions as (G & _ & R & P & L & T0 & Pc & T1). split; [split; [exact R|split; [exact P|exact L]]|].
  split; [exact G|]. split; [exact T0|]. split; [exact Pc|]. split; [exact T1|].
  eexists. split; [vm_compute; reflexivity|]. split; vm_compute; reflexivity.
Qed.

(** mirakc-arib scan-services in.ts *)
Example C90_scan_case : let lib := MainProps.demo_lib ScanProps.sc_case in let sys := MainProps.demo_sys 6 [] in
  has_input sys (repeat JsonProps.plain 6) 1200 /\
  main lib sys (ScanServices None None) 1200 = Some (Ok (mkEnded 0 (MainProps.letters MainProps.scan_text) [])).
Proof.
  cbv zeta. destruct (JsonProps.file_packets 6) as (R & P & L). split; [split; [exact R|split; [exact P|vm_compute; lia]]|]. vm_compute. reflexivity.
Qed.

(** mirakc-arib seek-start --sid=101 --max-duration=1000 --max-packets=4294967396 in.ts *)
Example C90_seek_case : let lib := case_lib SeekProps.stream_s in let sys := case_sys SeekProps.stream_s in let bs := PipeProps.demo_packets 0 SeekProps.stream_s in
  has_input sys bs 3000 /\ Forall no_error (sy_writes sys) /\ ~ no_limit (Some 1000) (Some 4294967396) /\
  orderly SeekProps.opt_s 0 (views (li_packet lib) [] bs) /\ sane_seek SeekProps.opt_s /\
  SeekProps.opt_s = StartSeeker.mkSsOption (101 mod 2 ^ 16) 1000 (4294967396 mod 2 ^ 32) /\
  exists e p, main lib sys (SeekStart 101 (Some 1000) (Some 4294967396)) 3000 = Some (Ok e) /\ znth 1 bs = Some p /\ en_stdout e = p ++ concat (zdrop 4 bs).
Proof.
  cbv zeta. split; [|split; [constructor|split; [intros [[X|X] _]; discriminate|]]].
  - assert (P : forall p, In p SeekProps.stream_s -> 0 <= p_pid p < 8192) by (intros p H; repeat (destruct H as [<-|H]; [cbn; lia|]); destruct H).
    destruct (PipeProps.demo_input SeekProps.stream_s 0 ltac:(vm_compute; discriminate) ltac:(lia) P) as [R [_ [K L]]].
    split; [exact R|]. split; [exact K|]. change (input_bytes (case_sys SeekProps.stream_s)) with (bytes_of (PipeProps.demo_reads SeekProps.stream_s)).
    unfold PipeProps.demo_reads. rewrite L. apply Nat.ltb_lt. reflexivity.
  - destruct PipeProps.C64_case_conditions as (A & B). split; [exact A|]. split; [exact B|]. split; [reflexivity|].
    eexists. eexists. split; [vm_compute; reflexivity|]. split; vm_compute; reflexivity.
Qed.

(** mirakc-arib filter-program --sid=101 --eid=5 --clock-pid=256 --clock-pcr=0 --clock-time=-3506749200000 --audio-tags=16 in.ts *)
Definition case_args : program_args := mkProgramArgs 101 5 256 0 (-3506749200000) (Some [MainProps.letters "16"]) None None None None false.
Example C90_program_case : let lib := case_lib PipeProps.stream2 in let sys := case_sys PipeProps.stream2 in let bs := PipeProps.demo_packets 0 PipeProps.stream2 in
  Options.LoadComponentTags (pa_audio_tags case_args) = Ok (Some [16]) /\ Options.LoadComponentTags (pa_video_tags case_args) = Ok (Some []) /\
  has_input sys bs (Nat.mul 4 1000) /\ Forall no_error (sy_writes sys) /\ Forall (sane_packet 1) (views (li_packet lib) [] bs) /\
  sane_option ProgramProps.opt101 /\ load_program_filter case_args = Ok (Some ProgramProps.opt101) /\
  exists e, main lib sys (FilterProgram case_args) (Nat.mul 4 1000) = Some (Ok e) /\ en_code e = 0 /\ zlen (en_stdout e) = 188 * 11.
Proof.
  cbv zeta. destruct PipeProps.C62_case_conditions as (R & P & L & So & _ & _ & Sp & _). split; [reflexivity|]. split; [reflexivity|].
  split; [split; [exact R|split; [exact P|exact L]]|]. split; [constructor|]. split; [exact Sp|]. split; [exact So|]. split; [vm_compute; reflexivity|].
  eexists. split; [vm_compute; reflexivity|]. split; vm_compute; reflexivity.
Qed.

(** * record-service --file='': messages and packets both go to the standard
    output, in the order in which they come up *)
Theorem C90_record_stdout : forall lib sys sid cs nc start n e, sy_flushes sys = [] -> main lib sys (RecordService sid [] cs nc start) n = Some (Ok e) ->
  exists texts, Forall2 shown (en_trace e) texts /\ en_stdout e = concat texts.
Proof. exact main_shown. Qed.
Print Assumptions C90_record_stdout.
(** If the messages do not get out, the packets still do. *)
Theorem C88_recording_partial : forall lib sys sid cs nc start n e f, sy_flushes sys = Some 0 :: f ->
  main lib sys (RecordService sid [] cs nc start) n = Some (Ok e) -> en_stdout e = written (ring_calls (en_trace e)).
Proof. exact main_data. Qed.
Print Assumptions C88_recording_partial.
Definition some_time : list packet := firstn 60 RecorderProps.rstream.
Example C90_record_stdout_case : let lib := case_lib some_time in let sys := case_sys some_time in
  exists e, main lib sys (RecordService 101 [] 16384 2 None) (Nat.mul 20 1000) = Some (Ok e) /\ en_code e = 0 /\
    zlen (written (ring_calls (en_trace e))) = 8192 /\ 8192 < zlen (en_stdout e).
Proof. cbv zeta. eexists. split; [vm_compute; reflexivity|]. repeat split; vm_compute; reflexivity. Qed.
Example C88_recording_case : let lib := case_lib some_time in let sys := other_stdout (case_sys some_time) [Some 0] in
  exists e, main lib sys (RecordService 101 [] 16384 2 None) (Nat.mul 20 1000) = Some (Ok e) /\ en_code e = 0 /\ zlen (en_stdout e) = 8192.
Proof. cbv zeta. eexists. split; [vm_compute; reflexivity|]. repeat split; vm_compute; reflexivity. Qed.
