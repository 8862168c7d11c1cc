(** C76, C77: the commands that output JSON, from the options and the bytes of the
    file to the documents. *)
From Coq Require Import ZArith Lia List Bool Sorted.
From Verif Require Import Base.Outcome Base.Util Model.Sink Model.FileSource Model.Ts Model.Options Model.EitSection Model.Commands
  Spec.FeedSpec Spec.SourceSpec Spec.OptionSpec Spec.PipeSpec Spec.EitSpec
  Proofs.PipeProofs Proofs.PipeOptions Proofs.PipeJson.
From Verif Require Model.ServiceScanner Model.PcrSynchronizer Model.AirtimeTracker Model.MetadataFilter Model.EitCollector Model.EitpfCollector
  Model.PesPrinter Spec.ScanSpec Spec.SyncSpec Spec.EventSpec Spec.CarouselSpec Spec.PfSpec Spec.PesSpec Proofs.PfRun
  Props.FilterProps Props.ScanProps Props.SyncProps Props.EventProps Props.CarouselProps Props.PfProps Props.PesProps Props.PipeProps.
Import ListNotations.
Open Scope Z_scope.

(** * scan-services *)
Theorem C76_scan_services : forall view sids xsids ns xs reads bs n, ids_given sids ns -> ids_given xsids xs ->
  Forall read_ok reads -> packets_of (bytes_of reads) bs -> (List.length (bytes_of reads) < n)%nat ->
  exists o code seen s, (forall v, ScanSpec.chosen o v <-> (ns = [] \/ In v ns) /\ ~ In v xs) /\
    scan_services_main view sids xsids reads n = Some (Ok (code, (seen, s))) /\
    let ps := views view [] bs in
    ((code = 1 /\ ServiceScanner.sc_out s = [] /\ forall h rest, ps = h ++ rest -> ~ exists t d n, ScanSpec.ready h t d n) \/
     (exists h p rest t d n doc, code = 0 /\ ServiceScanner.sc_out s = [doc] /\ ps = h ++ p :: rest /\ ScanSpec.ready (h ++ [p]) t d n /\
        ScanSpec.service_list o t d n doc /\ forall h' h'', h = h' ++ h'' -> ~ exists t d n, ScanSpec.ready h' t d n)).
Proof.
  intros view sids xsids ns xs reads bs n S X R Pk Hn. destruct (load_scan _ _ _ _ S X) as [o [E Ch]].
  unfold scan_services_main. rewrite E.
  destruct (main_ok _ view (ServiceScanner.sc_sink o) reads bs ServiceScanner.sc_init n
    (fun c s => FeedPackets (list_source packet) (ServiceScanner.sc_sink o) n (views view [] bs) ServiceScanner.sc_init = Some (Ok (c, s))) R Pk Hn)
    as [c [seen [s [M F]]]].
  { intros L. destruct (ScanProps.C50_returns o (views view [] bs) n L) as [c [s F]]. eauto. }
  exists o, c, seen, s. split; [exact Ch|]. split; [exact M|]. exact (ScanProps.C50_scan _ _ _ _ _ F).
Qed.
Print Assumptions C76_scan_services.

(** * sync-clocks *)
Theorem C76_sync_clocks : forall view sids xsids ns xs reads bs n, ids_given sids ns -> ids_given xsids xs ->
  Forall read_ok reads -> packets_of (bytes_of reads) bs -> (List.length (bytes_of reads) < n)%nat ->
  let ps := views view [] bs in
  SyncSpec.proper (SyncSpec.trace ps) -> (forall p c, In p ps -> p_pcr p = Some c -> 0 <= c < 300 * 2 ^ 33) ->
  (forall p t x, In p ps -> In t (p_tabs p 0) -> tb_body t = TTot (Some x) -> 0 <= x < 2 ^ 44) ->
  exists o code seen s, (forall v, SyncSpec.wanted o v <-> (ns = [] \/ In v ns) /\ ~ In v xs) /\
    sync_clocks_main view sids xsids reads n = Some (Ok (code, (seen, s))) /\
    ((code = 1 /\ PcrSynchronizer.ps_out s = []) \/
     (code = 0 /\ exists h rest docs, ps = h ++ rest /\ PcrSynchronizer.ps_out s = [docs] /\
        StronglySorted (fun a b => PcrSynchronizer.cd_sid a < PcrSynchronizer.cd_sid b) docs /\
        (docs = [] \/ exists t post, SyncSpec.since_pat (SyncSpec.trace h) t post /\ forall c, In c docs -> SyncSpec.genuine o t post c))).
Proof.
  intros view sids xsids ns xs reads bs n S X R Pk Hn ps Pr P1 P2. destruct (load_sync _ _ _ _ S X) as [o [E W]].
  unfold sync_clocks_main. rewrite E.
  destruct (main_ok _ view (PcrSynchronizer.ps_sink o) reads bs PcrSynchronizer.ps_init n
    (fun c s => FeedPackets (list_source packet) (PcrSynchronizer.ps_sink o) n (views view [] bs) PcrSynchronizer.ps_init = Some (Ok (c, s))) R Pk Hn)
    as [c [seen [s [M F]]]].
  { intros L. destruct (SyncProps.C47_returns o (views view [] bs) n P1 P2 L) as [c [s F]]. eauto. }
  exists o, c, seen, s. split; [exact W|]. split; [exact M|]. exact (SyncProps.C47_genuine _ _ _ _ _ Pr F).
Qed.
Print Assumptions C76_sync_clocks.

(** * filter-program-metadata

    Without --sid, or with a multiple of 65536, every service counts; otherwise
    the one given, modulo 65536. *)
Definition counts (sid : option Z) (e : eit) : Prop :=
  match sid with
  | None => True
  | Some v => v mod 65536 = 0 \/ eit_sid e = v mod 65536
  end.
Inductive documents (sid : option Z) : list eit -> list MetadataFilter.meta_doc -> Prop :=
| doc_none : documents sid [] []
| doc_skip : forall e es ds, ~ counts sid e \/ eit_events e = [] -> documents sid es ds -> documents sid (e :: es) ds
| doc_some : forall e es ds, counts sid e -> eit_events e <> [] -> documents sid es ds ->
    documents sid (e :: es) (EventSpec.metadata e :: ds).

Theorem C76_metadata : forall view sid reads bs n,
  Forall read_ok reads -> packets_of (bytes_of reads) bs -> (List.length (bytes_of reads) < n)%nat ->
  EventSpec.sane_eits (views view [] bs) ->
  exists seen out, program_metadata_main view sid reads n = Some (Ok (0, (seen, out))) /\
    documents sid (EventSpec.eits (views view [] bs)) out.
Proof.
  intros view sid reads bs n R Pk Hn Sn.
  destruct (main_ok _ view (MetadataFilter.md_sink (load_metadata_filter sid)) reads bs [] n
    (fun c out => c = 0 /\ EventSpec.metadatas (load_metadata_filter sid) (EventSpec.eits (views view [] bs)) out) R Pk Hn)
    as [c [seen [out [M [-> D]]]]].
  { intros L. destruct (EventProps.C52_metadata (load_metadata_filter sid) (views view [] bs) n Sn L) as [out [F D]]. exists 0, out. auto. }
  exists seen, out. split; [exact M|]. clear M. induction D as [|e es ds H D IH|e es ds H N D IH]; [constructor| |].
  - apply doc_skip; auto. destruct H as [[Z0 H]|H]; [|auto]. left. unfold counts, load_metadata_filter, id16 in *. change (2 ^ 16) with 65536 in *.
    destruct sid as [v|]; [|congruence]. intros [A|A]; congruence.
  - apply doc_some; auto. unfold counts, load_metadata_filter, id16 in *. change (2 ^ 16) with 65536 in *. destruct sid as [v|]; auto.
Qed.
Print Assumptions C76_metadata.

(** * track-airtime *)
Theorem C76_airtime : forall view sid eid reads bs n,
  Forall read_ok reads -> packets_of (bytes_of reads) bs -> (List.length (bytes_of reads) < n)%nat ->
  EventSpec.sane_eits (views view [] bs) ->
  let o := AirtimeTracker.mkAtOption (sid mod 65536) (eid mod 65536) in
  exists seen s h rest, track_airtime_main view sid eid reads n = Some (Ok (0, (seen, s))) /\
    views view [] bs = h ++ rest /\ EventSpec.airtimes o (EventSpec.eits h) (AirtimeTracker.at_out s) /\
    (rest = [] /\ ~ EventSpec.lacking o (views view [] bs) \/
     exists h0 p, h = h0 ++ [p] /\ ~ EventSpec.lacking o h0 /\ EventSpec.lacking o [p]).
Proof.
  intros view sid eid reads bs n R Pk Hn Sn o.
  destruct (main_ok _ view (AirtimeTracker.at_sink o) reads bs AirtimeTracker.at_init n
    (fun c s => c = 0 /\ exists h rest, views view [] bs = h ++ rest /\ EventSpec.airtimes o (EventSpec.eits h) (AirtimeTracker.at_out s) /\
       (rest = [] /\ ~ EventSpec.lacking o (views view [] bs) \/
        exists h0 p, h = h0 ++ [p] /\ ~ EventSpec.lacking o h0 /\ EventSpec.lacking o [p])) R Pk Hn)
    as [c [seen [s [M [-> [h [rest D]]]]]]].
  { intros L. destruct (EventProps.C51_airtime o (views view [] bs) n Sn L) as [s [h [rest [F D]]]]. exists 0, s. eauto. }
  exists seen, s, h, rest. split; [exact M|exact D].
Qed.
Print Assumptions C76_airtime.

(** * collect-eits *)
Theorem C76_collect_eits : forall mjd view sids xsids ns xs limit actual others reads bs n, sane_mjd mjd ->
  ids_given sids ns -> ids_given xsids xs -> (actual && others)%bool = false ->
  Forall read_ok reads -> packets_of (bytes_of reads) bs -> (List.length (bytes_of reads) < n)%nat ->
  let ps := views view [] bs in
  wires (concat ps) ->
  exists o,
    (forall x, schedule o x <->
      sn_valid x = true /\ sn_next x = false /\ 6 <= zlen (sn_payload x) /\
      (0x50 <= sn_tid x <= 0x5F /\ others = false \/ 0x60 <= sn_tid x <= 0x6F /\ actual = false) /\
      (ns = [] \/ In (sid_of x) ns) /\ ~ In (sid_of x) xs) /\
    (CarouselSpec.steady o (concat ps) ->
     exists seen s ys handled rest,
       collect_eits_main mjd view sids xsids limit false actual others reads n = Some (Ok (0, (seen, s))) /\
       ps = handled ++ rest /\ CarouselSpec.first_seen o (concat handled) ys /\ Forall2 (describes mjd) ys (EitCollector.ec_out s) /\
       (rest <> [] -> CarouselSpec.complete_but_past o (concat handled) \/
          exists t, passed mjd o (concat handled) t /\ match limit with Some v => v | None => 30000 end <= t)).
Proof.
  intros mjd view sids xsids ns xs limit actual others reads bs n Hm S X AO R Pk Hn ps W.
  destruct (PipeProps.C65_collect_eits sids xsids ns xs limit false actual others S X) as [o [E [St [L0 [L1 [Sch _]]]]]].
  exists o. split; [exact Sch|]. intros Sd. unfold collect_eits_main. rewrite E.
  assert (New : EitCollector.ec_new o = Ok EitCollector.ec_init).
  { unfold load_eit_collector in E. destruct (LoadSidSet sids); cbn [bind] in E; [|discriminate]. destruct (LoadSidSet xsids); cbn [bind] in E; [|discriminate].
    injection E as <-. unfold EitCollector.ec_new. cbn. destruct actual, others; try discriminate; reflexivity. }
  rewrite New.
  destruct (main_ok _ view (EitCollector.eit_sink mjd o) reads bs EitCollector.ec_init n
    (fun c s => c = 0 /\ exists ys handled rest, ps = handled ++ rest /\ CarouselSpec.first_seen o (concat handled) ys /\ Forall2 (describes mjd) ys (EitCollector.ec_out s) /\
       (rest <> [] -> CarouselSpec.complete_but_past o (concat handled) \/
          exists t, passed mjd o (concat handled) t /\ match limit with Some v => v | None => 30000 end <= t)) R Pk Hn)
    as [c [seen [s [M [-> [ys [handled [rest D]]]]]]]].
  { intros L. destruct (CarouselProps.C70_run mjd o ps n Hm W Sd St L) as (s & ys & handled & rest & F & A & B & C & _ & D).
    exists 0, s. split; [exact F|]. split; [reflexivity|]. exists ys, handled, rest. do 3 (split; [assumption|]).
    replace (match limit with Some v => v | None => 30000 end) with (EitCollector.eo_time_limit o); [exact D|].
    destruct limit as [v|]; [apply L1|apply L0]; reflexivity. }
  exists seen, s, ys, handled, rest. split; [exact M|exact D].
Qed.
Print Assumptions C76_collect_eits.

(** * collect-eitpfs: whole runs *)
Theorem C77_run : forall mjd o ps n, sane_mjd mjd -> PfSpec.pf_wires (concat ps) -> (forall x, In x (concat ps) -> consistent x) ->
  (List.length ps < n)%nat ->
  EitpfCollector.po_streaming o = true \/
  (EitpfCollector.po_streaming o = false /\ PfSpec.one_stream o (concat ps) /\ EitpfCollector.po_sids o <> [] /\ NoDup (EitpfCollector.po_sids o) /\
   (EitpfCollector.po_present o = true \/ EitpfCollector.po_following o = true)) ->
  let all xs := forall sid, In sid (EitpfCollector.po_sids o) -> PfSpec.complete o xs sid in
  exists s ys handled rest, FeedPackets (list_source _) (EitpfCollector.pf_sink mjd o) n ps EitpfCollector.pf_init = Some (Ok (0, s)) /\
    ps = handled ++ rest /\ PfSpec.news o (concat handled) ys /\ Forall2 (describes mjd) ys (EitpfCollector.pf_out s) /\
    (EitpfCollector.po_streaming o = true -> rest = []) /\
    (EitpfCollector.po_streaming o = false -> forall k, (0 < k < List.length handled)%nat -> ~ all (concat (firstn k handled))) /\
    (rest <> [] -> all (concat handled)).
Proof. intros mjd o ps n H. exact (PfRun.pf_run mjd o H ps n). Qed.
Print Assumptions C77_run.

Theorem C77_collect_eitpfs : forall mjd view sids ns streaming present following reads bs n, sane_mjd mjd -> ids_given sids ns ->
  (present && following)%bool = false ->
  Forall read_ok reads -> packets_of (bytes_of reads) bs -> (List.length (bytes_of reads) < n)%nat ->
  let ps := views view [] bs in
  PfSpec.pf_wires (concat ps) -> (forall x, In x (concat ps) -> consistent x) ->
  exists o,
    (forall x, PfSpec.pf_counts o x <->
      sn_valid x = true /\ sn_next x = false /\ sn_tid x = 0x4E /\ 6 <= zlen (sn_payload x) /\ (sn_number x = 0 \/ sn_number x = 1) /\
      (ns = [] \/ In (sid_of x) ns)) /\
    (forall x, PfSpec.pf_selected o x <-> sn_number x = 0 /\ following = false \/ sn_number x = 1 /\ present = false) /\
    (streaming = true \/ (PfSpec.one_stream o (concat ps) /\ ns <> []) ->
     let all xs := forall sid, In sid ns -> PfSpec.complete o xs sid in
     exists seen s ys handled rest,
       collect_eitpfs_main mjd view sids streaming present following reads n = Some (Ok (0, (seen, s))) /\
       ps = handled ++ rest /\ PfSpec.news o (concat handled) ys /\ Forall2 (describes mjd) ys (EitpfCollector.pf_out s) /\
       (streaming = true -> rest = []) /\
       (streaming = false -> forall k, (0 < k < List.length handled)%nat -> ~ all (concat (firstn k handled))) /\
       (rest <> [] -> all (concat handled))).
Proof.
  intros mjd view sids ns streaming present following reads bs n Hm S PF R Pk Hn ps W C.
  destruct (PipeProps.C65_collect_eitpfs sids ns streaming present following S) as [o [E [_ [Cn [Se _]]]]].
  destruct (load_pf sids ns streaming present following S) as [o' [E' [St [P1 [P2 [ND Ids]]]]]].
  rewrite E in E'. injection E' as <-. exists o. split; [exact Cn|]. split; [exact Se|]. intros Hyp all.
  unfold collect_eitpfs_main. rewrite E.
  assert (Same : forall xs, all xs <-> forall sid, In sid (EitpfCollector.po_sids o) -> PfSpec.complete o xs sid).
  { intros xs. unfold all. split; intros H sid Hs; apply H; apply Ids; exact Hs. }
  destruct (main_ok _ view (EitpfCollector.pf_sink mjd o) reads bs EitpfCollector.pf_init n
    (fun c s => c = 0 /\ exists ys handled rest, ps = handled ++ rest /\ PfSpec.news o (concat handled) ys /\
       Forall2 (describes mjd) ys (EitpfCollector.pf_out s) /\
       (streaming = true -> rest = []) /\
       (streaming = false -> forall k, (0 < k < List.length handled)%nat -> ~ all (concat (firstn k handled))) /\
       (rest <> [] -> all (concat handled))) R Pk Hn)
    as [c [seen [s [M [-> [ys [handled [rest D]]]]]]]].
  { intros L. destruct (C77_run mjd o ps n Hm W C L) as (s & ys & handled & rest & F & A & B & D & G & H & I).
    { rewrite St. destruct streaming; [auto|]. right. destruct Hyp as [|[O Ne]]; [discriminate|]. split; [reflexivity|]. split; [exact O|].
      split; [intros Z0; apply Ne; apply (same_empty _ _ Ids); exact Z0|]. split; [exact ND|]. rewrite P1, P2. destruct present, following; auto. }
    exists 0, s. split; [exact F|]. split; [reflexivity|]. exists ys, handled, rest. rewrite St in G, H. do 4 (split; [assumption|]).
    split; [|intros Q; apply Same; auto]. intros Q k Hk X. apply (H Q k Hk). apply Same. exact X. }
  exists seen, s, ys, handled, rest. split; [exact M|exact D].
Qed.
Print Assumptions C77_collect_eitpfs.

(** * print-pes *)
Theorem C76_print_pes : forall view reads bs n,
  Forall read_ok reads -> packets_of (bytes_of reads) bs -> (List.length (bytes_of reads) < n)%nat ->
  (forall p, In p (views view [] bs) -> PesSpec.proper p /\ PesSpec.in_range p) ->
  exists seen s h, print_pes_main view reads n = Some (Ok (0, (seen, s))) /\
    PesSpec.takes (views view [] bs) h /\ PesPrinter.pp_out s = PesSpec.printed (PesSpec.received [] h).
Proof.
  intros view reads bs n R Pk Hn Pr.
  destruct (main_ok _ view PesPrinter.pp_sink reads bs PesPrinter.pp_init n
    (fun c s => FeedPackets (list_source packet) PesPrinter.pp_sink n (views view [] bs) PesPrinter.pp_init = Some (Ok (c, s))) R Pk Hn)
    as [c [seen [s [M F]]]].
  { intros L. destruct (PesProps.C56_returns (views view [] bs) n Pr L) as [c [s F]]. eauto. }
  destruct (PesProps.C56_lines _ _ _ _ (fun p H => proj1 (Pr p H)) F) as [-> [h D]].
  exists seen, s, h. split; [exact M|exact D].
Qed.
Print Assumptions C76_print_pes.

(** ** Examples

    A file of [n] packets, of which TSDuck makes the packets of a list. *)
Definition plain : list Z := 0x47 :: repeat 0 187.
Definition file (n : nat) : list read_result := map ReadData (repeat plain n).
Definition taken {P} (l : list P) (d : P) (h : list (list Z)) (b : list Z) : P := nth (List.length h) l d.

Lemma file_packets : forall n,
  Forall read_ok (file n) /\ packets_of (bytes_of (file n)) (repeat plain n) /\ List.length (bytes_of (file n)) = (188 * n)%nat.
Proof.
  induction n as [|n [A [B C]]].
  - split; [constructor|]. split; [apply Pk_short; reflexivity|reflexivity].
  - unfold file in *. cbn [repeat map bytes_of]. change plain with (0x47 :: repeat 0 187). cbv iota. change (0x47 :: repeat 0 187) with plain.
    split; [constructor; [cbn [read_ok]; change (zlen plain) with 188; lia|exact A]|]. split; [apply Pk_packet; auto; reflexivity|]. rewrite app_length, C. change (List.length plain) with 188%nat. lia.
Qed.
Lemma taken_views : forall P (l : list P) d, views (taken l d) [] (repeat plain (List.length l)) = l.
Proof.
  intros P l d.
  assert (G : forall post pre h, l = pre ++ post -> List.length h = List.length pre -> views (taken l d) h (repeat plain (List.length post)) = post).
  { induction post as [|x post IH]; intros pre h E L; [reflexivity|]. cbn [List.length repeat views]. f_equal.
    - unfold taken. rewrite L, E, app_nth2, Nat.sub_diag by lia. reflexivity.
    - apply (IH (pre ++ [x])); [rewrite <- app_assoc; exact E|]. cbn. rewrite app_length. cbn. lia. }
  apply (G l [] []); reflexivity.
Qed.

Definition nothing : packet := FilterProps.pkt 0 0 [].
Lemma three : ids_given (Some [[51]]) [3].
Proof. split; [|repeat constructor; lia]. constructor; [|constructor]. apply (numeral_one 3). lia. Qed.

(** scan-services --xsids=3 on the stream of C50_case. *)
Example C76_case_scan : ids_given None [] /\ ids_given (Some [[51]]) [3] /\
  (List.length (bytes_of (file 6)) < 1200)%nat /\ views (taken ScanProps.sc_case nothing) [] (repeat plain 6) = ScanProps.sc_case /\
  exists seen s, scan_services_main (taken ScanProps.sc_case nothing) None (Some [[51]]) (file 6) 1200 = Some (Ok (0, (seen, s))) /\
    ServiceScanner.sc_out s = [[ServiceScanner.mkServiceDoc 8 7 1 11 0x01 5 (Some 4)]].
Proof.
  split; [reflexivity|]. split; [exact three|]. split; [rewrite (proj2 (proj2 (file_packets 6))); lia|]. split; [apply (taken_views _ ScanProps.sc_case)|].
  do 2 eexists. split; vm_compute; reflexivity.
Qed.

(** sync-clocks --sids=1 on the stream of C47_case. *)
Example C76_case_sync : views (taken SyncProps.sync_case nothing) [] (repeat plain 11) = SyncProps.sync_case /\
  exists seen s, sync_clocks_main (taken SyncProps.sync_case nothing) (Some [[49]]) None (file 11) 2100 = Some (Ok (0, (seen, s))) /\
    PcrSynchronizer.ps_out s = [[PcrSynchronizer.mkClockDoc 4 7 1 0x101 3000 1702047600000]].
Proof. split; [apply (taken_views _ SyncProps.sync_case)|]. do 2 eexists. split; vm_compute; reflexivity. Qed.

(** filter-program-metadata --sid=65537 is --sid=1; --sid=65536 is no --sid. *)
Example C76_case_metadata : EventSpec.sane_eits (views (taken EventProps.at_case nothing) [] (repeat plain 5)) /\
  exists s1 s2 s3 d1 d2 d3 d4,
    program_metadata_main (taken EventProps.at_case nothing) (Some 65537) (file 2) 400 = Some (Ok (0, (s1, [d1]))) /\
    MetadataFilter.md_sid d1 = 1 /\
    program_metadata_main (taken EventProps.at_case nothing) (Some 2) (file 2) 400 = Some (Ok (0, (s2, []))) /\
    program_metadata_main (taken EventProps.at_case nothing) (Some 65536) (file 5) 1000 = Some (Ok (0, (s3, [d1; d2; d3; d4]))).
Proof.
  split; [rewrite (taken_views _ EventProps.at_case); exact EventProps.at_case_sane|].
  do 7 eexists. split; [vm_compute; reflexivity|]. split; [reflexivity|]. split; vm_compute; reflexivity.
Qed.

(** track-airtime --sid=1 --eid=11. *)
Example C76_case_airtime : exists seen s,
  track_airtime_main (taken EventProps.at_case nothing) 1 11 (file 5) 1000 = Some (Ok (0, (seen, s))) /\
  AirtimeTracker.at_out s = [AirtimeTracker.mkAirtimeDoc 3 2 1 11 1702047660000 1800000; AirtimeTracker.mkAirtimeDoc 3 2 1 11 1702047690000 1800000].
Proof. do 2 eexists. split; vm_compute; reflexivity. Qed.

(** collect-eits on the carousel of C70_case. *)
Example C76_case_eits : views (taken CarouselProps.carousel []) [] (repeat plain 6) = CarouselProps.carousel /\
  exists seen s, collect_eits_main EitProps.dates (taken CarouselProps.carousel []) None None None false false false (file 6) 1200 = Some (Ok (0, (seen, s))) /\
    map ed_number (EitCollector.ec_out s) = [0; 8; 0].
Proof. split; [apply (taken_views _ CarouselProps.carousel)|]. do 2 eexists. split; vm_compute; reflexivity. Qed.

(** collect-eitpfs --sids=1: the present section, again, a new version of it, and
    the following section, which ends it. *)
Definition pf_stream : list (list section) :=
  [[PfProps.pf 2 1 1 0]; [PfProps.pf 2 1 1 0; PfProps.pf 2 3 1 0]; []; [PfProps.pf 2 1 2 0]; [PfProps.pf 2 1 2 1]; [PfProps.pf 2 1 3 0]].
Example C77_case : views (taken pf_stream []) [] (repeat plain 6) = pf_stream /\
  PfSpec.pf_wires (concat pf_stream) /\ (forall x, In x (concat pf_stream) -> consistent x) /\
  PfSpec.one_stream PfProps.pair_of_1 (concat pf_stream) /\
  exists seen s, collect_eitpfs_main EitProps.dates (taken pf_stream []) (Some [[49]]) false false false (file 6) 1200 = Some (Ok (0, (seen, s))) /\
    map (fun d => (ed_version d, ed_number d)) (EitpfCollector.pf_out s) = [(1, 0); (2, 0); (2, 1)].
Proof.
  split; [apply (taken_views _ pf_stream)|]. split; [PfProps.pf_wires_tac|]. split.
  { intros x H. cbn in H. repeat (destruct H as [<-|H]; [apply PfProps.pf_consistent; unfold byte; lia|]). destruct H. }
  split.
  { intros x y Hx Hy [_ [_ [_ [_ [_ [Cx|Cx]]]]]] _; [discriminate|]. cbn in Hx, Hy.
    repeat (destruct Hx as [<-|Hx]; [repeat (destruct Hy as [<-|Hy]; [intros E; first [reflexivity|discriminate E]|]); destruct Hy|]); destruct Hx. }
  do 2 eexists. split; vm_compute; reflexivity.
Qed.

(** print-pes on the stream of C56_case. *)
Example C76_case_pes : exists seen s,
  print_pes_main (taken PesProps.pes_case nothing) (file (List.length PesProps.pes_case)) 4000 = Some (Ok (0, (seen, s))) /\
  zlen (PesPrinter.pp_out s) = 15.
Proof. do 2 eexists. split; vm_compute; reflexivity. Qed.
