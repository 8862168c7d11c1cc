(** C79: scan-services on a steady broadcast. *)
From Coq Require Import ZArith Lia List Bool Sorted.
From Verif Require Import Base.Outcome Base.Util Model.Sink Model.FileSource Model.Ts Model.ServiceScanner Model.Commands
  Spec.SourceSpec Spec.PipeSpec Spec.OptionSpec Spec.ScanSpec Proofs.ScanProofs Proofs.ScanSteady Proofs.PipeProofs Proofs.PipeJson.
From Verif Require Props.ScanProps Props.JsonProps Props.FilterProps.
Import ListNotations.
Open Scope Z_scope.

(** Wherever the three tables are broadcast again and again, in whatever order with
    whatever else, the scan succeeds and outputs the list of the services. *)
Theorem C79_steady : forall o t d n ps fuel, steady_tables t d n ps -> broadcast t d n ps -> (List.length ps < fuel)%nat ->
  exists s doc, FeedPackets (list_source packet) (sc_sink o) fuel ps sc_init = Some (Ok (0, s)) /\ sc_out s = [doc] /\ service_list o t d n doc.
Proof. exact scan_steady. Qed.
Print Assumptions C79_steady.

(** The list depends on the tables only, not on the stream they come in. *)
Theorem C79_same_list : forall o t d n ps qs a b fuel s s', steady_tables t d n ps -> broadcast t d n ps -> steady_tables t d n qs -> broadcast t d n qs ->
  FeedPackets (list_source packet) (sc_sink o) fuel ps sc_init = Some (Ok (a, s)) -> (List.length ps < fuel)%nat ->
  FeedPackets (list_source packet) (sc_sink o) fuel qs sc_init = Some (Ok (b, s')) -> (List.length qs < fuel)%nat ->
  a = 0 /\ b = 0 /\ sc_out s = sc_out s'.
Proof.
  intros o t d n ps qs a b fuel s s' S1 B1 S2 B2 E1 L1 E2 L2.
  destruct (scan_steady o t d n ps fuel S1 B1 L1) as [x [dx [F1 [O1 D1]]]]. destruct (scan_steady o t d n qs fuel S2 B2 L2) as [y [dy [F2 [O2 D2]]]].
  rewrite E1 in F1. rewrite E2 in F2. injection F1 as -> ->. injection F2 as -> ->. rewrite O1, O2, (service_list_det o t d n dx dy D1 D2). auto.
Qed.
Print Assumptions C79_same_list.

(** From the options and the bytes of the file. *)
Theorem C79_scan_services : forall view sids xsids ns xs reads bs t d n fuel, ids_given sids ns -> ids_given xsids xs ->
  Forall read_ok reads -> packets_of (bytes_of reads) bs -> (List.length (bytes_of reads) < fuel)%nat ->
  steady_tables t d n (views view [] bs) -> broadcast t d n (views view [] bs) ->
  exists o seen s doc, (forall v, chosen o v <-> (ns = [] \/ In v ns) /\ ~ In v xs) /\
    scan_services_main view sids xsids reads fuel = Some (Ok (0, (seen, s))) /\ sc_out s = [doc] /\ service_list o t d n doc.
Proof.
  intros view sids xsids ns xs reads bs t d n fuel Si X R Pk Hn S B. destruct (load_scan _ _ _ _ Si X) as [o [E Ch]].
  unfold scan_services_main. rewrite E.
  destruct (main_ok _ view (sc_sink o) reads bs sc_init fuel (fun c s => c = 0 /\ exists doc, sc_out s = [doc] /\ service_list o t d n doc) R Pk Hn)
    as [c [seen [s [M [-> [doc [O D]]]]]]].
  { intros L. destruct (scan_steady o t d n (views view [] bs) fuel S B L) as [s [doc [F [O D]]]]. exists 0, s. split; [exact F|]. eauto. }
  exists o, seen, s, doc. auto.
Qed.
Print Assumptions C79_scan_services.

(** ** A case: the NIT is on PID 0x20, another one on PID 0x10; NIT and SDT come
    before the PAT too, the PAT twice. *)
Definition spat : pat := mkPat 7 0 [(3, 0x103); (0, 0x20); (2, 0x102); (1, 0x101)].
Definition ssdt : sdt := mkSdt 7 8 [(1, mkService 0x01 11 (Some (1, 5))); (2, mkService 0xC0 12 None); (3, mkService 0x01 13 None)].
Definition snit : nit := mkNit [(7, 9, Some 3); (7, 8, Some 4)].
Definition steady_case : list packet :=
  [ ScanProps.tab_packet 0x10 [TNit (Some (mkNit []))]; ScanProps.tab_packet 0x20 [TNit (Some snit)]; ScanProps.tab_packet 0 [TPat (Some spat)];
    ScanProps.tab_packet 0x100 []; ScanProps.tab_packet 0 [TPat None; TPat (Some spat)]; ScanProps.tab_packet 0x11 [TSdt (Some ssdt)];
    ScanProps.tab_packet 0x10 [TNit (Some (mkNit []))]; ScanProps.tab_packet 0x20 [TNit (Some snit)]; ScanProps.tab_packet 0 [TPat (Some spat)] ].
Lemma spat_nit : forall pid, nit_on spat pid <-> pid = 0x20.
Proof.
  assert (M : moves_nit spat 0x20).
  { split; [|lia]. exists [(3, 0x103)], [(2, 0x102); (1, 0x101)]. split; [reflexivity|]. intros q [H|[H|[]]]; discriminate. }
  intros pid. split; [intros N; exact (nit_on_moved spat 0x20 pid M N)|intros ->; left; exact M].
Qed.
Example C79_case : steady_tables spat ssdt snit steady_case /\ broadcast spat ssdt snit steady_case /\
  exists s, FeedPackets (list_source packet) (sc_sink (mkScOption [] [3])) 10 steady_case sc_init = Some (Ok (0, s)) /\
    sc_out s = [[mkServiceDoc 8 7 1 11 0x01 5 (Some 4)]].
Proof.
  split; [|split].
  - split; [discriminate|]. split; [discriminate|]. split; [intros pid N; apply spat_nit in N; lia|].
    intros p tb I It. unfold steady_case in I.
    repeat (destruct I as [<- |I]; [cbn in It; repeat (destruct It as [<- |It]); try contradiction; cbn; repeat split; intros u; intros; rewrite ?spat_nit in *;
      try discriminate; try congruence; try (exfalso; lia)|]). destruct I.
  - unfold broadcast, carries. eexists [_; _], _, [_; _], _, [_], _, [_]. split; [reflexivity|].
    split; [reflexivity|]. split; [eexists; split; [left; reflexivity|reflexivity]|]. split; [reflexivity|].
    split; [eexists; split; [left; reflexivity|reflexivity]|]. split; [apply spat_nit; reflexivity|]. eexists; split; [left; reflexivity|reflexivity].
  - eexists. split; vm_compute; reflexivity.
Qed.
Example C79_case_bytes : ids_given None [] /\ ids_given (Some [[51]]) [3] /\ (List.length (bytes_of (JsonProps.file 9)) < 1700)%nat /\
  views (JsonProps.taken steady_case JsonProps.nothing) [] (repeat JsonProps.plain 9) = steady_case.
Proof.
  split; [exact (proj1 JsonProps.C76_case_scan)|]. split; [exact (proj1 (proj2 JsonProps.C76_case_scan))|]. split; [vm_compute; lia|]. reflexivity.
Qed.
