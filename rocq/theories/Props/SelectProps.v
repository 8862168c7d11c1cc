(** C92: a selection of services only selects. *)
From Coq Require Import ZArith Lia List Bool.
From Verif Require Import Base.Outcome Base.Util Model.Sink Model.FileSource Model.Ts Model.EitSection Model.EitCollector Model.Commands Model.Documents Model.Main
  Spec.SourceSpec Spec.PipeSpec Spec.EitSpec Spec.SelectSpec Spec.DocumentsSpec Spec.MainSpec
  Proofs.PipeProofs Proofs.PipeOptions Proofs.PipeJson Proofs.DocumentsProofs Proofs.CommandProofs Proofs.SelectProofs.
From Verif Require Model.ServiceScanner Model.EitpfCollector Spec.PfSpec Spec.ScanSpec Spec.OptionSpec Props.ScanProps Props.EitProps Props.CarouselProps Props.PfProps Props.JsonProps Props.MainProps.
Import ListNotations.
Open Scope Z_scope.

(** Services do not affect each other: the sections of the selected services and
    the time tables are all that matters to the documents of these services. *)
Theorem C92_services_apart : forall mjd o K ds ds' s s', wires ds -> wires ds' -> of_services K ds = of_services K ds' ->
  ec_deliver_all mjd o ec_init ds = Ok s -> ec_deliver_all mjd o ec_init ds' = Ok s' ->
  filter (fun d => K (doc_service d)) (ec_out s) = filter (fun d => K (doc_service d)) (ec_out s').
Proof.
  intros mjd o K ds ds' s s' W W' Q E E'. destruct (eits_apart mjd o K ds s W E) as (t & T & O), (eits_apart mjd o K ds' s' W' E') as (t' & T' & O').
  unfold only in *. rewrite <- O, <- O'. congruence.
Qed.
Print Assumptions C92_services_apart.

Theorem C92_services_apart_pf : forall mjd o K xs xs' s s', PfSpec.pf_wires xs -> PfSpec.pf_wires xs' ->
  filter (fun x => K (service_of x)) xs = filter (fun x => K (service_of x)) xs' ->
  EitpfCollector.pf_handle_all mjd o EitpfCollector.pf_init xs = Ok s -> EitpfCollector.pf_handle_all mjd o EitpfCollector.pf_init xs' = Ok s' ->
  filter (fun d => K (doc_service d)) (EitpfCollector.pf_out s) = filter (fun d => K (doc_service d)) (EitpfCollector.pf_out s').
Proof.
  intros mjd o K xs xs' s s' W W' Q E E'. destruct (pf_apart mjd o K xs s W E) as (t & T & O), (pf_apart mjd o K xs' s' W' E') as (t' & T' & O').
  unfold only in *. rewrite <- O, <- O'. unfold pf_of in *. congruence.
Qed.
Print Assumptions C92_services_apart_pf.

(** With --streaming, the output of a selection is the output of all services,
    with the lines about other services left out. *)
Theorem C92_collect_eits : forall lib sys sids xsids ns xs limit actual others bs n e, ids_given sids ns -> ids_given xsids xs ->
  has_input sys bs n -> sy_flushes sys = [] -> wires (concat (views (li_deliveries lib) [] bs)) ->
  main lib sys (CollectEits None None limit true actual others) n = Some (Ok e) ->
  exists e' docs docs', main lib sys (CollectEits sids xsids limit true actual others) n = Some (Ok e') /\ en_code e' = en_code e /\
    prints (eit_object (li_decode lib) (li_parsers lib) (li_block lib)) docs e /\
    prints (eit_object (li_decode lib) (li_parsers lib) (li_block lib)) docs' e' /\
    only (fun d => picked ns xs (ed_sid d)) docs docs'.
Proof.
  intros lib sys sids xsids ns xs limit actual others bs n e A B I F W. destruct (input_the _ _ _ I) as (R & P & L).
  destruct (collect_eits_options None None [] [] limit true actual others eq_refl eq_refl) as (o & Eo & So & _ & _ & Ho & _).
  destruct (collect_eits_options sids xsids ns xs limit true actual others A B) as (o' & Eo' & So' & _ & _ & Ho' & _).
  set (K := fun v : Z * Z * Z => picked ns xs (snd v)).
  assert (H : forall x, schedule o' x <-> schedule o x /\ K (service_of x) = true).
  { intros x. rewrite Ho', Ho. unfold K. cbn [snd service_of]. rewrite picked_iff. cbn [In]. tauto. }
  assert (N : ec_new o' = ec_new o).
  { assert (eo_actual o' = eo_actual o /\ eo_others o' = eo_others o) as [E1 E2].
    { revert Eo Eo'. unfold load_eit_collector. cbn. destruct (Options.LoadSidSet sids); cbn [bind]; [|discriminate]. destruct (Options.LoadSidSet xsids); cbn [bind]; [|discriminate].
      intros [= <-] [= <-]. auto. }
    unfold ec_new. rewrite E1, E2. reflexivity. }
  unfold main, collect_eits_main. rewrite Eo, Eo', N. destruct (ec_new o) as [s0|f] eqn:N0; [|discriminate].
  assert (s0 = ec_init) as ->. { unfold ec_new, assert in N0. destruct (_ || _)%bool; congruence. }
  assert (Lv : (List.length (views (li_deliveries lib) [] bs) < n)%nat) by (rewrite views_length; pose proof (packets_length _ _ P); lia).
  pose proof (main_feed (li_deliveries lib) (eit_sink (li_mjd lib) o) _ bs ec_init n R P L) as M.
  pose proof (main_feed (li_deliveries lib) (eit_sink (li_mjd lib) o') _ bs ec_init n R P L) as M'.
  destruct (eits_run (li_mjd lib) o _ n ec_init Lv) as (t & r & Et & St & Rt). destruct (eits_run (li_mjd lib) o' _ n ec_init Lv) as (t' & r' & Et' & St' & Rt').
  rewrite (St So), app_nil_r in Et. rewrite (St' So'), app_nil_r in Et'. rewrite <- Et in Rt. rewrite <- Et' in Rt'. rewrite Rt in M. rewrite Rt' in M'.
  rewrite (eits_select (li_mjd lib) o K o' H) in M'.
  destruct (ec_deliver_all (li_mjd lib) o ec_init _) as [s|f] eqn:D; cbn [bind] in M; [|rewrite M; discriminate].
  destruct (eits_apart (li_mjd lib) o K _ s W D) as (s' & D' & O). rewrite D' in M'. cbn [bind] in M'.
  destruct M as [h ->], M' as [h' ->]. intros E.
  destruct (prints_ok lib sys _ 0 h s _ (eit_object (li_decode lib) (li_parsers lib) (li_block lib)) (eit_json (li_parsers lib) (li_block lib)) EitCollector.ec_out F)
    as (e0 & E0 & Q0 & Q). { intros d _. apply eit_ok. }
  destruct (prints_ok lib sys _ 0 h' s' _ (eit_object (li_decode lib) (li_parsers lib) (li_block lib)) (eit_json (li_parsers lib) (li_block lib)) EitCollector.ec_out F)
    as (e1 & E1 & Q1 & Q'). { intros d _. apply eit_ok. }
  assert (e0 = e) as -> by (pose proof (eq_trans (eq_sym E0) E) as X; injection X; auto). exists e1, (ec_out s), (ec_out s'). split; [exact E1|]. split; [congruence|]. auto.
Qed.
Print Assumptions C92_collect_eits.

(** Without --streaming, the two runs may end at different times; one output is
    then the start of the other. *)
Theorem C92_collect_eits_once : forall lib sys sids xsids ns xs limit actual others bs n e e', ids_given sids ns -> ids_given xsids xs ->
  has_input sys bs n -> sy_flushes sys = [] -> wires (concat (views (li_deliveries lib) [] bs)) ->
  main lib sys (CollectEits None None limit false actual others) n = Some (Ok e) ->
  main lib sys (CollectEits sids xsids limit false actual others) n = Some (Ok e') ->
  exists docs docs', en_code e' = en_code e /\
    prints (eit_object (li_decode lib) (li_parsers lib) (li_block lib)) docs e /\
    prints (eit_object (li_decode lib) (li_parsers lib) (li_block lib)) docs' e' /\
    one_starts (filter (fun d => picked ns xs (ed_sid d)) docs) docs'.
Proof.
  intros lib sys sids xsids ns xs limit actual others bs n e e' A B I F W. destruct (input_the _ _ _ I) as (R & P & L).
  destruct (collect_eits_options None None [] [] limit false actual others eq_refl eq_refl) as (o & Eo & So & _ & _ & Ho & _).
  destruct (collect_eits_options sids xsids ns xs limit false actual others A B) as (o' & Eo' & So' & _ & _ & Ho' & _).
  set (K := fun v : Z * Z * Z => picked ns xs (snd v)).
  assert (H : forall x, schedule o' x <-> schedule o x /\ K (service_of x) = true).
  { intros x. rewrite Ho', Ho. unfold K. cbn [snd service_of]. rewrite picked_iff. cbn [In]. tauto. }
  unfold main, collect_eits_main. rewrite Eo, Eo'. destruct (ec_new o) as [s0|f] eqn:N0; [|discriminate].
  destruct (ec_new o') as [s1|f] eqn:N1; [|discriminate].
  assert (s0 = ec_init) as ->. { unfold ec_new, assert in N0. destruct (_ || _)%bool; congruence. }
  assert (s1 = ec_init) as ->. { unfold ec_new, assert in N1. destruct (_ || _)%bool; congruence. }
  assert (Lv : (List.length (views (li_deliveries lib) [] bs) < n)%nat) by (rewrite views_length; pose proof (packets_length _ _ P); lia).
  pose proof (main_feed (li_deliveries lib) (eit_sink (li_mjd lib) o) _ bs ec_init n R P L) as M.
  pose proof (main_feed (li_deliveries lib) (eit_sink (li_mjd lib) o') _ bs ec_init n R P L) as M'.
  destruct (eits_run (li_mjd lib) o _ n ec_init Lv) as (t & r & Et & St & Rt). destruct (eits_run (li_mjd lib) o' _ n ec_init Lv) as (t' & r' & Et' & St' & Rt').
  rewrite Rt in M. rewrite Rt' in M'.
  destruct (ec_deliver_all (li_mjd lib) o ec_init _) as [s|f] eqn:D; cbn [bind] in M; [|rewrite M; discriminate].
  destruct (ec_deliver_all (li_mjd lib) o' ec_init _) as [s'|f] eqn:D'; cbn [bind] in M'; [|rewrite M'; discriminate].
  pose proof (eits_prefix (li_mjd lib) o o' K H _ t r t' r' s s' W Et Et' D D') as O.
  destruct M as [h ->], M' as [h' ->]. intros E E'.
  destruct (prints_ok lib sys _ 0 h s _ (eit_object (li_decode lib) (li_parsers lib) (li_block lib)) (eit_json (li_parsers lib) (li_block lib)) EitCollector.ec_out F)
    as (e0 & E0 & Q0 & Q). { intros d _. apply eit_ok. }
  destruct (prints_ok lib sys _ 0 h' s' _ (eit_object (li_decode lib) (li_parsers lib) (li_block lib)) (eit_json (li_parsers lib) (li_block lib)) EitCollector.ec_out F)
    as (e1 & E1 & Q1 & Q'). { intros d _. apply eit_ok. }
  assert (e0 = e) as -> by (pose proof (eq_trans (eq_sym E0) E) as X; injection X; auto). assert (e1 = e') as -> by (pose proof (eq_trans (eq_sym E1) E') as X; injection X; auto). exists (ec_out s), (ec_out s'). split; [congruence|]. auto.
Qed.
Print Assumptions C92_collect_eits_once.

Theorem C92_collect_eitpf : forall lib sys sids ns present following bs n e, ids_given sids ns ->
  has_input sys bs n -> sy_flushes sys = [] -> PfSpec.pf_wires (concat (views (li_sections lib) [] bs)) ->
  main lib sys (CollectEitpf None true present following) n = Some (Ok e) ->
  exists e' docs docs', main lib sys (CollectEitpf sids true present following) n = Some (Ok e') /\ en_code e' = en_code e /\
    prints (eit_object (li_decode lib) (li_parsers lib) (li_block lib)) docs e /\
    prints (eit_object (li_decode lib) (li_parsers lib) (li_block lib)) docs' e' /\
    only (fun d => picked ns [] (ed_sid d)) docs docs'.
Proof.
  intros lib sys sids ns present following bs n e A I F W. destruct (input_the _ _ _ I) as (R & P & L).
  destruct (load_pf None [] true present following eq_refl) as (o & Eo & So & Po & Fo & _ & Io).
  destruct (load_pf sids ns true present following A) as (o' & Eo' & So' & Po' & Fo' & _ & Io').
  set (K := fun v : Z * Z * Z => picked ns [] (snd v)).
  assert (No : EitpfCollector.po_sids o = []) by (destruct (EitpfCollector.po_sids o) as [|z l]; [auto|destruct (proj1 (Io z)); left; auto]).
  assert (H : forall x, PfSpec.pf_counts o' x <-> PfSpec.pf_counts o x /\ K (service_of x) = true).
  { intros x. unfold PfSpec.pf_counts. rewrite No, (Io' (sid_of x)), (same_empty _ _ Io'). unfold K. cbn [snd service_of]. rewrite picked_iff. cbn [In]. tauto. }
  unfold main, collect_eitpfs_main. rewrite Eo, Eo'.
  assert (Lv : (List.length (views (li_sections lib) [] bs) < n)%nat) by (rewrite views_length; pose proof (packets_length _ _ P); lia).
  pose proof (main_feed (li_sections lib) (EitpfCollector.pf_sink (li_mjd lib) o) _ bs EitpfCollector.pf_init n R P L) as M.
  pose proof (main_feed (li_sections lib) (EitpfCollector.pf_sink (li_mjd lib) o') _ bs EitpfCollector.pf_init n R P L) as M'.
  rewrite (pf_run (li_mjd lib) o _ n _ So Lv) in M. rewrite (pf_run (li_mjd lib) o' _ n _ So' Lv) in M'.
  rewrite (pf_select (li_mjd lib) o K o' H) in M' by congruence.
  destruct (EitpfCollector.pf_handle_all (li_mjd lib) o EitpfCollector.pf_init _) as [s|f] eqn:D; cbn [bind] in M; [|rewrite M; discriminate].
  destruct (pf_apart (li_mjd lib) o K _ s W D) as (s' & D' & O). rewrite D' in M'. cbn [bind] in M'.
  destruct M as [h ->], M' as [h' ->]. intros E.
  destruct (prints_ok lib sys _ 0 h s _ (eit_object (li_decode lib) (li_parsers lib) (li_block lib)) (eit_json (li_parsers lib) (li_block lib)) EitpfCollector.pf_out F)
    as (e0 & E0 & Q0 & Q). { intros d _. apply eit_ok. }
  destruct (prints_ok lib sys _ 0 h' s' _ (eit_object (li_decode lib) (li_parsers lib) (li_block lib)) (eit_json (li_parsers lib) (li_block lib)) EitpfCollector.pf_out F)
    as (e1 & E1 & Q1 & Q'). { intros d _. apply eit_ok. }
  assert (e0 = e) as -> by (pose proof (eq_trans (eq_sym E0) E) as X; injection X; auto). exists e1, (EitpfCollector.pf_out s), (EitpfCollector.pf_out s'). split; [exact E1|]. split; [congruence|]. auto.
Qed.
Print Assumptions C92_collect_eitpf.

(** scan-services ends after the same packet with the same code; the selection
    leaves out elements of the list. *)
Theorem C92_scan_services : forall lib sys sids xsids ns xs bs n, ids_given sids ns -> ids_given xsids xs ->
  has_input sys bs n -> sy_flushes sys = [] ->
  exists e e' docs docs', main lib sys (ScanServices None None) n = Some (Ok e) /\ main lib sys (ScanServices sids xsids) n = Some (Ok e') /\
    en_code e' = en_code e /\
    prints (array_of (service_object (li_name lib))) docs e /\ prints (array_of (service_object (li_name lib))) docs' e' /\
    Forall2 (only (fun d => picked ns xs (ServiceScanner.sd_sid d))) docs docs'.
Proof.
  intros lib sys sids xsids ns xs bs n A B I F. destruct (input_the _ _ _ I) as (R & P & L).
  destruct (load_scan sids xsids ns xs A B) as (o' & Eo' & Ho').
  set (o := ServiceScanner.mkScOption [] []).
  assert (Eo : load_service_scanner None None = Ok o) by reflexivity.
  assert (Lv : (List.length (views (li_packet lib) [] bs) < n)%nat) by (rewrite views_length; pose proof (packets_length _ _ P); lia).
  pose proof (main_feed (li_packet lib) (ServiceScanner.sc_sink o) _ bs ServiceScanner.sc_init n R P L) as M.
  pose proof (main_feed (li_packet lib) (ServiceScanner.sc_sink o') _ bs ServiceScanner.sc_init n R P L) as M'.
  destruct (ScanProps.C50_returns o (views (li_packet lib) [] bs) n Lv) as (c & s & S).
  destruct (scan_run o o' (picked ns xs)) with (n := n) (ps := views (li_packet lib) [] bs) (c := c) (s := s) as (s' & S' & O).
  { intros v. cbn. auto. } { intros v. rewrite picked_iff. apply Ho'. } { exact S. }
  rewrite S in M. rewrite S' in M'. destruct M as [h M], M' as [h' M'].
  unfold main, scan_services_main. rewrite Eo, Eo', M, M'.
  destruct (prints_ok lib sys _ c h s _ (array_of (service_object (li_name lib))) (services_json (li_name lib)) ServiceScanner.sc_out F) as (e0 & E0 & Q0 & Q).
  { intros d _. apply array_ok. intros x. apply service_ok. }
  destruct (prints_ok lib sys _ c h' s' _ (array_of (service_object (li_name lib))) (services_json (li_name lib)) ServiceScanner.sc_out F) as (e1 & E1 & Q1 & Q').
  { intros d _. apply array_ok. intros x. apply service_ok. }
  exists e0, e1, (ServiceScanner.sc_out s), (ServiceScanner.sc_out s'). split; [exact E0|]. split; [exact E1|]. split; [congruence|]. split; [exact Q|]. split; [exact Q'|].
  rewrite O. clear. induction (ServiceScanner.sc_out s) as [|d l IH]; constructor; [reflexivity|exact IH].
Qed.
Print Assumptions C92_scan_services.

(** ** Examples

    A section of service 1, one of service 2, the first again, the time, a new
    version of the first. *)
Definition two_services : list (list delivery) :=
  [[DSection (EitProps.eit 0x50 1 0 1 1 0x50)]; [DSection CarouselProps.other_service]; [DSection (EitProps.eit 0x50 1 0 1 1 0x50); DTot (Some 86400000)];
   [DSection (EitProps.eit 0x50 2 0 1 1 0x50)]].
Definition two_pfs : list (list section) := [[PfProps.pf 2 1 1 0]; [PfProps.pf 2 1 1 0; PfProps.pf 2 3 1 0]; [PfProps.pf 2 1 2 1]].
Definition select_lib (ds : list (list delivery)) : library :=
  let l := MainProps.demo_lib ScanProps.sc_case in
  mkLibrary (li_packet l) (JsonProps.taken ds []) (JsonProps.taken two_pfs []) (li_logos l) (li_closing l) (li_bytes l) (li_npackets l) EitProps.dates (li_decode l) (li_name l) (li_parts l) (li_parsers l)
    (li_block l) (li_show l) (li_help l).

Lemma two_wires : wires (concat (views (li_deliveries (select_lib two_services)) [] (repeat JsonProps.plain 4))).
Proof.
  change (li_deliveries (select_lib two_services)) with (JsonProps.taken two_services []). rewrite (JsonProps.taken_views _ two_services).
  assert (O : wire CarouselProps.other_service).
  { unfold wire, CarouselProps.other_service. cbn [sn_ext sn_tid sn_version sn_number sn_last sn_payload sn_crc].
    split; [lia|]. split; [unfold byte; lia|]. split; [lia|]. do 2 (split; [unfold byte; lia|]). split; [|split; reflexivity].
    change (encode EitProps.film) with [0x12; 0x34; 0xEB; 0x7F; 0x20; 0x54; 0x00; 0x01; 0x36; 0x00; 0x20; 0x02; 0x4D; 0x00]. cbn [app]. EitProps.bytes. }
  intros x H. cbn [concat app two_services] in H.
  repeat (destruct H as [H|H]; [first [discriminate H|injection H as <-; first [exact O|apply EitProps.eit_wire; unfold byte; lia]]|]). destruct H.
Qed.
Definition one : option (list (list Z)) := Some [[49]].
Lemma one_given : ids_given one [1].
Proof. split; [|repeat constructor; lia]. constructor; [|constructor]. apply (OptionSpec.numeral_one 1). lia. Qed.

Example C92_eits_case : let lib := select_lib two_services in let sys := MainProps.demo_sys 4 [] in let bs := repeat JsonProps.plain 4 in
  ids_given one [1] /\ ids_given None [] /\ has_input sys bs 800 /\ wires (concat (views (li_deliveries lib) [] bs)) /\
  (exists e, main lib sys (CollectEits None None None true false false) 800 = Some (Ok e)) /\
  (exists c seen s, collect_eits_main (li_mjd lib) (li_deliveries lib) None None None true false false (JsonProps.file 4) 800 = Some (Ok (c, (seen, s))) /\
     map (fun d => (ed_sid d, ed_version d)) (ec_out s) = [(1, 1); (2, 1); (1, 2)]) /\
  (exists c seen s, collect_eits_main (li_mjd lib) (li_deliveries lib) one None None true false false (JsonProps.file 4) 800 = Some (Ok (c, (seen, s))) /\
     map (fun d => (ed_sid d, ed_version d)) (ec_out s) = [(1, 1); (1, 2)]).
Proof.
  cbv zeta. split; [exact one_given|]. split; [reflexivity|]. split.
  { destruct (JsonProps.file_packets 4) as (A & B & C). split; [exact A|]. split; [exact B|]. cbn [input_bytes MainProps.demo_sys sy_fd sy_reads]. cbn. lia. }
  split; [exact two_wires|]. split; [eexists; vm_compute; reflexivity|]. split; do 3 eexists; (split; [vm_compute; reflexivity|reflexivity]).
Qed.

(** Without --streaming, collect-eits --sids=2 gives a document that collect-eits
    does not, since the latter is done when the first service is. *)
Definition two_id : option (list (list Z)) := Some [[50]].
Example C92_once_case : let lib := select_lib CarouselProps.services in
  exists c seen s seen' s',
    collect_eits_main (li_mjd lib) (li_deliveries lib) None None None false false false (JsonProps.file 2) 800 = Some (Ok (c, (seen, s))) /\
    map ed_sid (ec_out s) = [1] /\
    collect_eits_main (li_mjd lib) (li_deliveries lib) two_id None None false false false (JsonProps.file 2) 800 = Some (Ok (c, (seen', s'))) /\
    map ed_sid (ec_out s') = [2].
Proof. do 5 eexists. split; [vm_compute; reflexivity|]. split; [reflexivity|]. split; [vm_compute; reflexivity|]. reflexivity. Qed.

Example C92_pf_case : let lib := select_lib two_services in let sys := MainProps.demo_sys 3 [] in let bs := repeat JsonProps.plain 3 in
  has_input sys bs 800 /\ PfSpec.pf_wires (concat (views (li_sections lib) [] bs)) /\
  (exists e, main lib sys (CollectEitpf None true false false) 800 = Some (Ok e)) /\
  exists c seen s seen' s',
    collect_eitpfs_main (li_mjd lib) (li_sections lib) None true false false (JsonProps.file 3) 800 = Some (Ok (c, (seen, s))) /\
    map (fun d => (ed_sid d, ed_number d)) (EitpfCollector.pf_out s) = [(1, 0); (3, 0); (1, 1)] /\
    collect_eitpfs_main (li_mjd lib) (li_sections lib) one true false false (JsonProps.file 3) 800 = Some (Ok (c, (seen', s'))) /\
    map (fun d => (ed_sid d, ed_number d)) (EitpfCollector.pf_out s') = [(1, 0); (1, 1)].
Proof.
  cbv zeta. split.
  { destruct (JsonProps.file_packets 3) as (A & B & C). split; [exact A|]. split; [exact B|]. cbn [input_bytes MainProps.demo_sys sy_fd sy_reads]. cbn. lia. }
  split. { change (li_sections (select_lib two_services)) with (JsonProps.taken two_pfs []). rewrite (JsonProps.taken_views _ two_pfs). PfProps.pf_wires_tac. }
  split; [eexists; vm_compute; reflexivity|].
  do 5 eexists. split; [vm_compute; reflexivity|]. split; [reflexivity|]. split; [vm_compute; reflexivity|]. reflexivity.
Qed.

(** What comes of service 2 does not show in the documents of service 1. *)
Example C92_apart_case : let K := fun v : Z * Z * Z => snd v =? 1 in let ds := concat two_services in let ds' := of_services K ds in
  of_services K ds = of_services K ds' /\ wires ds /\ wires ds' /\
  exists s s', ec_deliver_all EitProps.dates EitProps.both ec_init ds = Ok s /\ ec_deliver_all EitProps.dates EitProps.both ec_init ds' = Ok s' /\
    zlen (ec_out s) = 3 /\ zlen (ec_out s') = 2.
Proof.
  cbv zeta. split; [reflexivity|].
  pose proof two_wires as W. change (li_deliveries (select_lib two_services)) with (JsonProps.taken two_services []) in W.
  rewrite (JsonProps.taken_views _ two_services) in W. split; [exact W|]. split.
  { intros x H. apply W. unfold of_services in H. apply filter_In in H. apply H. }
  do 2 eexists. split; [vm_compute; reflexivity|]. split; [vm_compute; reflexivity|]. split; reflexivity.
Qed.
Example C92_apart_pf_case : let K := fun v : Z * Z * Z => snd v =? 1 in let xs := concat two_pfs in let xs' := filter (fun x => K (service_of x)) xs in
  filter (fun x => K (service_of x)) xs = filter (fun x => K (service_of x)) xs' /\
  exists s s', EitpfCollector.pf_handle_all EitProps.dates PfProps.pair_of_1 EitpfCollector.pf_init xs = Ok s /\
    EitpfCollector.pf_handle_all EitProps.dates PfProps.pair_of_1 EitpfCollector.pf_init xs' = Ok s' /\ zlen (EitpfCollector.pf_out s') = 2.
Proof. cbv zeta. split; [reflexivity|]. do 2 eexists. split; [vm_compute; reflexivity|]. split; [vm_compute; reflexivity|]. reflexivity. Qed.

Example C92_scan_case : exists seen s seen' s',
  scan_services_main (JsonProps.taken ScanProps.sc_case JsonProps.nothing) None None (JsonProps.file 6) 1200 = Some (Ok (0, (seen, s))) /\
  map (map ServiceScanner.sd_sid) (ServiceScanner.sc_out s) = [[1; 3]] /\
  scan_services_main (JsonProps.taken ScanProps.sc_case JsonProps.nothing) one None (JsonProps.file 6) 1200 = Some (Ok (0, (seen', s'))) /\
  map (map ServiceScanner.sd_sid) (ServiceScanner.sc_out s') = [[1]].
Proof. do 4 eexists. split; [vm_compute; reflexivity|]. split; [reflexivity|]. split; [vm_compute; reflexivity|]. reflexivity. Qed.
