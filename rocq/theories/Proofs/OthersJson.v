From Coq Require Import ZArith Lia List Bool.
From Verif Require Import Base.Outcome Base.Util Model.Sink Model.FileSource Model.Ts Model.EitSection Model.Options Model.Commands
  Spec.FeedSpec Spec.SourceSpec Spec.TransSpec Spec.PipeSpec Spec.OthersSpec
  Proofs.FeedProofs Proofs.SourceProofs Proofs.TransProofs Proofs.PipeProofs Proofs.OthersProofs.
From Verif Require Model.ServiceScanner Model.PcrSynchronizer Model.AirtimeTracker Model.MetadataFilter Model.EitCollector Model.EitpfCollector
  Spec.ScanSpec Spec.SyncSpec Proofs.ScanProofs Proofs.SyncProofs Proofs.PipeOptions Proofs.PipeJson.
Import ListNotations.
Open Scope Z_scope.

(** * Any sink *)
Section Idle.
Context {P : Type}.
Variable k : sink P.
Variable good : sk_state k -> Prop.   (* of the states *)
Variable fine : P -> Prop.            (* of the packets that both have *)
Variable idle : P -> Prop.            (* of the other ones *)

Inductive but_for : list P -> list P -> Prop :=
| bf_nil : but_for [] []
| bf_both : forall p ps qs, fine p -> but_for ps qs -> but_for (p :: ps) (p :: qs)
| bf_left : forall p ps qs, idle p -> but_for ps qs -> but_for (p :: ps) qs
| bf_right : forall q ps qs, idle q -> but_for ps qs -> but_for ps (q :: qs).

Hypothesis step : forall s p s', good s -> fine p -> sk_handle k s p = Ok (s', true) -> good s'.
Hypothesis skip : forall s p, good s -> idle p -> sk_handle k s p = Ok (s, true).

Lemma hand_idle : forall ps qs, but_for ps qs -> forall s, good s -> snd (hand k s ps) = snd (hand k s qs).
Proof.
  induction 1 as [|p ps qs F G IH|p ps qs F G IH|q ps qs F G IH]; intros s A; cbn [hand].
  - reflexivity.
  - destruct (sk_handle k s p) as [[s1 [|]]|f] eqn:E; [|reflexivity|reflexivity].
    specialize (IH s1 (step _ _ _ A F E)). destruct (hand k s1 ps), (hand k s1 qs). exact IH.
  - rewrite skip by assumption. specialize (IH s A). destruct (hand k s ps). exact IH.
  - rewrite skip by assumption. specialize (IH s A). destruct (hand k s qs). exact IH.
Qed.

Lemma feed_idle : forall ps qs n m d d1, but_for ps qs -> (List.length ps < n)%nat -> (List.length qs < m)%nat ->
  sk_start k d = Ok (d1, true) -> good d1 -> FeedPackets (list_source P) k n ps d = FeedPackets (list_source P) k m qs d.
Proof.
  intros ps qs n m d d1 B Hn Hm Es G. rewrite (feed_hand _ _ ps n _ _ Hn Es), (feed_hand _ _ qs m _ _ Hm Es).
  rewrite (hand_idle ps qs B d1 G). reflexivity.
Qed.

Variable view : list (list Z) -> list Z -> P.
Variable own : Z -> Prop.

Lemma views_idle : forall bs cs, per_pid view -> (forall h b, ts_packet b -> ~ own (pid_bytes b) -> idle (view h b)) ->
  agree pid_bytes own bs cs -> Forall ts_packet bs -> Forall ts_packet cs ->
  forall h h', (forall pid, own pid -> filter (fun x => pid_bytes x =? pid) h = filter (fun x => pid_bytes x =? pid) h') ->
  Forall fine (views view h bs) \/ (forall p, fine p) -> but_for (views view h bs) (views view h' cs).
Proof.
  intros bs cs V Pid G. induction G as [|b bs cs O G IH|b bs cs F G IH|c bs cs F G IH]; intros Tb Tc h h' Hh Fi; cbn [views] in *.
  - constructor.
  - inversion Tb as [|? ? T1 T2]; subst. inversion Tc as [|? ? T3 T4]; subst.
    rewrite <- (V h h' b (Hh _ O)). apply bf_both; [destruct Fi as [Fi|Fi]; [inversion Fi; assumption|apply Fi]|]. apply IH; auto.
    + intros pid Op. cbn [filter]. rewrite (Hh _ Op). reflexivity.
    + destruct Fi as [Fi|Fi]; [left; inversion Fi; assumption|auto].
  - inversion Tb as [|? ? T1 T2]; subst. apply bf_left; [apply Pid; assumption|]. apply IH; auto.
    + intros pid Op. cbn [filter]. destruct (Z.eqb_spec (pid_bytes b) pid) as [E|E]; [subst; contradiction|auto].
    + destruct Fi as [Fi|Fi]; [left; inversion Fi; assumption|auto].
  - inversion Tc as [|? ? T1 T2]; subst. apply bf_right; [apply Pid; assumption|]. apply IH; auto.
    intros pid Op. cbn [filter]. destruct (Z.eqb_spec (pid_bytes c) pid) as [E|E]; [subst; contradiction|auto].
Qed.

Lemma main_idle : forall reads reads' bs cs n m d d1, per_pid view -> (forall h b, ts_packet b -> ~ own (pid_bytes b) -> idle (view h b)) ->
  two_files own reads reads' bs cs -> Forall fine (views view [] bs) \/ (forall p, fine p) ->
  (List.length (bytes_of reads) < n)%nat -> (List.length (bytes_of reads') < m)%nat ->
  sk_start k d = Ok (d1, true) -> good d1 -> same_end (run_main view k reads d n) (run_main view k reads' d m).
Proof.
  intros reads reads' bs cs n m d d1 V Pid (R & R' & B & B' & Pk & Pk' & G) Fi Hn Hm Es Gd.
  pose proof (packets_length _ _ Pk) as L1. pose proof (packets_length _ _ Pk') as L2.
  assert (E : FeedPackets (list_source P) k n (views view [] bs) d = FeedPackets (list_source P) k m (views view [] cs) d).
  { apply (feed_idle _ _ n m d d1); [|rewrite views_length; lia|rewrite views_length; lia|exact Es|exact Gd].
    apply views_idle; auto; [exact (packets_are _ _ Pk B)|exact (packets_are _ _ Pk' B')]. }
  pose proof (main_feed view k reads bs d n R Pk Hn) as M1. pose proof (main_feed view k reads' cs d m R' Pk' Hm) as M2.
  rewrite <- E in M2. unfold same_end.
  destruct (FeedPackets (list_source P) k n (views view [] bs) d) as [[[c x]|f]|]; [|rewrite M1; exact M2|destruct M1].
  destruct M1 as [h1 ->]. exact M2.
Qed.

End Idle.

Lemma sends_in : forall ps p t, In p ps -> In t (p_tabs p 0) -> sends ps (p_pid p) (tb_body t).
Proof. intros ps p t I T. exists p, t. auto. Qed.

(** * scan-services *)
Section Scan.
Import ServiceScanner.
Variable o : sc_option.
Variable own : Z -> Prop.

Definition scan_good (s : sc_state) : Prop := (forall pid, In pid (sc_pids s) -> own pid) /\ sc_completed s = false.
Definition scan_fine (ps : list packet) (p : packet) : Prop := In p ps.

Lemma scan_table : forall ps s p t s', scan_pids own ps -> In p ps -> In t (p_tabs p 0) -> (forall pid, In pid (sc_pids s) -> own pid) ->
  sc_handleTable s (p_pid p) t = Ok s' -> forall pid, In pid (sc_pids s') -> own pid.
Proof.
  intros ps s p t s' (O0 & _ & _ & Op) Ip It G H. pose proof (sends_in ps p t Ip It) as Sd. unfold sc_handleTable in H.
  destruct (tb_body t) as [u| |u| |u|u|u|]; try (injection H as <-; exact G).
  - unfold sc_HandlePat in H. change PID_PAT with 0 in H. destruct (Z.eqb_spec (p_pid p) 0) as [E|E]; cbn [negb] in H; [|injection H as <-; exact G].
    destruct u as [u|]; [|injection H as <-; exact G]. destruct (pat_tsid u =? 0); [injection H as <-; exact G|].
    destruct (negb (pat_nit_pid u =? PID_NULL) && negb (pat_nit_pid u =? PID_NIT)) eqn:M; injection H as <-; [|exact G].
    cbn [sc_pids]. intros pid I. apply In_zadd in I as [-> |I]; [|apply In_zrem in I; apply G; tauto].
    rewrite E in Sd. apply (Op u); [exact Sd|].
    destruct (proj1 (ScanProofs.pat_nit_pid_spec u (pat_nit_pid u)) (conj M eq_refl)) as ((a & b & Ea & _) & _). rewrite Ea. apply in_elt.
  - unfold sc_HandleSdt in H. destruct u as [u|]; [|injection H as <-; exact G]. destruct (_ =? _); injection H as <-; exact G.
  - unfold sc_HandleNit in H. destruct u; injection H as <-; exact G.
Qed.

Lemma scan_tables : forall ps p l s s', scan_pids own ps -> In p ps -> (forall t, In t l -> In t (p_tabs p 0)) ->
  (forall pid, In pid (sc_pids s) -> own pid) -> handle_tables sc_handleTable s (p_pid p) l = Ok s' -> forall pid, In pid (sc_pids s') -> own pid.
Proof.
  intros ps p l. induction l as [|t l IH]; intros s s' C Ip It G H; cbn [handle_tables] in H; [injection H as <-; exact G|].
  apply bind_ok in H as (s1 & H1 & H). apply (IH s1 s' C Ip); [intros u U; apply It; cbn; auto| |exact H].
  eapply scan_table; try eassumption. apply It. cbn. auto.
Qed.

Lemma scan_step : forall ps s p s', scan_pids own ps -> scan_good s -> In p ps -> sk_handle (sc_sink o) s p = Ok (s', true) -> scan_good s'.
Proof.
  intros ps s p s' C [G D] Ip H. cbn [sc_sink sk_handle] in H. unfold sc_HandlePacket in H. apply bind_ok in H as (s1 & H1 & H).
  injection H as <- H. split; [|destruct (sc_completed s1); [discriminate|reflexivity]].
  unfold demux_feed in H1. destruct (zmem _ _); [|injection H1 as <-; exact G].
  eapply scan_tables; try eassumption. auto.
Qed.

Lemma scan_skip : forall s p, scan_good s -> ~ own (p_pid p) -> sk_handle (sc_sink o) s p = Ok (s, true).
Proof.
  intros s p [G D] N. cbn [sc_sink sk_handle]. unfold sc_HandlePacket, demux_feed.
  assert (M : zmem (p_pid p) (sc_pids s) = false) by (apply zmem_false; intros I; apply N; apply G; exact I).
  rewrite M. cbn [handle_tables bind]. rewrite D. reflexivity.
Qed.
End Scan.

Lemma scan_idle : forall view sids xsids own reads reads' bs cs n m, per_pid view -> (forall h b, ts_packet b -> p_pid (view h b) = pid_bytes b) ->
  two_files own reads reads' bs cs -> scan_pids own (views view [] bs) ->
  (List.length (bytes_of reads) < n)%nat -> (List.length (bytes_of reads') < m)%nat ->
  same_end (scan_services_main view sids xsids reads n) (scan_services_main view sids xsids reads' m).
Proof.
  intros view sids xsids own reads reads' bs cs n m V Pid F C Hn Hm. unfold scan_services_main.
  destruct (load_service_scanner sids xsids) as [o|f]; [|reflexivity].
  apply (main_idle (ServiceScanner.sc_sink o) (scan_good own) (fun p => In p (views view [] bs)) (fun p => ~ own (p_pid p))
    (fun s p s' G Ip H => scan_step o own _ s p s' C G Ip H) (fun s p G N => scan_skip o own s p G N) view own reads reads' bs cs n m
    ServiceScanner.sc_init ServiceScanner.sc_init); auto.
  - intros h b T N. rewrite Pid by exact T. exact N.
  - left. apply Forall_forall. auto.
  - destruct C as (C0 & C1 & C2 & _). split; [|reflexivity]. intros pid [<-|[<-|[<-|[]]]]; assumption.
Qed.

(** * sync-clocks *)
Section Sync.
Import PcrSynchronizer.
Variable o : ps_option.
Variable own : Z -> Prop.

Definition sync_good (s : ps_state) : Prop :=
  (forall pid, In pid (ps_pids s) -> own pid) /\ (forall sid pid, In (sid, pid) (ps_pmt_pids s) -> own pid) /\
  (forall pid, In pid (ps_pcr_pids s) -> own pid).

Lemma sync_table : forall ps s p t s', sync_pids own ps -> In p ps -> own (p_pid p) -> In t (p_tabs p 0) -> sync_good s ->
  ps_handleTable o s (p_pid p) t = Ok s' -> sync_good s'.
Proof.
  intros ps s p t s' (O0 & O1 & O2 & Op & Om) Ip Ow It G H. pose proof (sends_in ps p t Ip It) as Sd. pose proof G as (G1 & G2 & G3).
  unfold ps_handleTable in H. destruct (tb_body t) as [u| |u| |u|u|u|]; try (injection H as <-; exact G); injection H as <-.
  - unfold ps_HandlePat. change PID_PAT with 0. destruct (Z.eqb_spec (p_pid p) 0) as [E|E]; cbn [negb]; [|exact G].
    destruct u as [u|]; [|exact G]. destruct (pat_tsid u =? 0); [exact G|]. rewrite E in Sd.
    set (s1 := match ps_pmt_pids s with [] => s | _ => ps_ResetStates s end).
    assert (K : (forall pid, In pid (ps_pids s1) -> own pid) /\ (forall pid, In pid (ps_pcr_pids s1) -> own pid)).
    { unfold s1. destruct (ps_pmt_pids s); [auto|]. split; [|intros pid []]. intros pid I. apply SyncProofs.In_reset in I. apply G1. tauto. }
    destruct K as [K1 K2]. split; [|split]; cbn [ps_pids ps_pmt_pids ps_pcr_pids].
    + intros pid I. apply In_zadd in I as [-> |I]; auto.
    + intros sid pid I. change (ps_select o (pat_pmts u)) with (SyncProofs.sel o u) in I.
      apply SyncProofs.sel_in in I as [[N (a & b & Ea & _)] _]. apply (Op u sid); [exact Sd|rewrite Ea; apply in_elt|exact N].
    + exact K2.
  - unfold ps_HandlePmt. destruct u as [m|]; [|exact G]. destruct (mfind _ _); [|exact G]. destruct (negb _); [exact G|].
    split; [|split]; cbn [ps_pids ps_pmt_pids ps_pcr_pids]; auto.
    + intros pid I. destruct (_ =? _); [apply In_zadd in I as [-> |I]; auto|auto].
    + unfold PID_NULL. intros pid I. destruct (Z.eqb_spec (pmt_pcr_pid m) 0x1FFF) as [E|E]; cbn [negb] in I; [auto|].
      apply In_zadd in I as [-> |I]; [|auto]. apply (Om _ _ Ow Sd E).
  - destruct u as [u|]; exact G.
  - destruct u as [d|]; [|exact G]. rewrite SyncProofs.sdt_state. split; [|split]; cbn [ps_pids ps_pmt_pids ps_pcr_pids]; auto.
    intros pid I. apply SyncProofs.count_pids in I as [I|(sid & v & I & _)]; eauto.
Qed.

Lemma sync_tables : forall ps p l s s', sync_pids own ps -> In p ps -> own (p_pid p) -> (forall t, In t l -> In t (p_tabs p 0)) ->
  sync_good s -> handle_tables (ps_handleTable o) s (p_pid p) l = Ok s' -> sync_good s'.
Proof.
  intros ps p l. induction l as [|t l IH]; intros s s' C Ip Ow It G H; cbn [handle_tables] in H; [injection H as <-; exact G|].
  apply bind_ok in H as (s1 & H1 & H). apply (IH s1 s' C Ip Ow); [intros u U; apply It; cbn; auto| |exact H].
  eapply sync_table; try eassumption. apply It. cbn. auto.
Qed.

Definition sync_open (s : ps_state) : Prop := sync_good s /\ ps_done s = false.

Lemma sync_step : forall ps s p s', sync_pids own ps -> sync_open s -> In p ps -> sk_handle (ps_sink o) s p = Ok (s', true) -> sync_open s'.
Proof.
  intros ps s p s' C [G D] Ip H. cbn [ps_sink sk_handle] in H. unfold ps_HandlePacket in H.
  destruct (p_pid p =? PID_NULL); [injection H as <-; split; assumption|]. apply bind_ok in H as (s1 & H1 & H).
  assert (G1 : sync_good s1).
  { unfold demux_feed in H1. destruct (zmem (p_pid p) (ps_pids s)) eqn:M; [|injection H1 as <-; exact G].
    apply zmem_In in M. eapply sync_tables; try eassumption; [|auto]. apply (proj1 G). exact M. }
  destruct (ps_done s1) eqn:D1; [discriminate|]. unfold ps_capture in H. destruct (_ && _ && _); [|injection H as <-; split; assumption].
  destruct (p_pcr p) as [c|]; [|injection H as <-; split; assumption]. apply bind_ok in H as (z & _ & H). injection H as <- H.
  split; [exact G1|]. cbn [ps_done]. destruct (_ =? _); [discriminate|exact D1].
Qed.

Lemma sync_skip : forall s p, sync_open s -> ~ own (p_pid p) -> sk_handle (ps_sink o) s p = Ok (s, true).
Proof.
  intros s p [(G1 & _ & G3) D] N. cbn [ps_sink sk_handle]. unfold ps_HandlePacket, demux_feed, ps_capture.
  destruct (p_pid p =? PID_NULL); [reflexivity|].
  assert (M : zmem (p_pid p) (ps_pids s) = false) by (apply zmem_false; intros I; apply N; apply G1; exact I).
  assert (M3 : zmem (p_pid p) (ps_pcr_pids s) = false) by (apply zmem_false; intros I; apply N; apply G3; exact I).
  rewrite M. cbn [handle_tables bind]. rewrite D, M3, andb_false_r. reflexivity.
Qed.
End Sync.

Lemma sync_idle : forall view sids xsids own reads reads' bs cs n m, per_pid view -> (forall h b, ts_packet b -> p_pid (view h b) = pid_bytes b) ->
  two_files own reads reads' bs cs -> sync_pids own (views view [] bs) ->
  (List.length (bytes_of reads) < n)%nat -> (List.length (bytes_of reads') < m)%nat ->
  same_end (sync_clocks_main view sids xsids reads n) (sync_clocks_main view sids xsids reads' m).
Proof.
  intros view sids xsids own reads reads' bs cs n m V Pid F C Hn Hm. unfold sync_clocks_main.
  destruct (load_pcr_synchronizer sids xsids) as [o|f]; [|reflexivity].
  apply (main_idle (PcrSynchronizer.ps_sink o) (sync_open own) (fun p => In p (views view [] bs)) (fun p => ~ own (p_pid p))
    (fun s p s' G Ip H => sync_step o own _ s p s' C G Ip H) (fun s p G N => sync_skip o own s p G N) view own reads reads' bs cs n m
    PcrSynchronizer.ps_init PcrSynchronizer.ps_init); auto.
  - intros h b T N. rewrite Pid by exact T. exact N.
  - left. apply Forall_forall. auto.
  - destruct C as (C0 & _). split; [|reflexivity]. split; [|split]; [|intros sid pid []|intros pid []]. intros pid [<-|[]]. exact C0.
Qed.

(** * track-airtime and filter-program-metadata *)
Lemma airtime_idle : forall view sid eid reads reads' bs cs n m, per_pid view -> (forall h b, ts_packet b -> p_pid (view h b) = pid_bytes b) ->
  two_files (fun pid => pid = 0x12) reads reads' bs cs -> (List.length (bytes_of reads) < n)%nat -> (List.length (bytes_of reads') < m)%nat ->
  same_end (track_airtime_main view sid eid reads n) (track_airtime_main view sid eid reads' m).
Proof.
  intros view sid eid reads reads' bs cs n m V Pid F Hn Hm. unfold track_airtime_main.
  apply (main_idle (AirtimeTracker.at_sink (load_airtime_tracker sid eid)) (fun s => AirtimeTracker.at_done s = false) (fun _ => True) (fun p => p_pid p <> 0x12))
    with (own := fun pid => pid = 0x12) (bs := bs) (cs := cs) (d1 := AirtimeTracker.at_init); auto.
  - intros s p s' G _ H. cbn [AirtimeTracker.at_sink sk_handle] in H. unfold AirtimeTracker.at_HandlePacket in H.
    apply bind_ok in H as (s1 & _ & H). injection H as <- H. destruct (AirtimeTracker.at_done s1); [discriminate|reflexivity].
  - intros s p G N. cbn [AirtimeTracker.at_sink sk_handle]. unfold AirtimeTracker.at_HandlePacket, demux_feed.
    assert (M : zmem (p_pid p) [PID_EIT] = false) by (apply zmem_false; intros [I|[]]; apply N; symmetry; exact I).
    rewrite M. cbn [handle_tables bind]. rewrite G. reflexivity.
  - intros h b T N. rewrite Pid by exact T. exact N.
Qed.

Lemma metadata_idle : forall view sid reads reads' bs cs n m, per_pid view -> (forall h b, ts_packet b -> p_pid (view h b) = pid_bytes b) ->
  two_files (fun pid => pid = 0x12) reads reads' bs cs -> (List.length (bytes_of reads) < n)%nat -> (List.length (bytes_of reads') < m)%nat ->
  same_end (program_metadata_main view sid reads n) (program_metadata_main view sid reads' m).
Proof.
  intros view sid reads reads' bs cs n m V Pid F Hn Hm. unfold program_metadata_main.
  apply (main_idle (MetadataFilter.md_sink (load_metadata_filter sid)) (fun s => True) (fun _ => True) (fun p => p_pid p <> 0x12))
    with (own := fun pid => pid = 0x12) (bs := bs) (cs := cs) (d1 := @nil MetadataFilter.meta_doc); auto.
  - intros s p G N. cbn [MetadataFilter.md_sink sk_handle]. unfold MetadataFilter.md_HandlePacket, demux_feed.
    assert (M : zmem (p_pid p) [PID_EIT] = false) by (apply zmem_false; intros [I|[]]; apply N; symmetry; exact I).
    rewrite M. reflexivity.
  - intros h b T N. rewrite Pid by exact T. exact N.
Qed.

(** * The collectors *)
Lemma eits_idle : forall mjd view sids xsids limit streaming actual others reads reads' bs cs n m, per_pid view ->
  (forall h b, ts_packet b -> pid_bytes b <> 0x12 -> pid_bytes b <> 0x14 -> view h b = []) ->
  two_files (fun pid => pid = 0x12 \/ pid = 0x14) reads reads' bs cs ->
  streaming = true \/ match limit with Some v => 0 < v | None => True end ->
  (List.length (bytes_of reads) < n)%nat -> (List.length (bytes_of reads') < m)%nat ->
  same_end (collect_eits_main mjd view sids xsids limit streaming actual others reads n)
           (collect_eits_main mjd view sids xsids limit streaming actual others reads' m).
Proof.
  intros mjd view sids xsids limit streaming actual others reads reads' bs cs n m V Silent F L Hn Hm. unfold collect_eits_main.
  destruct (load_eit_collector sids xsids limit streaming actual others) as [o|f] eqn:Eo; [|reflexivity].
  destruct (EitCollector.ec_new o) as [s0|f] eqn:Es; [|reflexivity].
  apply (main_idle (EitCollector.eit_sink mjd o) (fun s => EitCollector.ec_IsCompleted o s = false /\ EitCollector.ec_CheckTimeout o s = false)
    (fun _ => True) (fun p => p = [])) with (own := fun pid => pid = 0x12 \/ pid = 0x14) (bs := bs) (cs := cs) (d1 := s0); auto.
  - intros s p s' _ _ H. cbn [EitCollector.eit_sink sk_handle] in H. unfold EitCollector.ec_HandlePacket in H.
    apply bind_ok in H as (s1 & _ & H). destruct (EitCollector.ec_IsCompleted o s1) eqn:E1; [discriminate|].
    destruct (EitCollector.ec_CheckTimeout o s1) eqn:E2; [discriminate|]. injection H as <-. auto.
  - intros s p [E1 E2] ->. cbn [EitCollector.eit_sink sk_handle]. unfold EitCollector.ec_HandlePacket.
    cbn [EitCollector.ec_deliver_all bind]. rewrite E1, E2. reflexivity.
  - unfold EitCollector.ec_new in Es. apply assert_ok in Es as [_ Es]. injection Es as <-.
    unfold EitCollector.ec_IsCompleted, EitCollector.ec_CheckTimeout.
    unfold load_eit_collector in Eo. apply bind_ok in Eo as (a & _ & Eo). apply bind_ok in Eo as (b & _ & Eo). injection Eo as <-. cbn.
    destruct L as [-> |L]; [auto|]. destruct streaming; [auto|]. split; [reflexivity|]. apply Z.leb_gt. destruct limit; lia.
Qed.

Lemma eitpfs_idle : forall mjd view sids ns streaming present following reads reads' bs cs n m, per_pid view ->
  (forall h b, ts_packet b -> pid_bytes b <> 0x12 -> view h b = []) ->
  two_files (fun pid => pid = 0x12) reads reads' bs cs -> ids_given sids ns ->
  streaming = true \/ (ns <> [] /\ present && following = false) ->
  (List.length (bytes_of reads) < n)%nat -> (List.length (bytes_of reads') < m)%nat ->
  same_end (collect_eitpfs_main mjd view sids streaming present following reads n)
           (collect_eitpfs_main mjd view sids streaming present following reads' m).
Proof.
  intros mjd view sids ns streaming present following reads reads' bs cs n m V Silent F Ig L Hn Hm. unfold collect_eitpfs_main.
  unfold load_eitpf_collector. destruct (PipeOptions.load_ids sids ns Ig) as (set & -> & Hs). cbn [bind].
  set (o := EitpfCollector.mkPfOption set streaming (negb following) (negb present)).
  apply (main_idle (EitpfCollector.pf_sink mjd o) (fun s => EitpfCollector.pf_Done o s = Ok false)
    (fun _ => True) (fun p => p = [])) with (own := fun pid => pid = 0x12) (bs := bs) (cs := cs) (d1 := EitpfCollector.pf_init); auto.
  - intros s p s' _ _ H. cbn [EitpfCollector.pf_sink sk_handle] in H. unfold EitpfCollector.pf_HandlePacket in H.
    apply bind_ok in H as (s1 & _ & H). apply bind_ok in H as (d & H1 & H). injection H as <- H. destruct d; [discriminate|exact H1].
  - intros s p E ->. cbn [EitpfCollector.pf_sink sk_handle]. unfold EitpfCollector.pf_HandlePacket.
    cbn [EitpfCollector.pf_handle_all bind]. rewrite E. reflexivity.
  - unfold EitpfCollector.pf_Done. unfold o. cbn [EitpfCollector.po_streaming EitpfCollector.po_present EitpfCollector.po_following EitpfCollector.po_sids].
    destruct L as [-> |[L PF]]; [reflexivity|]. destruct streaming; [reflexivity|].
    assert (Z : (zlen (EitpfCollector.pf_present EitpfCollector.pf_init) =? zlen set) = false /\
                (zlen (EitpfCollector.pf_following EitpfCollector.pf_init) =? zlen set) = false).
    { destruct set as [|a set]; [|split; reflexivity]. exfalso. destruct ns as [|a ns]; [exact (L eq_refl)|]. apply (Hs a). cbn. auto. }
    destruct Z as [-> ->]. destruct present, following; try discriminate; reflexivity.
Qed.
