From Coq Require Import ZArith Lia List Bool.
From Verif Require Import Proofs.ClockProofs Proofs.RingProofs Proofs.RingMain Proofs.FilterProofs Proofs.TuneProofs Proofs.PcrProofs
  Base.Outcome Base.Util Model.Pcr Model.Clock Model.Sink Model.Ts Model.RingFileSink Model.ServiceRecorder
  Spec.PcrSpec Spec.ClockSpec Spec.FilterSpec Spec.TuneSpec Spec.FileSpec Spec.RecorderSpec Proofs.RecorderProofs.
Import ListNotations.
Open Scope Z_scope.

Ltac ib H := match type of H with bind ?m _ = Ok _ => let E := fresh "E" in destruct m as [?|] eqn:E; [cbn [bind] in H|discriminate H] end.

(** ** The ring keeps its size *)
Lemma wrap_size : forall s s' e b, rg_wrap s = (s', e, b) -> rg_ring_size s' = rg_ring_size s.
Proof.
  intros s s' e b E. unfold rg_wrap in E. destruct (_ =? _); [|injection E as <- _ _; auto].
  destruct (rg_next (rg_ops s)) as [[|] o1]; cbn [negb] in E; [|injection E as <- _ _; auto].
  destruct (rg_next o1) as [[|] o2]; cbn [negb] in E; injection E as <- _ _; auto.
Qed.

Lemma flush_size : forall s s' e b, rg_Flush s = Ok (s', e, b) -> rg_ring_size s' = rg_ring_size s.
Proof.
  intros s s' e b E. unfold rg_Flush in E. apply assert_ok in E as [_ E].
  destruct (rg_write _ _) as [[evs ops] ok]. destruct ok; cbn [negb] in E; [|injection E as <- _ _; auto].
  apply assert_ok in E as [_ E]. destruct (_ =? _).
  - apply assert_ok in E as [_ E]. apply assert_ok in E as [_ E].
    destruct (rg_next ops) as [[|] o1]; cbn [negb] in E; [|injection E as <- _ _; auto].
    destruct (rg_wrap _) as [[s1 w] k] eqn:W. apply wrap_size in W. injection E as <- _ _. auto.
  - destruct (rg_wrap _) as [[s1 w] k] eqn:W. apply wrap_size in W. injection E as <- _ _. auto.
Qed.

Lemma loop_size : forall n s d s' e b, rg_loop n s d = Ok (s', e, b) -> rg_ring_size s' = rg_ring_size s.
Proof.
  induction n as [|n IH]; intros s d s' e b E; cbn [rg_loop] in E; [discriminate|].
  ib E. destruct a as [s1 k]. assert (S1 : rg_ring_size s1 = rg_ring_size s).
  { unfold rg_FillBuffer in E0. destruct (_ <? _); [discriminate|]. apply assert_ok in E0 as [_ E0]. apply assert_ok in E0 as [_ E0].
    injection E0 as <- _. auto. }
  ib E. destruct a as [[s2 evs] ok]. assert (S2 : rg_ring_size s2 = rg_ring_size s1).
  { destruct (rg_NeedFlush s1); [eapply flush_size; eauto|injection E1 as <- _ _; auto]. }
  destruct ok; cbn [negb] in E; [|injection E as <- _ _; cbn; congruence].
  destruct (_ =? _); [injection E as <- _ _; congruence|]. ib E. destruct a as [[s3 evs2] ok2]. injection E as <- _ _.
  apply IH in E2. congruence.
Qed.

(** ** The clock keeps its PID *)
Lemma step_pid : forall c op c', ck_step c op = Ok c' -> bl_pid (ck_baseline c') =
  match op with OpSetPid pid => pid | _ => bl_pid (ck_baseline c) end.
Proof.
  assert (Sync : forall c c', ck_SyncPcr c = Ok c' -> bl_pid (ck_baseline c') = bl_pid (ck_baseline c)).
  { intros c c' E. unfold ck_SyncPcr, bl_SetPcr in E. ib E. apply assert_ok in E0 as [_ E0]. injection E0 as <-. injection E as <-. auto. }
  assert (Acc : forall c v g c', ck_accept c v g = Ok c' -> bl_pid (ck_baseline c') = bl_pid (ck_baseline c)).
  { intros c v g c' E. unfold ck_accept in E. destruct (bl_IsReady _); [injection E as <-; auto|apply Sync in E; auto]. }
  intros c [pid|t l|v] c' E; cbn [ck_step] in E.
  - injection E as <-. auto.
  - unfold ck_UpdateTime in E. cbv zeta in E. destruct (ck_ready _); [apply Sync in E; auto|injection E as <-; auto].
  - unfold ck_UpdatePcr in E. apply assert_ok in E as [_ E]. destruct (ck_IsReady c); [|eauto].
    apply assert_ok in E as [_ E]. destruct (_ <=? _); [|eauto]. cbv zeta in E. destruct (_ <=? _); injection E as <-; auto.
Qed.

Lemma run_valid : forall ops c c', ck_run c ops = Ok c' -> Forall valid_op ops.
Proof.
  induction ops as [|op ops IH]; intros c c' E; [constructor|]. cbn [ck_run] in E. ib E. constructor; eauto.
  destruct op; cbn; auto. cbn [ck_step] in E0. unfold ck_UpdatePcr in E0. apply assert_ok in E0 as [V _]. apply valid_iff, V.
Qed.

Lemma ready_iff : forall ops c, ck_run clock_init ops = Ok c -> (seen ops true true <-> ck_IsReady c = true).
Proof.
  intros ops c E. destruct (readiness ops (run_valid _ _ _ E)) as [c' [p [t [E' [_ [Sn [_ [_ R]]]]]]]].
  rewrite E in E'. injection E' as <-. rewrite R. split.
  - intros Q. destruct (seen_fun _ _ _ Sn _ _ Q) as [<- <-]. auto.
  - intros Q. apply andb_true_iff in Q as [-> ->]. auto.
Qed.

Lemma znth_cons_pos : forall A k (x : A) l, 0 < k -> znth k (x :: l) = znth (k - 1) l.
Proof. intros A k x l H. change (x :: l) with ([x] ++ l). rewrite znth_app_r; [reflexivity|]. rewrite zlen_cons, zlen_nil. lia. Qed.
Lemma znth_map : forall A B (f : A -> B) l k, znth k (map f l) = option_map f (znth k l).
Proof. intros. unfold znth. destruct (_ <? _); auto. apply nth_error_map. Qed.

Section Main.
Variable o : recorder_option.
Variable local : nat -> Z.
Variable bytes : packet -> list Z.
Variable stage : nat.
Notation sid := (rco_sid o).
Notation start := (rco_start_pos o).

(** ** Until recording starts *)
Record rel (h : history) (ops : list clock_op) (s : rec_state) : Prop := mkRel {
  e_demux : forall pid, In pid (rc_demux s) <-> tuned [0; 0x12; 0x14] sid h pid;
  e_pmt : rc_pmt_pid s = pmt_pid_now sid h;
  e_clock : ck_run clock_init ops = Ok (rc_clock s);
  e_pid : bl_pid (ck_baseline (rc_clock s)) = clock_pid sid h;
  e_reads : rc_reads s = List.length (filter is_time ops);
  e_eit : rc_new_eit s = latest (service_eit sid) h }.

Lemma rel_init : forall r, rel [] [] (rc_init r).
Proof.
  intros r. constructor; try reflexivity.
  intros pid. rewrite tuned_nil. change (rc_demux (rc_init r)) with (zadd PID_TOT (zadd PID_EIT (zadd PID_PAT []))).
  rewrite !In_zadd. unfold PID_TOT, PID_EIT, PID_PAT. cbn [In].
  assert (E : forall x : Z, pid = x <-> x = pid) by (intros; split; auto).
  rewrite (E 0), (E 0x12), (E 0x14). tauto.
Qed.

Lemma rel_mute : forall h ops s x, rel h ops s -> listing sid x = None -> service_pmt sid x = None -> service_eit sid x = None ->
  rel (x :: h) ops s.
Proof.
  intros h ops s x [R1 R2 R3 R4 R5 R6] L P V. constructor; auto.
  - intros pid. rewrite tuned_mute; auto.
  - rewrite R2. unfold pmt_pid_now. cbn [latest]. rewrite L. auto.
  - rewrite R4. unfold clock_pid. cbn [latest]. rewrite P. auto.
  - rewrite R6. cbn [latest]. rewrite V. auto.
Qed.

Lemma rel_table : forall h ops s pid t s', rel h ops s -> rc_handleTable o local s pid t = Ok s' ->
  rel ((pid, tb_body t) :: h) (ops ++ clock_table sid local h ops (pid, tb_body t)) s'.
Proof.
  intros h ops s pid t s' R E. unfold rc_handleTable in E. unfold clock_table, service_pmt, snd.
  destruct (tb_body t) as [b| |b|b|b| | |]; try (injection E as <-; rewrite app_nil_r; apply rel_mute; auto; reflexivity).
  - rewrite app_nil_r. unfold rc_HandlePat in E. unfold PID_PAT in E.
    destruct b as [b|]; [|destruct (negb _); injection E as <-; apply rel_mute; auto].
    destruct (Z.eqb_spec pid 0) as [->|Np]; cbn [negb] in E.
    2: { injection E as <-. apply rel_mute; auto. unfold listing, usable_pat. destruct (Z.eqb_spec pid 0); [congruence|auto]. }
    destruct (pat_tsid b =? 0) eqn:T0.
    { injection E as <-. apply rel_mute; auto. unfold listing, usable_pat. rewrite T0. auto. }
    destruct (mfind sid (pat_pmts b)) as [np|] eqn:F; [|discriminate]. injection E as <-.
    assert (L : listing sid (0, TPat (Some b)) = Some (b, np)).
    { unfold listing, usable_pat. rewrite T0. cbn. rewrite pmts_find in F. rewrite F. auto. }
    destruct R as [R1 R2 R3 R4 R5 R6]. constructor; cbn [rc_demux rc_pmt_pid rc_clock rc_reads rc_new_eit]; auto.
    + intros q. rewrite R2. apply (tuned_listing _ _ _ _ _ _ _ L R1).
    + unfold pmt_pid_now. cbn [latest]. rewrite L. auto.
  - unfold rc_HandlePmt in E. destruct b as [b|]; [|injection E as <-; rewrite app_nil_r; apply rel_mute; auto].
    destruct (pmt_sid b =? sid) eqn:Es; cbn [negb] in E.
    2: { injection E as <-. rewrite app_nil_r. apply rel_mute; auto. unfold service_pmt. cbn. rewrite Es. auto. }
    destruct R as [R1 R2 R3 R4 R5 R6]. unfold bl_HasPid in E. rewrite R4 in E. change PID_NULL with 0x1FFF in E.
    assert (CP : clock_pid sid ((pid, TPmt (Some b)) :: h) = pmt_pcr_pid b).
    { unfold clock_pid. cbn [latest]. unfold service_pmt at 1. cbn [snd]. rewrite Es. auto. }
    assert (G : forall s2 ops2, rc_demux s2 = rc_demux s -> rc_pmt_pid s2 = rc_pmt_pid s -> rc_reads s2 = rc_reads s -> rc_new_eit s2 = rc_new_eit s ->
              ck_run clock_init (ops ++ ops2) = Ok (rc_clock s2) -> filter is_time ops2 = [] -> bl_pid (ck_baseline (rc_clock s2)) = pmt_pcr_pid b ->
              rel ((pid, TPmt (Some b)) :: h) (ops ++ ops2) s2).
    { intros s2 ops2 H1 H2 H3 H4 H5 H6 H7. constructor; auto.
      - intros q. rewrite H1, R1. symmetry. apply tuned_mute. reflexivity.
      - rewrite H2, R2. reflexivity.
      - congruence.
      - rewrite H3, R5, filter_app, H6, app_nil_r. auto.
      - rewrite H4, R6. reflexivity. }
    assert (G1 : rel ((pid, TPmt (Some b)) :: h) (ops ++ [OpSetPid (pmt_pcr_pid b)]) (rc_set_clock s (ck_SetPid (rc_clock s) (pmt_pcr_pid b)))).
    { apply G; auto. rewrite run_snoc, R3. auto. }
    destruct (clock_pid sid h =? 0x1FFF) eqn:C1; cbn [negb orb] in *; [injection E as <-; auto|].
    destruct (Z.eqb_spec (clock_pid sid h) (pmt_pcr_pid b)) as [C2|C2]; cbn [negb orb] in *; [|injection E as <-; auto].
    injection E as <-. apply G; auto; [rewrite app_nil_r; auto|congruence].
  - unfold rc_HandleEit in E. rewrite app_nil_r. destruct b as [b|]; [|injection E as <-; apply rel_mute; auto].
    destruct (eit_sid b =? sid) eqn:Es; cbn [negb] in E.
    2: { injection E as <-. apply rel_mute; auto. unfold service_eit. cbn. rewrite Es. auto. }
    destruct (eit_events b) as [|e r] eqn:Ev.
    { injection E as <-. apply rel_mute; auto. unfold service_eit. cbn. rewrite Es, Ev. auto. }
    ib E. injection E as <-. destruct R as [R1 R2 R3 R4 R5 R6]. constructor; cbn [rc_set_eit rc_demux rc_pmt_pid rc_clock rc_reads rc_new_eit]; auto.
    + intros q. rewrite R1. symmetry. apply tuned_mute. reflexivity.
    + cbn [latest]. unfold service_eit at 1. cbn [snd]. rewrite Es, Ev. auto.
  - unfold rc_HandleTot in E. destruct b as [b|]; [|injection E as <-; rewrite app_nil_r; apply rel_mute; auto].
    ib E. injection E as <-. destruct R as [R1 R2 R3 R4 R5 R6]. constructor; cbn [rc_set_clock rc_count_read rc_demux rc_pmt_pid rc_clock rc_reads rc_new_eit]; auto.
    + intros q. rewrite R1. symmetry. apply tuned_mute. reflexivity.
    + rewrite run_snoc, R3. cbn [bind ck_step]. rewrite <- R5. auto.
    + rewrite (step_pid _ (OpTime b (local (rc_reads s))) _ E0). rewrite R4. reflexivity.
    + rewrite filter_app, app_length, R5. cbn. lia.
Qed.

Lemma rel_tables : forall ts h ops s pid s', rel h ops s -> handle_tables (rc_handleTable o local) s pid ts = Ok s' ->
  exists h' ops', note sid local h ops pid ts = (h', ops') /\ rel h' ops' s'.
Proof.
  induction ts as [|t ts IH]; intros h ops s pid s' R E; cbn [handle_tables note] in *; [injection E as <-; eauto|].
  ib E. apply (IH _ _ _ _ _ (rel_table _ _ _ _ _ _ R E0) E).
Qed.

Lemma rel_clock : forall h ops s p s', rel h ops s -> rc_feed_clock s p = Ok s' -> rel h (ops ++ clock_packet sid h p) s'.
Proof.
  intros h ops s p s' R E. pose proof (clock_same s p s' E) as [_ [N1 [N2 [N3 N4]]]]. destruct R as [R1 R2 R3 R4 R5 R6].
  unfold rc_feed_clock, bl_HasPid in E. unfold clock_packet. rewrite R4 in E. change PID_NULL with 0x1FFF in E.
  destruct (_ && _); [|injection E as <-; rewrite app_nil_r; constructor; auto].
  destruct (p_pcr p) as [v|]; [|injection E as <-; rewrite app_nil_r; constructor; auto].
  ib E. injection E as <-. constructor; cbn [rc_set_clock rc_demux rc_pmt_pid rc_clock rc_reads rc_new_eit]; auto.
  - rewrite run_snoc, R3. auto.
  - rewrite (step_pid _ (OpPcr v) _ E0). auto.
  - rewrite filter_app, R5. cbn. rewrite app_nil_r. auto.
Qed.

(** ** A packet *)
Lemma recording_good : forall s p s' ok, good start s -> rc_recording s = true -> rc_OnRecording local bytes s p = Ok (s', ok) ->
  exists evs, rg_HandlePacket (rc_ring s) (bytes p) = Ok (rc_ring s', evs, ok) /\ calls s' = calls s ++ evs /\ good start s' /\ rc_recording s' = true.
Proof.
  intros s p s' ok G R E. unfold rc_OnRecording in E. ib E. rename a into s1. destruct (events_good _ _ _ _ G R E0) as [G1 [I1 [C1 [R1 _]]]].
  ib E. destruct a as [[r evs] ok']. rewrite I1 in E1. ib E. injection E as <- <-. rename a into s2.
  destruct (ring_events_good _ _ _ _ _ G1 R1 E2) as [G2 [C2 [R2 I2]]].
  exists evs. split; [exact E1|]. split; [change (calls (rc_set_ring s2 r)) with (calls s2); congruence|]. split; [|auto].
  assert (Sz : rg_ring_size r = rg_ring_size (rc_ring s2)) by (rewrite I2, I1; eapply loop_size; exact E1).
  destruct G2 as [A1 A2 A3 A4 A5]. constructor; auto.
  - cbn [rc_set_ring rc_ring rc_trace]. rewrite Sz. auto.
  - change (msgs (rc_set_ring s2 r)) with (msgs s2). change (calls (rc_set_ring s2 r)) with (calls s2).
    cbn [rc_set_ring rc_ring rc_recording]. rewrite Sz. auto.
Qed.

Lemma prefix_good : forall s p s2, good start s ->
  (let* s1 := rc_feed_clock s p in handle_tables (rc_handleTable o local) s1 (p_pid p) (demux_feed (rc_demux s1) stage p)) = Ok s2 ->
  good start s2 /\ same s s2.
Proof.
  intros s p s2 G E. ib E. destruct (clock_same _ _ _ E0) as [S1 [N1 _]]. destruct (tables_same _ _ _ _ _ _ E) as [S2 N2].
  assert (S : same s s2) by (eapply same_trans; eauto). split; [|auto].
  eapply good_same; eauto. apply N2. rewrite N1. apply G.
Qed.

Lemma record_loop : forall ps n s s', good start s -> rc_recording s = true ->
  feed_loop (list_source packet) (recorder o local bytes stage) n ps s = Some (Ok s') ->
  exists evs ok, rg_feed (rc_ring s) (map bytes ps) = Ok (rc_ring s', evs, ok) /\ calls s' = calls s ++ evs /\ good start s' /\ rc_recording s' = true.
Proof.
  induction ps as [|p ps IH]; intros n s s' G R E; (destruct n as [|n]; [discriminate|]); cbn [feed_loop list_source sr_next] in E.
  - injection E as <-. exists [], true. rewrite app_nil_r. auto.
  - cbn [sk_handle recorder] in E. destruct (rc_HandlePacket o local bytes stage s p) as [[s1 b]|] eqn:H; [|discriminate].
    unfold rc_HandlePacket in H. ib H. ib H. rename a0 into s2.
    assert (Pr : (let* s1 := rc_feed_clock s p in handle_tables (rc_handleTable o local) s1 (p_pid p) (demux_feed (rc_demux s1) stage p)) = Ok s2)
      by (rewrite E0; exact E1).
    destruct (prefix_good _ _ _ G Pr) as [G2 [_ [_ [R2 [_ [I2 T2]]]]]]. rewrite R2, R in H.
    destruct (recording_good _ _ _ _ G2 (eq_trans R2 R) H) as [evs [F [C [G3 R3]]]].
    rewrite I2 in F. assert (C2 : calls s2 = calls s) by (unfold calls; rewrite T2; auto). rewrite C2 in C.
    cbn [map rg_feed]. rewrite F. cbn [bind]. destruct b.
    + destruct (IH _ _ _ G3 R3 E) as [evs2 [ok [A [B [D Q]]]]]. rewrite A. cbn [bind].
      exists (evs ++ evs2), ok. split; [auto|]. split; [|auto]. rewrite B, C, app_assoc. auto.
    + injection E as <-. exists evs, false. auto.
Qed.

Definition recorded (r : option (list packet)) : list packet := match r with Some q => q | None => [] end.

Lemma prepare_loop : forall ps n h ops s s', good start s -> rc_recording s = false -> rg_ring_pos (rc_ring s) = start -> rel h ops s ->
  feed_loop (list_source packet) (recorder o local bytes stage) n ps s = Some (Ok s') ->
  exists r evs ok, record sid stage local h ops ps r /\ rg_feed (rc_ring s) (map bytes (recorded r)) = Ok (rc_ring s', evs, ok) /\
    calls s' = calls s ++ evs /\ good start s' /\
    (rc_recording s' = match r with Some _ => true | None => false end) /\ (r = None -> msgs s' = msgs s).
Proof.
  induction ps as [|p ps IH]; intros n h ops s s' G R Ps Re E; (destruct n as [|n]; [discriminate|]); cbn [feed_loop list_source sr_next] in E.
  - injection E as <-. exists None, [], true. rewrite app_nil_r. split; [constructor|]. auto 8.
  - cbn [sk_handle recorder] in E. destruct (rc_HandlePacket o local bytes stage s p) as [[s3 b]|] eqn:H; [|discriminate].
    unfold rc_HandlePacket in H. ib H. rename a into s1. ib H. rename a into s2.
    assert (Pr : (let* s1 := rc_feed_clock s p in handle_tables (rc_handleTable o local) s1 (p_pid p) (demux_feed (rc_demux s1) stage p)) = Ok s2)
      by (rewrite E0; exact E1).
    destruct (prefix_good _ _ _ G Pr) as [G2 [_ [_ [R2 [_ [I2 T2]]]]]]. rewrite R2, R in H.
    pose proof (rel_clock _ _ _ _ _ Re E0) as Re1.
    destruct (rel_tables _ _ _ _ _ _ Re1 E1) as [h' [ops' [Nt Re2]]].
    assert (Hr : hears sid stage h p (demux_feed (rc_demux s1) stage p)) by (apply delivered_feed; apply Re1).
    destruct (preparing_good _ _ _ _ _ _ G2 (eq_trans R2 R) (eq_trans (f_equal rg_ring_pos I2) Ps) H) as [G3 [-> [I3 [C3 [R3 Sm]]]]].
    assert (C2 : calls s2 = calls s) by (unfold calls; rewrite T2; auto).
    assert (Rd : ready sid h' ops' <-> rc_recording s3 = true).
    { unfold ready. rewrite (ready_iff _ _ (e_clock _ _ _ Re2)), R3, <- (e_eit _ _ _ Re2), andb_true_iff.
      destruct (rc_new_eit s2); split; intros [A B]; split; auto; congruence. }
    destruct (rc_recording s3) eqn:R3'.
    + destruct (record_loop _ _ _ _ G3 R3' E) as [evs [ok [A [B [D Q]]]]].
      exists (Some ps), evs, ok. split; [eapply R_ready; eauto; tauto|]. split; [rewrite <- A; f_equal; congruence|]. split; [congruence|].
      split; [auto|]. split; [auto|discriminate].
    + specialize (Sm eq_refl). subst s3. assert (Ps2 : rg_ring_pos (rc_ring s2) = start) by congruence.
      destruct (IH _ _ _ _ _ G3 R3' Ps2 Re2 E) as [r [evs [ok [A [B [C [D [Q M]]]]]]]].
      exists r, evs, ok. split; [eapply R_wait; eauto; rewrite Rd; discriminate|]. split; [congruence|]. split; [congruence|].
      split; [auto|]. split; [auto|]. intros N. rewrite M by auto. unfold msgs. rewrite T2. auto.
Qed.

(** ** A run *)
Definition stops (s : rec_state) (b : bool) : Prop := exists ms, msgs s = ms ++ [MStop b].

Lemma recorder_run : forall ops ps n s0 code s, valid_geometry (rco_chunk_size o) (rco_num_chunks o) start ->
  rc_new o ops = Ok s0 ->
  FeedPackets (list_source packet) (recorder o local bytes stage) n ps s0 = Some (Ok (code, s)) ->
  (start <> 0 /\ msgs s = [] /\ code = 1 /\ rc_trace s = [Ring EvSeekFail]) \/
  exists r ok, record sid stage local [] [] ps r /\
    rg_session (rco_chunk_size o) (rco_num_chunks o) start ops (map bytes (recorded r)) = Ok (rc_ring s, calls s, ok) /\
    code = (if ok then 0 else 1) /\
    parse (msgs s) = Some Stopped /\ contiguous (msgs s) /\ answered (rco_chunk_size o * rco_num_chunks o) (rc_trace s) /\
    chunk_positions (msgs s) = match r with
      | Some _ => start :: map (wrap (rco_chunk_size o * rco_num_chunks o)) (announced (calls s))
      | None => [] end /\
    stops s (negb ok) /\ (r = None -> msgs s = [MStart; MStop false] /\ ok = true).
Proof.
  intros ops ps n s0 code s Geo N F. unfold rc_new in N. ib N. rename a into r0. injection N as <-.
  destruct (open_lemma _ _ _ Geo ops) as [rr [evs0 [ok0 [Op [_ [Ok0 [Br Ri]]]]]]].
  pose proof Op as Op'. unfold rg_open in Op. rewrite E in Op. cbn [bind] in Op.
  unfold FeedPackets in F. cbn [sk_start recorder] in F. unfold rc_Start in F.
  assert (Pos : ok0 = true -> rg_ring_pos rr = start).
  { intros ->. destruct (Z.eqb_spec start 0) as [Z0|Z0].
    - injection Op as <- <-. cbn. unfold rg_new in E. repeat (apply assert_ok in E as [_ E]). injection E as <-. auto.
    - unfold rg_SetPosition in Op. repeat (apply assert_ok in Op as [_ Op]). destruct (rg_next _) as [[|] q]; [|discriminate].
      injection Op as <- _. auto. }
  assert (Main : ok0 = true -> forall s1, rc_ring s1 = rr -> calls s1 = evs0 -> msgs s1 = [MStart] -> rel [] [] s1 -> rc_recording s1 = false ->
     rc_started s1 = false -> announced evs0 = [] -> answered (rg_ring_size rr) (rc_trace s1) ->
     match feed_loop (list_source packet) (recorder o local bytes stage) n ps s1 with
     | None => None
     | Some r => Some (let* s2 := r in let* s3 := sk_end (recorder o local bytes stage) s2 in let* code := sk_exit (recorder o local bytes stage) s3 in Ok (code, s3))
     end = Some (Ok (code, s)) ->
     exists r ok, record sid stage local [] [] ps r /\
    rg_session (rco_chunk_size o) (rco_num_chunks o) start ops (map bytes (recorded r)) = Ok (rc_ring s, calls s, ok) /\
    code = (if ok then 0 else 1) /\
    parse (msgs s) = Some Stopped /\ contiguous (msgs s) /\ answered (rco_chunk_size o * rco_num_chunks o) (rc_trace s) /\
    chunk_positions (msgs s) = match r with
      | Some _ => start :: map (wrap (rco_chunk_size o * rco_num_chunks o)) (announced (calls s))
      | None => [] end /\
    stops s (negb ok) /\ (r = None -> msgs s = [MStart; MStop false] /\ ok = true)).
  { intros -> s1 I1 C1 M1 Re R1 St1 An As X.
    destruct (feed_loop _ _ _ _ _) as [[s2|]|] eqn:L; try discriminate. cbn [bind sk_end sk_exit recorder] in X. injection X as <- <-.
    assert (G1 : good start s1).
    { constructor.
      - intros t Et. rewrite (e_eit _ _ _ Re) in Et. discriminate.
      - rewrite R1, M1, C1. auto.
      - rewrite M1. intros a x y z e t p b X. destruct a as [|? [|? ?]]; discriminate.
      - rewrite I1. auto.
      - rewrite R1, M1. auto. }
    destruct (prepare_loop _ _ _ _ _ _ G1 R1 (eq_trans (f_equal rg_ring_pos I1) (Pos eq_refl)) Re L) as [r [evs [ok [A [B [C [D [Q M]]]]]]]].
    exists r, ok. split; [exact A|]. rewrite I1 in B.
    set (sf := rc_put s2 (Msg (MStop (rg_broken (rc_ring s2))))).
    assert (Cf : calls sf = evs0 ++ evs) by (subst sf; rewrite put_calls, C, C1; auto).
    assert (Se : rg_session (rco_chunk_size o) (rco_num_chunks o) start ops (map bytes (recorded r)) = Ok (rc_ring sf, calls sf, ok)).
    { unfold rg_session. rewrite Op'. cbn [bind]. rewrite B. cbn [bind]. rewrite Cf. auto. }
    split; [exact Se|].
    destruct (session_errors _ _ _ _ _ _ _ _ Geo Se) as [_ [_ [X3 [X4 X5]]]].
    assert (Bk : rg_broken (rc_ring s2) = negb ok).
    { change (rc_ring sf) with (rc_ring s2) in *. destruct ok; cbn [negb].
      - destruct (rg_broken (rc_ring s2)); auto.
      - apply (X4 _ _ Op' eq_refl). }
    assert (Sz : rg_ring_size (rc_ring s2) = rco_chunk_size o * rco_num_chunks o).
    { clear -Ri B Geo. assert (Z1 : rg_ring_size rr = rco_chunk_size o * rco_num_chunks o) by (destruct Ri as [Cg _ _]; apply Cg).
      rewrite <- Z1. clear Z1 Ri. revert rr evs B. generalize (map bytes (recorded r)) as l. generalize (rc_ring s2) as rf.
      intros rf l. revert ok. induction l as [|q l IH]; intros ok rr evs B; cbn [rg_feed] in B; [injection B as <- _; auto|].
      ib B. destruct a as [[r1 e1] ok1]. unfold rg_HandlePacket in E. apply loop_size in E. rewrite <- E. destruct ok1.
      - ib B. destruct a as [[r2 e2] ok2]. injection B as -> _ ->. eauto.
      - injection B as -> _ _. auto. }
    assert (Mf : msgs sf = msgs s2 ++ [MStop (negb ok)]) by (subst sf; rewrite put_msgs, Bk; auto).
    destruct D as [D1 D2 D3 D4 D5].
    split. { unfold sf, rg_GetExitCode. cbn [rc_put rc_ring]. rewrite Bk. destruct ok; reflexivity. }
    rewrite Mf.
    split. { rewrite parse_snoc. rewrite Q in D2. destruct r.
      - destruct D2 as [t [e [q [bt [bp [u [_ [_ [_ [_ [_ P]]]]]]]]]]]. rewrite P. destruct (rc_started s2); reflexivity.
      - destruct D2 as [P _]. rewrite P. reflexivity. }
    split. { apply contiguous_snoc; auto; discriminate. }
    split. { rewrite <- Sz. apply answered_snoc; auto; discriminate. }
    split. { rewrite positions_app, D5, Q, Sz. change (chunk_positions [MStop (negb ok)]) with (@nil Z). rewrite app_nil_r.
      destruct r; [|reflexivity]. rewrite Cf, C, C1. reflexivity. }
    split. { exists (msgs s2). exact Mf. }
    intros ->. rewrite M, M1 by auto. cbn [recorded map rg_feed] in B. injection B as _ _ <-. auto. }
  destruct (Z.eqb_spec start 0) as [Z0|Z0].
  - injection Op as <- <- <-. right. cbv beta iota in F. eapply (Main eq_refl (rc_put (rc_init r0) (Msg MStart))); eauto; try reflexivity.
    + destruct (rel_init r0) as [A1 A2 A3 A4 A5 A6]. constructor; auto.
    + intros a p b X. destruct a as [|? [|? ?]]; discriminate.
  - change (rc_ring (rc_init r0)) with (rg_SetObserver r0) in F. rewrite Op in F. cbn [bind] in F.
    assert (Ev : evs0 = if ok0 then [EvSeek start] else [EvSeekFail]).
    { unfold rg_SetPosition in Op. repeat (apply assert_ok in Op as [_ Op]). destruct (rg_next _) as [[|] q]; injection Op as _ <- <-; auto. }
    destruct ok0; subst evs0; cbn [rc_ring_events bind] in F.
    + right. eapply (Main eq_refl (rc_put (rc_set_ring (rc_put (rc_init r0) (Ring (EvSeek start))) rr) (Msg MStart))); eauto; try reflexivity.
      * destruct (rel_init r0) as [A1 A2 A3 A4 A5 A6]. constructor; auto.
      * intros a p b X. destruct a as [|? [|? [|? ?]]]; discriminate.
    + left. injection F as <- <-. auto.
Qed.

End Main.

(** The positions of the chunk messages. *)
Lemma positions_walk : forall o ops packets rg evs ok, valid_geometry (rco_chunk_size o) (rco_num_chunks o) (rco_start_pos o) ->
  rg_session (rco_chunk_size o) (rco_num_chunks o) (rco_start_pos o) ops packets = Ok (rg, evs, ok) ->
  forall k q, znth k (rco_start_pos o :: map (wrap (rco_chunk_size o * rco_num_chunks o)) (announced evs)) = Some q ->
  q = ((rco_start_pos o) + k * rco_chunk_size o) mod (rco_chunk_size o * rco_num_chunks o).
Proof.
  intros o ops packets rg evs ok Geo Se k q E. destruct (znth_range _ _ _ _ E) as [L1 L2].
  destruct (announcements _ _ _ _ _ _ _ _ Geo Se evs [] ltac:(rewrite app_nil_r; auto)) as [_ An].
  destruct Geo as [V1 [V2 [V3 [V4 V5]]]]. set (cs := rco_chunk_size o) in *. set (nc := rco_num_chunks o) in *.
  destruct (Z.eq_dec k 0) as [->|K].
  - cbn in E. injection E as <-. rewrite Z.mul_0_l, Z.add_0_r, Z.mod_small; auto.
  - rewrite znth_cons_pos in E by lia. rewrite znth_map in E. rewrite zlen_cons in L2.
    assert (Lm : zlen (map (wrap (cs * nc)) (announced evs)) = zlen (announced evs)) by (unfold zlen; rewrite map_length; auto).
    rewrite An in E by lia. injection E as <-. unfold chunk_end.
    assert (Hr : 0 < cs * nc) by nia.
    replace ((rco_start_pos o) + k * cs) with ((rco_start_pos o) + (k - 1) * cs + cs) by lia.
    set (x := (rco_start_pos o) + (k - 1) * cs). pose proof (Z.mod_pos_bound x (cs * nc) Hr) as B.
    assert (Rc : (cs * nc) mod cs = 0) by (rewrite Z.mul_comm; apply Z.mod_mul; lia).
    assert (Mx : (x mod (cs * nc)) mod cs = 0).
    { rewrite mod_mod_div by (auto; lia). subst x. rewrite Z.mod_add by lia. auto. }
    assert (Rm : x mod (cs * nc) + cs <= cs * nc) by (apply mult_room; auto; lia).
    rewrite <- (Zplus_mod_idemp_l x cs). set (y := x mod (cs * nc)) in *. clearbody y. unfold wrap.
    destruct (Z.eqb_spec (y + cs) (cs * nc)) as [Y|Y]; [rewrite Y, Z.mod_same; lia|rewrite Z.mod_small; lia].
Qed.

Lemma record_det : forall o local stage h ops ps r, record (rco_sid o) stage local h ops ps r -> forall r', record (rco_sid o) stage local h ops ps r' -> r = r'.
Proof.
  intros o local stage. induction 1 as [h ops|h ops p ps ts h' ops' H N R|h ops p ps ts h' ops' r H N R _ IH]; intros r' Q.
  - inversion Q; auto.
  - inversion Q as [|? ? ? ? ts2 h2 ops2 H2 N2 R2|? ? ? ? ts2 h2 ops2 r2 H2 N2 R2 Q2]; subst; auto.
    rewrite (delivered_det _ _ _ _ _ _ _ H2 H) in N2. rewrite N in N2. injection N2 as <- <-. tauto.
  - inversion Q as [|? ? ? ? ts2 h2 ops2 H2 N2 R2|? ? ? ? ts2 h2 ops2 r2 H2 N2 R2 Q2]; subst.
    + rewrite (delivered_det _ _ _ _ _ _ _ H2 H) in N2. rewrite N in N2. injection N2 as <- <-. tauto.
    + rewrite (delivered_det _ _ _ _ _ _ _ H2 H) in N2. rewrite N in N2. injection N2 as <- <-. auto.
Qed.
