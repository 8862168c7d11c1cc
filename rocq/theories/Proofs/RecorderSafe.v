(** On sound input, record-service runs to its end. *)
From Coq Require Import ZArith Lia List Bool.
From Verif Require Import Proofs.ClockProofs Proofs.RingProofs Proofs.RingMain Proofs.FilterProofs Proofs.TuneProofs Proofs.PcrProofs
  Base.Outcome Base.Util Model.Pcr Model.Clock Model.Sink Model.Ts Model.RingFileSink Model.ServiceRecorder
  Spec.PcrSpec Spec.ClockSpec Spec.FilterSpec Spec.TuneSpec Spec.FileSpec Spec.RecorderSpec Proofs.RecorderProofs Proofs.RecorderMain.
Import ListNotations.
Open Scope Z_scope.

Notation T44 := 17592186044416.
Notation T46 := 70368744177664.
Notation CY := 2576980377600.

Lemma i64_small : forall z, Z.abs z < 2 ^ 62 -> i64 z = Ok z.
Proof. intros z H. apply i64_ok; unfold int64_min, int64_max; lia. Qed.

(** ** The clock *)
Record calm (c : clock) : Prop := mkCalm {
  c_inv : clock_inv c;
  c_time : 0 <= bl_time (ck_baseline c) < T44;
  c_local : Z.abs (ck_local c) < T44;
  c_pcr : 0 <= bl_pcr (ck_baseline c) < CY }.

Definition calm_op (op : clock_op) : Prop :=
  match op with
  | OpPcr p => 0 <= p < CY
  | OpTime t l => 0 <= t < T44 /\ Z.abs l < T44
  | _ => True
  end.

Lemma valid_num : forall p, IsValidPcr p = true <-> 0 <= p < CY.
Proof. intros. rewrite valid_iff. rewrite cycle_val. reflexivity. Qed.

Lemma step_calm : forall c op, calm c -> calm_op op -> exists c', ck_step c op = Ok c' /\ calm c'.
Proof.
  intros c op [I T L P] Ho. assert (V : op_valid op) by (destruct op; cbn in *; rewrite ?cycle_val; tauto).
  destruct (step_inv c op I V) as [c' [E I']]. exists c'. split; [exact E|]. destruct I as [I _]. apply valid_num in I.
  assert (Sync : forall a b, ck_SyncPcr a = Ok b -> 0 <= bl_time (ck_baseline a) < T44 -> Z.abs (ck_local a) < T44 -> 0 <= ck_last_pcr a < CY ->
            0 <= bl_time (ck_baseline b) < T44 /\ Z.abs (ck_local b) < T44 /\ 0 <= bl_pcr (ck_baseline b) < CY).
  { intros a b F A B C. rewrite sync_ok in F by (apply valid_num; auto). injection F as <-. cbn. auto. }
  assert (Acc : forall g b v, ck_accept c v g = Ok b -> 0 <= v < CY ->
            0 <= bl_time (ck_baseline b) < T44 /\ Z.abs (ck_local b) < T44 /\ 0 <= bl_pcr (ck_baseline b) < CY).
  { intros g b v F B. unfold ck_accept in F. destruct (bl_IsReady _); [injection F as <-; cbn; auto|].
    eapply Sync; eauto. }
  cut (0 <= bl_time (ck_baseline c') < T44 /\ Z.abs (ck_local c') < T44 /\ 0 <= bl_pcr (ck_baseline c') < CY).
  { intros [A [B C]]. constructor; auto. }
  destruct op as [pid|t l|v]; cbn [ck_step calm_op] in *.
  - injection E as <-. cbn. auto.
  - destruct Ho as [H1 H2]. unfold ck_UpdateTime in E. cbv zeta in E. destruct (ck_ready _); [eapply Sync in E; eauto|injection E as <-; cbn; auto].
  - unfold ck_UpdatePcr in E. apply assert_ok in E as [_ E]. destruct (ck_IsReady c); [|eauto].
    apply assert_ok in E as [_ E]. destruct (_ <=? _); [|eauto]. cbv zeta in E. destruct (_ <=? _); injection E as <-; cbn; auto.
Qed.

Lemma now_calm : forall c l, calm c -> Z.abs l < T44 -> exists t, ck_Now c l = Ok t /\ Z.abs t < T46.
Proof.
  intros c l [[V _] T L P] Hl. apply valid_num in V. unfold ck_Now.
  assert (Q : forall v, 0 <= v < 2 * CY -> Z.abs (Z.quot (v - bl_pcr (ck_baseline c)) kPcrTicksPerMs) < T44).
  { intros v Hv. change kPcrTicksPerMs with 27000.
    pose proof (Z.quot_rem' (v - bl_pcr (ck_baseline c)) 27000) as E.
    pose proof (Z.rem_bound_abs (v - bl_pcr (ck_baseline c)) 27000 ltac:(lia)) as B. lia. }
  destruct (ck_IsReady c) eqn:R.
  - assert (Rb : bl_IsReady (ck_baseline c) = true) by (unfold ck_IsReady in R; apply andb_true_iff in R; tauto).
    change kPcrUpperBound with CY. unfold bl_PcrToTime, assert. rewrite Rb. destruct (ck_wrap c).
    + destruct (Z.ltb_spec 0 (ck_last_pcr c + CY)); [|lia].
      specialize (Q (ck_last_pcr c + CY) ltac:(lia)). rewrite i64_small by lia. eexists; split; [reflexivity|lia].
    + specialize (Q (ck_last_pcr c) ltac:(lia)). rewrite i64_small by lia. eexists; split; [reflexivity|lia].
  - rewrite i64_small by lia. cbn [bind]. rewrite i64_small by lia. eexists; split; [reflexivity|lia].
Qed.

Lemma conv_ok : forall t, Z.abs t < T46 -> exists u, ConvertJstTimeToUnixTime t = Ok u.
Proof.
  intros t H. unfold ConvertJstTimeToUnixTime. assert (Z.abs UnixEpoch < T46 /\ Z.abs kJstTzOffset < T46) by (vm_compute; auto).
  rewrite i64_small by lia. cbn [bind]. rewrite i64_small by lia. eauto.
Qed.

(** ** The recorder *)
Definition sane_eit (t : eit) : Prop := Forall (fun e => 0 <= ev_start e < T44 /\ 0 <= ev_duration e < 2 ^ 30) (eit_events t).

Record tame (s : rec_state) : Prop := mkTame {
  t_clock : calm (rc_clock s);
  t_new : forall t, rc_new_eit s = Some t -> sane_eit t;
  t_eit : forall t, rc_eit s = Some t -> sane_eit t;
  t_bound : forall bt bp, rc_boundary s = Some (bt, bp) -> Z.abs bt < T46 }.

Lemma end_time : forall t e r, sane_eit t -> eit_events t = e :: r -> exists u, rc_GetEventEndTime e = Ok u /\ Z.abs u < T46.
Proof.
  intros t e r S E. unfold sane_eit in S. rewrite E in S. inversion S as [|? ? [A B] _]; subst. change (2 ^ 30) with 1073741824 in B. unfold rc_GetEventEndTime. change MilliSecPerSec with 1000.
  rewrite i64_small by lia. cbn [bind]. rewrite i64_small by lia. eexists; split; [reflexivity|lia].
Qed.

Section Safe.
Variable o : recorder_option.
Variable local : nat -> Z.
Variable bytes : packet -> list Z.
Variable stage : nat.
Hypothesis local_sane : forall n, Z.abs (local n) < T44.
Notation sid := (rco_sid o).
Notation start := (rco_start_pos o).
Hypothesis geo : valid_geometry (rco_chunk_size o) (rco_num_chunks o) start.


Lemma table_ok : forall s pid t, tame s -> sound_table sid pid (tb_body t) -> exists s', rc_handleTable o local s pid t = Ok s' /\ tame s'.
Proof.
  intros s pid t [C N E B] [Ms So]. unfold rc_handleTable. destruct (tb_body t) as [b| |b|b|b| | |]; try (eexists; split; [reflexivity|constructor; auto]).
  - unfold rc_HandlePat. unfold missing, usable_pat in Ms. unfold PID_PAT. destruct b as [b|]; [|destruct (negb _); (eexists; split; [reflexivity|constructor; auto])].
    destruct (pid =? 0); cbn [negb andb] in *; [|eexists; split; [reflexivity|constructor; auto]].
    destruct (pat_tsid b =? 0); cbn [negb andb] in *; [eexists; split; [reflexivity|constructor; auto]|].
    rewrite pmts_find. destruct (pmt_pid_of sid b); [|discriminate]. eexists; split; [reflexivity|constructor; auto].
  - unfold rc_HandlePmt. destruct b as [b|]; [|eexists; split; [reflexivity|constructor; auto]].
    destruct (negb _); [eexists; split; [reflexivity|constructor; auto]|].
    assert (Cs : forall pid, calm (ck_SetPid (rc_clock s) pid)).
    { intros q. destruct (step_calm _ (OpSetPid q) C I) as [c' [X Y]]. injection X as <-. auto. }
    destruct (negb _); [eexists; split; [reflexivity|constructor; auto; apply Cs]|].
    destruct (negb _); (eexists; split; [reflexivity|constructor; auto; apply Cs]).
  - unfold rc_HandleEit. destruct b as [b|]; [|eexists; split; [reflexivity|constructor; auto]].
    destruct (negb _); [eexists; split; [reflexivity|constructor; auto]|].
    destruct (eit_events b) as [|e r] eqn:Ev; [eexists; split; [reflexivity|constructor; auto]|].
    assert (Sb : sane_eit b) by (unfold sane_eit; rewrite Ev; exact So).
    destruct (end_time b e r Sb Ev) as [u [U _]]. rewrite U.
    assert (X : exists z, (if rc_IsUnspecifiedEventEndTime e then Ok 0 else Ok u) = Ok z) by (destruct (rc_IsUnspecifiedEventEndTime e); eauto).
    destruct X as [z ->]. cbn [bind]. eexists; split; [reflexivity|]. constructor; auto. cbn. intros t0 [= <-]. auto.
  - unfold rc_HandleTot. destruct b as [b|]; [|eexists; split; [reflexivity|constructor; auto]].
    destruct (step_calm _ (OpTime b (local (rc_reads s))) C (conj So (local_sane _))) as [c' [X Y]]. cbn [ck_step] in X. rewrite X. cbn [bind].
    eexists; split; [reflexivity|constructor; auto].
Qed.

Lemma tables_ok : forall ts s pid, tame s -> (forall t, In t ts -> sound_table sid pid (tb_body t)) ->
  exists s', handle_tables (rc_handleTable o local) s pid ts = Ok s' /\ tame s'.
Proof.
  induction ts as [|t ts IH]; intros s pid T H; cbn [handle_tables]; [eauto|].
  destruct (table_ok s pid t T (H _ (or_introl eq_refl))) as [s1 [E T1]]. rewrite E. cbn [bind]. apply IH; auto. intros; apply H; right; auto.
Qed.

Lemma clock_ok : forall s p, tame s -> sound_packet sid stage p -> exists s', rc_feed_clock s p = Ok s' /\ tame s'.
Proof.
  intros s p [C N E B] [Hp _]. unfold rc_feed_clock. destruct (_ && _); [|eexists; split; [reflexivity|constructor; auto]].
  destruct (p_pcr p) as [v|]; [|eexists; split; [reflexivity|constructor; auto]].
  destruct (step_calm _ (OpPcr v) C (Hp _ eq_refl)) as [c' [X Y]]. cbn [ck_step] in X. rewrite X. cbn [bind].
  eexists; split; [reflexivity|constructor; auto].
Qed.

Lemma now_ok : forall s, tame s -> exists s' now, rc_Now local s = Ok (s', now) /\ Z.abs now < T46 /\ tame s'.
Proof.
  intros s [C N E B]. destruct (now_calm _ (local (rc_reads s)) C (local_sane _)) as [t [X Y]]. unfold rc_Now. rewrite X. cbn [bind].
  do 2 eexists. split; [reflexivity|]. split; [auto|constructor; auto].
Qed.

Lemma put_tame : forall s e, tame s -> tame (rc_put s e).
Proof. intros s e [C N E B]. constructor; auto. Qed.

Lemma send_ok : forall s k t e r time pos, tame s -> eit_events t = e :: r -> Z.abs time < T46 ->
  exists s', rc_SendEventMessage s k t time pos = Ok s' /\ tame s' /\ rc_boundary s' = rc_boundary s.
Proof.
  intros s k t e r time pos T E H. unfold rc_SendEventMessage, rc_GetEvent. rewrite E. cbn [bind]. destruct (conv_ok _ H) as [u ->]. cbn [bind].
  eexists. split; [reflexivity|]. split; [apply put_tame; auto|auto].
Qed.

Lemma boundary_ok : forall s k t e r bt bp, tame s -> eit_events t = e :: r -> rc_boundary s = Some (bt, bp) ->
  exists s', rc_SendBoundaryMessage s k t = Ok s' /\ tame s' /\ rc_boundary s' = rc_boundary s.
Proof.
  intros s k t e r bt bp T E H. unfold rc_SendBoundaryMessage. rewrite H. rewrite <- H. eapply send_ok; eauto. apply (t_bound _ T _ _ H).
Qed.

Lemma chunk_ok : forall s time pos, tame s -> Z.abs time < T46 -> exists s', rc_SendChunkMessage s time pos = Ok s' /\ tame s' /\ rc_ring s' = rc_ring s.
Proof.
  intros s time pos T H. unfold rc_SendChunkMessage. destruct (conv_ok _ H) as [u ->]. cbn [bind]. eexists. split; [reflexivity|]. split; [apply put_tame|]; auto.
Qed.

Lemma ring_events_ok : forall evs s, good start s -> rc_recording s = true -> tame s ->
  exists s', rc_ring_events local s evs = Ok s' /\ tame s'.
Proof.
  induction evs as [|e evs IH]; intros s G R T; cbn [rc_ring_events]; [eauto|].
  assert (X : exists s2, match e with EvNotify pos => rc_OnEndOfChunk local (rc_put s (Ring e)) pos | _ => Ok (rc_put s (Ring e)) end = Ok s2 /\ tame s2).
  { destruct e; try (eexists; split; [reflexivity|apply put_tame; auto]).
    unfold rc_OnEndOfChunk. destruct (now_ok (rc_put s (Ring (EvNotify pos))) (put_tame _ _ T)) as [s1 [now [N [B T1]]]]. rewrite N. cbn [bind].
    destruct (now_same _ _ _ _ N) as [[N1 [N2 [N3 [N4 [N5 N6]]]]] N7]. cbn [rc_put rc_started rc_eit] in *. rewrite N4, N2.
    destruct G as [_ G2 _ _ _]. rewrite R in G2. destruct G2 as [t [e [r [bt [bp [u [H1 [H2 _]]]]]]]].
    destruct (rc_started s).
    - rewrite H1. edestruct (send_ok s1 KUpdate t e r now) as [s2 [S2 [T2 _]]]; eauto. rewrite S2. cbn [bind].
      edestruct (chunk_ok s2 now) as [s3 [S3 [T3 _]]]; eauto.
    - cbn [bind]. edestruct (chunk_ok s1 now) as [s3 [S3 [T3 _]]]; eauto. }
  destruct X as [s2 [E2 T2]]. rewrite E2. cbn [bind].
  assert (Y : rc_ring_events local s [e] = Ok s2) by (cbn [rc_ring_events]; rewrite E2; reflexivity).
  destruct (ring_events_good _ _ _ _ _ G R Y) as [G2 [_ [R2 _]]]. auto.
Qed.

Lemma events_ok : forall s, good start s -> rc_recording s = true -> tame s -> exists s', rc_events local s = Ok s' /\ tame s'.
Proof.
  intros s G R T. unfold rc_events. destruct (now_ok s T) as [s1 [now [N [B T1]]]]. rewrite N. cbn [bind].
  destruct (now_same _ _ _ _ N) as [[N1 [N2 [N3 [N4 [N5 N6]]]]] N7].
  destruct G as [G1 G2 _ _ _]. rewrite R in G2. destruct G2 as [t [e [r [bt [bp [u [H1 [H2 [H3 [H4 _]]]]]]]]]].
  rewrite N2, H1, N7. clear N.
  assert (St : forall x b, tame x -> tame (rc_set_started x b)) by (intros x b [? ? ? ?]; constructor; auto).
  assert (Up : forall x time pos, tame x -> Z.abs time < T46 -> tame (rc_UpdateEventBoundary x time pos)).
  { intros x time pos [? ? ? ?] H. constructor; auto. cbn. intros ? ? [= <- _]. auto. }
  assert (Fin : forall x t e r, eit_events t = e :: r -> sane_eit t -> tame x ->
     exists s', (if rc_IsUnspecifiedEventEndTime e then Ok x
       else let* end_time := rc_GetEventEndTime e in
            if end_time <=? now then
              let s3 := rc_UpdateEventBoundary x end_time (rg_ring_pos (rc_ring x)) in
              let* s4 := rc_SendBoundaryMessage s3 KEnd t in Ok (rc_set_started s4 false)
            else Ok x) = Ok s' /\ tame s').
  { clear -St Up. intros x t e r E S T. destruct (rc_IsUnspecifiedEventEndTime e); [eauto|]. destruct (end_time _ _ _ S E) as [et [-> Be]]. cbn [bind].
    destruct (et <=? now); [|eauto]. cbv zeta.
    edestruct (boundary_ok (rc_UpdateEventBoundary x et (rg_ring_pos (rc_ring x))) KEnd t e r) as [s4 [S4 [T4 _]]]; [apply Up; auto|eauto|reflexivity|].
    rewrite S4. cbn [bind]. eauto. }
  pose proof (t_eit _ T _ H1) as Se.
  destruct (rc_new_eit s) as [new|] eqn:Nw.
  - pose proof (t_new _ T _ Nw) as Sn. specialize (G1 _ eq_refl). destruct (eit_events new) as [|e2 r2] eqn:Ev2; [congruence|].
    unfold rc_GetEvent at 1. rewrite H2. cbn [bind]. unfold rc_GetEvent at 1. rewrite Ev2. cbn [bind].
    set (s2 := rc_set_eit s1 (Some new) None).
    assert (T2 : tame s2).
    { destruct T1 as [? ? ? ?]. constructor; auto; cbn; [discriminate|]. intros ? [= <-]. auto. }
    destruct (ev_id e =? ev_id e2); cbn [negb]; destruct (rc_started s2).
    + unfold rc_GetEvent. rewrite Ev2. cbn [bind]. eapply Fin; eauto.
    + eauto.
    + cbv zeta. edestruct (boundary_ok (rc_UpdateEventBoundary s2 now (rg_ring_pos (rc_ring s2))) KEnd t e r) as [s4 [S4 [T4 B4]]]; [apply Up; auto|eauto|reflexivity|].
      rewrite S4. cbn [bind]. edestruct (boundary_ok s4 KStart new e2 r2) as [s5 [S5 [T5 _]]]; [auto|eauto|rewrite B4; reflexivity|eauto].
    + edestruct (boundary_ok s2 KStart new e2 r2) as [s5 [S5 [T5 _]]]; [auto|eauto|cbn; rewrite N1; eauto|]. rewrite S5. cbn [bind]. eauto.
  - cbn [bind]. destruct (rc_started s1); [|eauto]. unfold rc_GetEvent. rewrite H2. cbn [bind]. eapply Fin; eauto.
Qed.

Lemma preparing_ok : forall s S, good start s -> rc_recording s = false -> rg_ring_pos (rc_ring s) = start ->
  rinv (rco_chunk_size o) (rco_num_chunks o) start (rc_ring s) (calls s) S false -> tame s ->
  exists s', rc_OnPreparing o local s = Ok (s', true) /\ tame s'.
Proof.
  intros s S G R Ps Ri T. unfold rc_OnPreparing. destruct (ck_IsReady (rc_clock s)); [|eauto]. destruct (rc_new_eit s) as [t|] eqn:Nw; [|eauto].
  pose proof (t_new _ T _ Nw) as Sn. pose proof (g_new _ _ G _ Nw) as Ne. destruct (eit_events t) as [|e r] eqn:Ev; [congruence|].
  set (s1 := rc_set_recording (rc_set_eit s (Some t) None)).
  assert (T1 : tame s1). { destruct T as [? ? ? ?]. constructor; auto; cbn; [discriminate|]. intros ? [= <-]. auto. }
  destruct (now_ok s1 T1) as [s2 [now [N [B T2]]]]. rewrite N. cbn [bind].
  destruct (now_same _ _ _ _ N) as [[N1 [N2 [N3 [N4 [N5 N6]]]]] N7]. change (rc_ring s1) with (rc_ring s) in N5. rewrite N5, Ps.
  assert (Sz : rg_ring_size (rc_ring s) = rco_chunk_size o * rco_num_chunks o) by (destruct Ri as [Cg _ _]; apply Cg). rewrite Sz.
  destruct geo as [V1 [V2 [V3 [V4 V5]]]]. unfold assert.
  destruct (Z.ltb_spec start (rco_chunk_size o * rco_num_chunks o)); [|lia]. rewrite V5. cbn [Z.eqb].
  destruct (chunk_ok s2 now start T2 B) as [s3 [S3 [T3 _]]]. rewrite S3. cbn [bind].
  set (s4 := rc_UpdateEventBoundary s3 now start).
  assert (T4 : tame s4). { destruct T3 as [? ? ? ?]. constructor; auto. cbn. intros ? ? [= <- _]. auto. }
  assert (St : forall x b, tame x -> tame (rc_set_started x b)) by (intros x b [? ? ? ?]; constructor; auto).
  unfold rc_GetEvent. rewrite Ev. cbn [bind].
  edestruct (boundary_ok s4 KStart t e r) as [s5 [S5 [T5 _]]]; [auto|eauto|reflexivity|]. rewrite S5. cbn [bind].
  destruct (rc_IsUnspecifiedEventEndTime e); [eauto|]. destruct (end_time _ _ _ Sn Ev) as [et [-> _]]. cbn [bind]. destruct (now <? et); eauto.
Qed.

Lemma packet_ok : forall s p S, good start s -> (rc_recording s = false -> rg_ring_pos (rc_ring s) = start) ->
  rinv (rco_chunk_size o) (rco_num_chunks o) start (rc_ring s) (calls s) S false -> tame s -> sound_packet sid stage p ->
  exists s' ok, rc_HandlePacket o local bytes stage s p = Ok (s', ok) /\ good start s' /\ tame s' /\
    (ok = true -> (rc_recording s' = false -> rg_ring_pos (rc_ring s') = start) /\
       exists S', rinv (rco_chunk_size o) (rco_num_chunks o) start (rc_ring s') (calls s') S' false).
Proof.
  intros s p S G Ps Ri T So. unfold rc_HandlePacket. destruct (clock_ok _ _ T So) as [s1 [E1 T1]].
  destruct (tables_ok (demux_feed (rc_demux s1) stage p) s1 (p_pid p) T1) as [s2 [E2 T2]].
  { intros t It. apply So. unfold demux_feed in It. destruct (zmem _ _); [auto|destruct It]. }
  assert (Pr : (let* s1 := rc_feed_clock s p in handle_tables (rc_handleTable o local) s1 (p_pid p) (demux_feed (rc_demux s1) stage p)) = Ok s2)
    by (rewrite E1; exact E2).
  destruct (prefix_good _ _ _ _ _ _ G Pr) as [G2 [_ [_ [R2 [_ [I2 Tr2]]]]]].
  assert (C2 : calls s2 = calls s) by (unfold calls; rewrite Tr2; auto).
  rewrite E1. cbn [bind]. rewrite E2. cbn [bind]. rewrite <- I2, <- C2 in Ri. rewrite <- R2 in Ps.
  destruct (rc_recording s2) eqn:R.
  - destruct (events_ok _ G2 R T2) as [s3 [E3 T3]]. destruct (events_good _ _ _ _ G2 R E3) as [G3 [I3 [C3 [R3 _]]]].
    unfold rc_OnRecording. rewrite E3. cbn [bind]. rewrite I3.
    destruct (handle_lemma _ _ _ geo (bytes p) _ _ _ Ri) as [r' [evs [ok [E4 [_ X]]]]]. rewrite E4. cbn [bind].
    destruct (ring_events_ok evs _ G3 R3 T3) as [s5 [E5 T5]]. rewrite E5. cbn [bind].
    assert (On : rc_OnRecording local bytes s2 p = Ok (rc_set_ring s5 r', ok)).
    { unfold rc_OnRecording. rewrite E3. cbn [bind]. rewrite I3, E4. cbn [bind]. rewrite E5. reflexivity. }
    destruct (recording_good _ _ _ _ _ _ _ G2 R On) as [evs' [E4' [C6 [G6 R6]]]]. rewrite E4 in E4'. injection E4' as <-.
    do 2 eexists. split; [reflexivity|]. split; [exact G6|]. split; [destruct T5 as [? ? ? ?]; constructor; auto|].
    intros ->. split; [intros Y; rewrite R6 in Y; discriminate|]. rewrite C6. exists (S ++ bytes p). exact X.
  - assert (Ps2 : rg_ring_pos (rc_ring s2) = start) by (rewrite I2; auto).
    destruct (preparing_ok _ _ G2 R Ps2 Ri T2) as [s3 [E3 T3]]. rewrite E3.
    destruct (preparing_good _ _ _ _ _ _ G2 R Ps2 E3) as [G3 [_ [I3 [C3 _]]]].
    do 2 eexists. split; [reflexivity|]. split; [auto|]. split; [auto|]. intros _. split; [congruence|]. exists S. congruence.
Qed.

Lemma loop_ok : forall ps n s S, good start s -> (rc_recording s = false -> rg_ring_pos (rc_ring s) = start) ->
  rinv (rco_chunk_size o) (rco_num_chunks o) start (rc_ring s) (calls s) S false -> tame s -> Forall (sound_packet sid stage) ps ->
  (List.length ps < n)%nat ->
  exists s', feed_loop (list_source packet) (recorder o local bytes stage) n ps s = Some (Ok s').
Proof.
  induction ps as [|p ps IH]; intros n s S G Ps Ri T So L; (destruct n as [|n]; [cbn in L; lia|]); cbn [feed_loop list_source sr_next]; [eauto|].
  inversion So as [|? ? S1 S2]; subst. destruct (packet_ok _ p _ G Ps Ri T S1) as [s' [ok [E [G' [T' X]]]]].
  cbn [sk_handle recorder]. rewrite E. destruct ok; [|eauto]. destruct (X eq_refl) as [Ps' [S' Ri']].
  eapply IH; eauto. cbn in L. lia.
Qed.

Lemma run_safe : forall ops ps n, Forall (sound_packet sid stage) ps -> (List.length ps < n)%nat ->
  exists s0 code s, rc_new o ops = Ok s0 /\
    FeedPackets (list_source packet) (recorder o local bytes stage) n ps s0 = Some (Ok (code, s)).
Proof.
  intros ops ps n So L. destruct (open_lemma _ _ _ geo ops) as [rr [evs0 [ok0 [Op [_ [_ [_ Ri]]]]]]].
  pose proof Op as Op'. unfold rg_open in Op. unfold rc_new. destruct (rg_new _ _ ops) as [r0|] eqn:E; [|discriminate]. cbn [bind] in *.
  assert (Pos : ok0 = true -> rg_ring_pos rr = start).
  { intros ->. destruct (Z.eqb_spec start 0) as [Z0|Z0].
    - injection Op as <- <-. cbn. unfold rg_new in E. repeat (apply assert_ok in E as [_ E]). injection E as <-. auto.
    - unfold rg_SetPosition in Op. repeat (apply assert_ok in Op as [_ Op]). destruct (rg_next _) as [[|] q]; [|discriminate].
      injection Op as <- _. auto. }
  exists (rc_init r0).
  assert (Ci : calm clock_init) by (constructor; [apply clock_inv_init|cbn; lia..]).
  assert (Main : ok0 = true -> forall s1, rc_ring s1 = rr -> calls s1 = evs0 -> msgs s1 = [MStart] -> rc_recording s1 = false ->
     rc_started s1 = false -> rc_clock s1 = clock_init -> rc_new_eit s1 = None -> rc_eit s1 = None -> rc_boundary s1 = None -> announced evs0 = [] -> answered (rg_ring_size rr) (rc_trace s1) ->
     exists s', feed_loop (list_source packet) (recorder o local bytes stage) n ps s1 = Some (Ok s')).
  { intros -> s1 I1 C1 M1 R1 St1 Ck Ne Ee Be An As. eapply loop_ok with (S := []); eauto.
    - constructor.
      + rewrite Ne. discriminate.
      + rewrite R1, M1, C1. auto.
      + rewrite M1. intros a x y z e t p b X. destruct a as [|? [|? ?]]; discriminate.
      + rewrite I1. auto.
      + rewrite R1, M1. auto.
    - rewrite I1. auto.
    - rewrite I1, C1. auto.
    - constructor; [rewrite Ck; auto|rewrite Ne; discriminate|rewrite Ee; discriminate|rewrite Be; discriminate]. }
  unfold FeedPackets. cbn [sk_start recorder]. unfold rc_Start. destruct (Z.eqb_spec start 0) as [Z0|Z0].
  - injection Op as <- <- <-. destruct (Main eq_refl (rc_put (rc_init r0) (Msg MStart))) as [s' E']; try reflexivity.
    { intros a p b X. destruct a as [|? [|? ?]]; discriminate. }
    rewrite E'. cbn. do 2 eexists. split; reflexivity.
  - change (rc_ring (rc_init r0)) with (rg_SetObserver r0). rewrite Op. cbn [bind].
    assert (Ev : evs0 = if ok0 then [EvSeek start] else [EvSeekFail]).
    { unfold rg_SetPosition in Op. repeat (apply assert_ok in Op as [_ Op]). destruct (rg_next _) as [[|] q]; injection Op as _ <- <-; auto. }
    destruct ok0; subst evs0; cbn [rc_ring_events bind].
    + destruct (Main eq_refl (rc_put (rc_set_ring (rc_put (rc_init r0) (Ring (EvSeek start))) rr) (Msg MStart))) as [s' E']; try reflexivity.
      { intros a p b X. destruct a as [|? [|? [|? ?]]]; discriminate. }
      rewrite E'. cbn. do 2 eexists. split; reflexivity.
    + do 2 eexists. split; reflexivity.
Qed.
End Safe.
