(** The messages of the recorder are the journal. *)
From Coq Require Import ZArith Lia List Bool.
From Verif Require Import Proofs.ClockProofs Proofs.RingProofs Proofs.RingMain Proofs.FilterProofs Proofs.TuneProofs Proofs.PcrProofs
  Base.Outcome Base.Util Model.Pcr Model.Clock Model.Sink Model.Ts Model.RingFileSink Model.ServiceRecorder
  Spec.PcrSpec Spec.ClockSpec Spec.FilterSpec Spec.TuneSpec Spec.FileSpec Spec.RecorderSpec Spec.JournalSpec
  Proofs.RecorderProofs Proofs.RecorderMain.
Import ListNotations.
Open Scope Z_scope.

Lemma latest_app : forall A B (f : A -> option B) a b,
  latest f (a ++ b) = match latest f a with Some v => Some v | None => latest f b end.
Proof. induction a as [|x a IH]; intros b; cbn; auto. destruct (f x); auto. Qed.

(** ** The ring *)
Section RingStep.
Variables cs nc start : Z.
Hypothesis Geo : valid_geometry cs nc start.
Notation rsize := (cs * nc).
Notation rinv := (rinv cs nc start).

Lemma rinv_pos : forall r t S, rinv r t S false ->
  rg_ring_pos r = (start + zlen S) mod rsize /\ zlen (announced t) = zlen S / cs /\ rg_ring_size r = rsize.
Proof.
  intros r t S [[C1 C2 C3] Hb [w [y [p [n [Hc [HS [Hw [Hbuf [Hp [Hpos [Hch Hcb]]]]]]]]]]]].
  destruct (geo cs nc start Geo) as [Hcs [Hring [Hst [G1 [G2 [G3 [G4 G5]]]]]]].
  pose proof (canon_file cs rsize start (mkFile (fun _ => 0) 0 0 (fun _ => 0) (fun _ => false)) Hcs Hring eq_refl _ _ _ _ _ Hc) as Hi.
  pose proof (zlen_nonneg _ (rg_buf r)) as Hb0. pose proof (zlen_nonneg _ w) as Hw0.
  rewrite HS, zlen_app. rewrite Hch in Hcb. split; [|split; [|auto]].
  - rewrite Hpos, Z.add_assoc. symmetry. apply mod_fwd; auto.
    pose proof (block_room cs nc start Geo _ Hw) as Hroom. lia.
  - rewrite (fi_n _ _ _ _ _ _ _ _ _ _ Hi). pose proof (chunk_room cs nc start Geo _ _ Hw Hcb) as Hroom.
    apply Z.div_unique with (zlen w + zlen (rg_buf r) - n * cs); lia.
Qed.

Lemma ring_step : forall r t S data r' evs ok, rinv r t S false -> zlen data = 188 -> rg_HandlePacket r data = Ok (r', evs, ok) ->
  (ok = true -> rinv r' (t ++ evs) (S ++ data) false) /\ rg_ring_size r' = rsize /\ rg_broken r' = negb ok /\
  ((announced evs = [] /\ (ok = true -> (zlen S + 188) / cs = zlen S / cs)) \/
   exists q, announced evs = [q] /\ (zlen S + 188) / cs <> zlen S / cs /\
     wrap rsize q = (start + cs * ((zlen S + 188) / cs)) mod rsize).
Proof.
  intros r t S data r' evs ok I L E.
  destruct (geo cs nc start Geo) as [Hcs [Hring [Hst [G1 [G2 [G3 [G4 G5]]]]]]].
  destruct (handle_lemma cs nc start Geo data r t S I) as [r2 [evs2 [ok2 [E2 [_ H]]]]]. rewrite E in E2. injection E2 as <- <- <-.
  pose proof (rinv_pos _ _ _ I) as [_ [N0 Sz]].
  split; [intros ->; auto|]. split; [unfold rg_HandlePacket in E; apply loop_size in E; congruence|].
  split; [destruct ok; [apply H|apply H]|].
  assert (C8 : 8192 <= cs). { pose proof (Z.div_mod cs 8192 ltac:(lia)). assert (0 < cs / 8192) by lia. lia. }
  pose proof (zlen_nonneg _ S) as S0.
  assert (St : (zlen S + 188) / cs = zlen S / cs \/ (zlen S + 188) / cs = zlen S / cs + 1).
  { pose proof (Z.div_mod (zlen S) cs ltac:(lia)) as D. pose proof (Z.mod_pos_bound (zlen S) cs ltac:(lia)) as B.
    destruct (Z.lt_ge_cases (zlen S mod cs + 188) cs) as [Q|Q].
    - left. symmetry. apply Z.div_unique with (zlen S mod cs + 188); lia.
    - right. symmetry. apply Z.div_unique with (zlen S mod cs + 188 - cs); lia. }
  (* the announcements so far *)
  assert (X : exists w y p n, canon cs rsize start (t ++ evs) w y p n /\ zlen (announced evs) = n - zlen S / cs /\
     zlen S / cs <= n <= (zlen S + 188) / cs /\ (ok = true -> n = (zlen S + 188) / cs)).
  { destruct ok.
    - pose proof (rinv_pos _ _ _ H) as [_ [N1 _]]. rewrite zlen_app, L in N1. destruct H as [_ _ [w [y [p [n [Hc [HS _]]]]]]].
      exists w, y, p, n. split; [auto|].
      pose proof (canon_file cs rsize start (mkFile (fun _ => 0) 0 0 (fun _ => 0) (fun _ => false)) Hcs Hring eq_refl _ _ _ _ _ Hc) as Hi.
      rewrite (fi_n _ _ _ _ _ _ _ _ _ _ Hi) in N1. pose proof (fi_n _ _ _ _ _ _ _ _ _ _ Hi) as N2.
      rewrite announced_app, zlen_app in N2. pose proof (zlen_nonneg _ (announced evs)). lia.
    - destruct H as [[_ [w [y [p [n [Hc [c Hw]]]]]]] _]. exists w, y, p, n. split; [auto|].
      pose proof (canon_file cs rsize start (mkFile (fun _ => 0) 0 0 (fun _ => 0) (fun _ => false)) Hcs Hring eq_refl _ _ _ _ _ Hc) as Hi.
      pose proof (fi_n _ _ _ _ _ _ _ _ _ _ Hi) as N2. pose proof (fi_ny _ _ _ _ _ _ _ _ _ _ Hi) as N3. pose proof (fi_y _ _ _ _ _ _ _ _ _ _ Hi) as N4.
      rewrite announced_app, zlen_app in N2. pose proof (zlen_nonneg _ (announced evs)).
      assert (Lw : zlen w + zlen c = zlen S + 188) by (rewrite <- L, <- !zlen_app; congruence). pose proof (zlen_nonneg _ c).
      split; [lia|]. split; [|discriminate]. split; [lia|]. apply Z.div_le_lower_bound; lia. }
  destruct X as [w [y [p [n [Hc [La [Bn Hok]]]]]]].
  pose proof (canon_file cs rsize start (mkFile (fun _ => 0) 0 0 (fun _ => 0) (fun _ => false)) Hcs Hring eq_refl _ _ _ _ _ Hc) as Hi.
  destruct (announced evs) as [|q [|q2 rest]] eqn:Ea.
  - left. split; [auto|]. intros O. rewrite zlen_nil in La. specialize (Hok O). lia.
  - right. exists q. split; [auto|]. rewrite zlen_cons, zlen_nil in La. split; [lia|].
    pose proof (fi_ann _ _ _ _ _ _ _ _ _ _ Hi (zlen S / cs) ltac:(pose proof (Z.div_pos (zlen S) cs ltac:(lia) ltac:(lia)); lia)) as A.
    rewrite announced_app, Ea in A. rewrite znth_app_r in A by lia. rewrite N0, Z.sub_diag in A. cbn in A. injection A as ->.
    destruct St as [St|St]; [lia|]. rewrite St. set (k := zlen S / cs) in *. unfold chunk_end.
    replace (start + cs * (k + 1)) with (start + k * cs + cs) by lia. set (x := start + k * cs).
    pose proof (Z.mod_pos_bound x rsize Hring) as B.
    assert (Rc : rsize mod cs = 0) by (rewrite Z.mul_comm; apply Z.mod_mul; lia).
    assert (Mx : (x mod rsize) mod cs = 0) by (rewrite mod_mod_div by (auto; lia); subst x; rewrite Z.mod_add by lia; auto).
    assert (Rm : x mod rsize + cs <= rsize) by (apply mult_room; auto; lia).
    rewrite <- (Zplus_mod_idemp_l x cs). set (y0 := x mod rsize) in *. clearbody y0. unfold wrap.
    destruct (Z.eqb_spec (y0 + cs) rsize) as [Y|Y]; [rewrite Y, Z.mod_same; lia|rewrite Z.mod_small; lia].
  - exfalso. rewrite !zlen_cons in La. pose proof (zlen_nonneg _ rest). lia.
Qed.
End RingStep.

(** ** Times *)
Lemma stamp_ok : forall t u, ConvertJstTimeToUnixTime t = Ok u -> u = stamp t.
Proof.
  intros t u E. unfold ConvertJstTimeToUnixTime in E. ib E. apply i64_inv in E0 as [-> _]. apply i64_inv in E as [-> _].
  unfold stamp. change UnixEpoch with (40587 * 86400000). change kJstTzOffset with (9 * 3600000). reflexivity.
Qed.

Lemma ends_ok : forall e r t z, eit_events t = e :: r -> rc_IsUnspecifiedEventEndTime e = false -> rc_GetEventEndTime e = Ok z -> ends_at t = Some z.
Proof.
  intros e r t z Ev U E. unfold ends_at, present. rewrite Ev. cbn [hd_error]. unfold rc_IsUnspecifiedEventEndTime in U. apply Z.leb_gt in U.
  destruct (Z.ltb_spec 0 (ev_duration e)); [|lia]. unfold rc_GetEventEndTime in E. ib E. apply i64_inv in E0 as [-> _]. apply i64_inv in E as [-> _].
  unfold MilliSecPerSec. f_equal. lia.
Qed.
Lemma ends_none : forall e r t, eit_events t = e :: r -> rc_IsUnspecifiedEventEndTime e = true -> ends_at t = None.
Proof.
  intros e r t Ev U. unfold ends_at, present. rewrite Ev. cbn [hd_error]. unfold rc_IsUnspecifiedEventEndTime in U. apply Z.leb_le in U.
  destruct (Z.ltb_spec 0 (ev_duration e)); [lia|auto].
Qed.

Lemma send_ok : forall s k t e r time pos s', eit_events t = e :: r -> rc_SendEventMessage s k t time pos = Ok s' ->
  about k t time pos = [MEvent k (eit_onid t) (eit_tsid t) (eit_sid t) e (stamp time) pos] /\
  s' = rc_put s (Msg (MEvent k (eit_onid t) (eit_tsid t) (eit_sid t) e (stamp time) pos)).
Proof.
  intros s k t e r time pos s' Ev E. unfold rc_SendEventMessage, rc_GetEvent in E. rewrite Ev in E. cbn [bind] in E. ib E. injection E as <-.
  rewrite (stamp_ok _ _ E0). unfold about, present. rewrite Ev. auto.
Qed.

(** ** Tables *)
Section Journal.
Variable o : recorder_option.
Variable local : nat -> Z.
Variable bytes : packet -> list Z.
Variable stage : nat.
Notation sid := (rco_sid o).
Notation start := (rco_start_pos o).
Notation cs := (rco_chunk_size o).
Notation rsize := (rco_chunk_size o * rco_num_chunks o).

Record brel (h : history) (n : nat) (ops : list clock_op) (s : rec_state) : Prop := mkBrel {
  b_demux : forall pid, In pid (rc_demux s) <-> tuned [0; 0x12; 0x14] sid h pid;
  b_pmt : rc_pmt_pid s = pmt_pid_now sid h;
  b_clock : ck_run clock_init ops = Ok (rc_clock s);
  b_pid : bl_pid (ck_baseline (rc_clock s)) = clock_pid sid h;
  b_reads : rc_reads s = n }.

Lemma brel_mute : forall h n ops s x, brel h n ops s -> listing sid x = None -> service_pmt sid x = None -> brel (x :: h) n ops s.
Proof.
  intros h n ops s x [R1 R2 R3 R4 R5] L P. constructor; auto.
  - intros pid. rewrite tuned_mute; auto.
  - rewrite R2. unfold pmt_pid_now. cbn [latest]. rewrite L. auto.
  - rewrite R4. unfold clock_pid. cbn [latest]. rewrite P. auto.
Qed.

Definition fresh (x : Z * body) (e : option eit) : option eit := match service_eit sid x with Some t => Some t | None => e end.

Lemma brel_table : forall h n ops s pid t s', brel h n ops s -> rc_handleTable o local s pid t = Ok s' ->
  let x := (pid, tb_body t) in let l := clock_call sid local h n x in
  brel (x :: h) (n + List.length (filter is_time l)) (ops ++ l) s' /\ rc_new_eit s' = fresh x (rc_new_eit s).
Proof.
  intros h n ops s pid t s' R E. cbv zeta. unfold rc_handleTable in E. unfold clock_call, fresh, service_pmt, service_eit, snd.
  destruct (tb_body t) as [b| |b|b|b| | |]; try (injection E as <-; rewrite app_nil_r, Nat.add_0_r; split; [apply brel_mute; auto; reflexivity|auto]).
  - rewrite app_nil_r, Nat.add_0_r. unfold rc_HandlePat in E. unfold PID_PAT in E.
    destruct b as [b|]; [|destruct (negb _); injection E as <-; (split; [apply brel_mute; auto|auto])].
    destruct (Z.eqb_spec pid 0) as [->|Np]; cbn [negb] in E.
    2: { injection E as <-. split; [|auto]. apply brel_mute; auto. unfold listing, usable_pat. destruct (Z.eqb_spec pid 0); [congruence|auto]. }
    destruct (pat_tsid b =? 0) eqn:T0.
    { injection E as <-. split; [|auto]. apply brel_mute; auto. unfold listing, usable_pat. rewrite T0. auto. }
    destruct (mfind sid (pat_pmts b)) as [np|] eqn:F; [|discriminate]. injection E as <-. split; [|auto].
    assert (L : listing sid (0, TPat (Some b)) = Some (b, np)).
    { unfold listing, usable_pat. rewrite T0. cbn. rewrite pmts_find in F. rewrite F. auto. }
    destruct R as [R1 R2 R3 R4 R5]. constructor; cbn [rc_demux rc_pmt_pid rc_clock rc_reads rc_new_eit]; auto.
    + intros q. rewrite R2. apply (tuned_listing _ _ _ _ _ _ _ L R1).
    + unfold pmt_pid_now. cbn [latest]. rewrite L. auto.
  - unfold rc_HandlePmt in E. destruct b as [b|]; [|injection E as <-; rewrite app_nil_r, Nat.add_0_r; split; [apply brel_mute; auto|auto]].
    destruct (pmt_sid b =? sid) eqn:Es; cbn [negb] in E.
    2: { injection E as <-. rewrite app_nil_r, Nat.add_0_r. split; [|auto]. apply brel_mute; auto. unfold service_pmt. cbn. rewrite Es. auto. }
    destruct R as [R1 R2 R3 R4 R5]. unfold bl_HasPid in E. rewrite R4 in E. change PID_NULL with 0x1FFF in E.
    assert (CP : clock_pid sid ((pid, TPmt (Some b)) :: h) = pmt_pcr_pid b).
    { unfold clock_pid. cbn [latest]. unfold service_pmt at 1. cbn [snd]. rewrite Es. auto. }
    assert (G : forall s2 ops2, rc_demux s2 = rc_demux s -> rc_pmt_pid s2 = rc_pmt_pid s -> rc_reads s2 = rc_reads s ->
              ck_run clock_init (ops ++ ops2) = Ok (rc_clock s2) -> filter is_time ops2 = [] -> bl_pid (ck_baseline (rc_clock s2)) = pmt_pcr_pid b ->
              brel ((pid, TPmt (Some b)) :: h) (n + List.length (filter is_time ops2)) (ops ++ ops2) s2).
    { intros s2 ops2 H1 H2 H3 H5 H6 H7. rewrite H6, Nat.add_0_r. constructor; auto.
      - intros q. rewrite H1, R1. symmetry. apply tuned_mute. reflexivity.
      - rewrite H2, R2. reflexivity.
      - congruence.
      - congruence. }
    assert (G1 : brel ((pid, TPmt (Some b)) :: h) (n + 0) (ops ++ [OpSetPid (pmt_pcr_pid b)]) (rc_set_clock s (ck_SetPid (rc_clock s) (pmt_pcr_pid b)))).
    { apply (G (rc_set_clock s (ck_SetPid (rc_clock s) (pmt_pcr_pid b))) [OpSetPid (pmt_pcr_pid b)]); auto. rewrite run_snoc, R3. auto. }
    destruct (clock_pid sid h =? 0x1FFF) eqn:C1; cbn [negb orb] in *; [injection E as <-; auto|].
    destruct (Z.eqb_spec (clock_pid sid h) (pmt_pcr_pid b)) as [C2|C2]; cbn [negb orb] in *; [|injection E as <-; auto].
    injection E as <-. split; [|auto]. apply G; auto; [rewrite app_nil_r; auto|congruence].
  - unfold rc_HandleEit in E. rewrite app_nil_r, Nat.add_0_r.
    destruct b as [b|]; [|injection E as <-; split; [apply brel_mute; auto|auto]].
    destruct (eit_sid b =? sid) eqn:Es; cbn [negb] in E; [|injection E as <-; split; [apply brel_mute; auto|auto]].
    destruct (eit_events b) as [|e r] eqn:Ev; [injection E as <-; split; [apply brel_mute; auto|auto]|].
    ib E. injection E as <-. split; [|auto]. apply brel_mute; [|reflexivity|reflexivity].
    destruct R as [R1 R2 R3 R4 R5]. constructor; auto.
  - unfold rc_HandleTot in E. destruct b as [b|]; [|injection E as <-; rewrite app_nil_r, Nat.add_0_r; split; [apply brel_mute; auto|auto]].
    ib E. injection E as <-. split; [|auto]. destruct R as [R1 R2 R3 R4 R5].
    constructor; cbn [rc_set_clock rc_count_read rc_demux rc_pmt_pid rc_clock rc_reads rc_new_eit]; auto.
    + intros q. rewrite R1. symmetry. apply tuned_mute. reflexivity.
    + rewrite run_snoc, R3. cbn [bind ck_step]. rewrite <- R5. auto.
    + rewrite (step_pid _ (OpTime b (local (rc_reads s))) _ E0). rewrite R4. reflexivity.
    + cbn. rewrite R5. lia.
Qed.

Lemma brel_tables : forall ts h n ops s pid s', brel h n ops s -> handle_tables (rc_handleTable o local) s pid ts = Ok s' ->
  let l := rev (map (fun t => (pid, tb_body t)) ts) in
  exists n' ops', heed sid local h n ops pid ts = (l ++ h, n', ops') /\ brel (l ++ h) n' ops' s' /\
    rc_new_eit s' = match latest (service_eit sid) l with Some t => Some t | None => rc_new_eit s end.
Proof.
  induction ts as [|t ts IH]; intros h n ops s pid s' R E; cbv zeta; cbn [handle_tables heed map rev] in *; [injection E as <-; eauto 6|].
  ib E. destruct (brel_table _ _ _ _ _ _ _ R E0) as [R1 N1]. destruct (IH _ _ _ _ _ _ R1 E) as [n' [ops' [H1 [H2 H3]]]].
  exists n', ops'. rewrite <- app_assoc. cbn [app]. split; [exact H1|]. split; [exact H2|].
  rewrite H3, N1, latest_app. cbn [latest]. unfold fresh. destruct (latest _ (rev _)); auto. destruct (service_eit sid (pid, tb_body t)); auto.
Qed.

Lemma brel_clock : forall h n ops s p s', brel h n ops s -> rc_feed_clock s p = Ok s' -> brel h n (ops ++ clock_packet sid h p) s'.
Proof.
  intros h n ops s p s' R E. pose proof (clock_same s p s' E) as [_ [N1 [N2 [N3 N4]]]]. destruct R as [R1 R2 R3 R4 R5].
  unfold rc_feed_clock, bl_HasPid in E. unfold clock_packet. rewrite R4 in E. change PID_NULL with 0x1FFF in E.
  destruct (_ && _); [|injection E as <-; rewrite app_nil_r; constructor; auto].
  destruct (p_pcr p) as [v|]; [|injection E as <-; rewrite app_nil_r; constructor; auto].
  ib E. injection E as <-. constructor; cbn [rc_set_clock rc_demux rc_pmt_pid rc_clock rc_reads rc_new_eit]; auto.
  - rewrite run_snoc, R3. auto.
  - rewrite (step_pid _ (OpPcr v) _ E0). auto.
Qed.

(** The first half of a packet. *)
Lemma after_ok : forall h n ops s p s2, brel h n ops s ->
  (let* s1 := rc_feed_clock s p in handle_tables (rc_handleTable o local) s1 (p_pid p) (demux_feed (rc_demux s1) stage p)) = Ok s2 ->
  exists ts h' n' ops', after sid stage local h n ops p ts h' n' ops' /\ brel h' n' ops' s2 /\ same s s2 /\
    h' = rev (map (fun t => (p_pid p, tb_body t)) ts) ++ h /\
    rc_new_eit s2 = match news sid p ts with Some t => Some t | None => rc_new_eit s end.
Proof.
  intros h n ops s p s2 R E. ib E. destruct (clock_same _ _ _ E0) as [S1 [N1 _]]. destruct (tables_same _ _ _ _ _ _ E) as [S2 _].
  pose proof (brel_clock _ _ _ _ _ _ R E0) as R1. destruct (brel_tables _ _ _ _ _ _ _ R1 E) as [n' [ops' [H1 [H2 H3]]]].
  do 4 eexists. split; [split; [apply delivered_feed, R1|exact H1]|]. split; [exact H2|]. split; [eapply same_trans; eauto|].
  split; [auto|]. rewrite H3, N1. auto.
Qed.

(** ** What the messages leave alone *)
Definition keeps (s s' : rec_state) : Prop :=
  rc_demux s' = rc_demux s /\ rc_clock s' = rc_clock s /\ rc_pmt_pid s' = rc_pmt_pid s /\ rc_recording s' = rc_recording s /\ rc_ring s' = rc_ring s.

Lemma brel_keeps : forall h n ops s s', brel h n ops s -> keeps s s' -> brel h (rc_reads s') ops s'.
Proof. intros h n ops s s' [R1 R2 R3 R4 R5] [K1 [K2 [K3 [K4 K5]]]]. constructor; rewrite ?K1, ?K2, ?K3; auto. Qed.

Lemma now_ok : forall h n ops s s1 now, brel h n ops s -> rc_Now local s = Ok (s1, now) -> tells ops (local n) now /\ s1 = rc_count_read s.
Proof. intros h n ops s s1 now R E. unfold rc_Now in E. ib E. injection E as <- <-. split; [|auto]. exists (rc_clock s). destruct R; subst. auto. Qed.

Record drel (d : desk) (s : rec_state) : Prop := mkDrel {
  d_some : rc_eit s = Some (d_eit d);
  d_present : eit_events (d_eit d) <> [];
  d_started : rc_started s = d_running d;
  d_bound : rc_boundary s = Some (d_since d);
  d_rec : rc_recording s = true }.

Ltac fin := cbn [rc_put rc_set_eit rc_set_started rc_UpdateEventBoundary rc_count_read rc_demux rc_clock rc_pmt_pid rc_recording rc_ring rc_reads
  rc_eit rc_new_eit rc_started rc_boundary rc_trace d_eit d_running d_since fst snd] in *.

Lemma events_ok : forall h n ops d s s', brel h n ops s -> drel d s -> (forall t, rc_new_eit s = Some t -> eit_events t <> []) ->
  rc_events local s = Ok s' ->
  exists now ms d', tells ops (local n) now /\ turn d (rc_new_eit s) now (rg_ring_pos (rc_ring s)) = (ms, d') /\
    msgs s' = msgs s ++ ms /\ brel h (S n) ops s' /\ drel d' s' /\ rc_new_eit s' = None /\ rc_ring s' = rc_ring s.
Proof.
  intros h n ops d s s' B [D1 D2 D3 D4 D5] Nw E. unfold rc_events in E. ib E. destruct a as [s1 now].
  destruct (now_ok _ _ _ _ _ _ B E0) as [T ->]. exists now. clear E0. fin. rewrite D1 in E.
  destruct d as [t run [bt bp]]. fin. destruct (eit_events t) as [|e r] eqn:Ev; [congruence|]. clear D2.
  set (pos := rg_ring_pos (rc_ring s)) in *.
  assert (Cut : forall ms d', turn (mkDesk t run (bt, bp)) (rc_new_eit s) now pos = (ms, d') -> msgs s' = msgs s ++ ms -> keeps s s' ->
     rc_reads s' = S n -> drel d' s' -> rc_new_eit s' = None ->
     exists ms d', tells ops (local n) now /\ turn (mkDesk t run (bt, bp)) (rc_new_eit s) now pos = (ms, d') /\
       msgs s' = msgs s ++ ms /\ brel h (S n) ops s' /\ drel d' s' /\ rc_new_eit s' = None /\ rc_ring s' = rc_ring s).
  { intros ms d' X1 X2 X3 X4 X5 X6. exists ms, d'. split; [auto|]. split; [auto|]. split; [auto|].
    split; [rewrite <- X4; eapply brel_keeps; eauto|]. split; [auto|]. split; [auto|]. apply X3. }
  assert (Rd : rc_reads s = n) by apply B.
  (* when the event does not change *)
  assert (Same : forall x e2 r2 sx, eit_events x = e2 :: r2 -> other_event t x = false ->
     match rc_new_eit s with Some y => y | None => t end = x ->
     keeps s sx -> rc_reads sx = S n -> rc_trace sx = rc_trace s -> rc_eit sx = Some x -> rc_new_eit sx = None -> rc_started sx = run -> rc_boundary sx = Some (bt, bp) ->
     (if rc_started sx then
        let* e := rc_GetEvent x in
        if rc_IsUnspecifiedEventEndTime e then Ok sx
        else
          let* end_time := rc_GetEventEndTime e in
          if end_time <=? now then
            let s3 := rc_UpdateEventBoundary sx end_time (rg_ring_pos (rc_ring sx)) in
            let* s4 := rc_SendBoundaryMessage s3 KEnd x in
            Ok (rc_set_started s4 false)
          else Ok sx
      else Ok sx) = Ok s' ->
     exists ms d', tells ops (local n) now /\ turn (mkDesk t run (bt, bp)) (rc_new_eit s) now pos = (ms, d') /\
       msgs s' = msgs s ++ ms /\ brel h (S n) ops s' /\ drel d' s' /\ rc_new_eit s' = None /\ rc_ring s' = rc_ring s).
  { intros x e2 r2 sx Ex Ot Ey K X1 X2 X3 X4 X5 X6 F. unfold turn in Cut. fin. rewrite Ey, Ot in Cut. rewrite X5 in F.
    unfold turn. fin. rewrite Ey, Ot.
    assert (Kr : rc_recording sx = true) by (destruct K as [_ [_ [_ [K4 _]]]]; congruence).
    destruct run.
    2: { injection F as <-. eapply Cut; auto; [unfold msgs; rewrite X2, app_nil_r; auto|]. constructor; fin; auto. congruence. }
    unfold rc_GetEvent in F. rewrite Ex in F. cbn [bind] in F. destruct (rc_IsUnspecifiedEventEndTime e2) eqn:U.
    { rewrite (ends_none _ _ _ Ex U) in *. injection F as <-. eapply Cut; auto; [unfold msgs; rewrite X2, app_nil_r; auto|]. constructor; fin; auto. congruence. }
    ib F. rewrite (ends_ok _ _ _ _ Ex U E0) in *. destruct (a <=? now).
    2: { injection F as <-. eapply Cut; auto; [unfold msgs; rewrite X2, app_nil_r; auto|]. constructor; fin; auto. congruence. }
    ib F. injection F as <-. unfold rc_SendBoundaryMessage in E1. fin. destruct (send_ok _ _ _ _ _ _ _ _ Ex E1) as [Ab ->].
    destruct K as [K1 [K2 [K3 [K4 K5]]]]. rewrite K5 in *. fold pos in Ab |- *. fold pos in Cut.
    eapply Cut; auto.
    - change (msgs (rc_put (rc_UpdateEventBoundary sx a pos) (Msg (MEvent KEnd (eit_onid x) (eit_tsid x) (eit_sid x) e2 (stamp a) pos))) = msgs s ++ about KEnd x a pos).
      rewrite put_msgs, Ab. f_equal. unfold msgs. cbn. congruence.
    - repeat split; auto.
    - constructor; fin; auto. congruence. }
  destruct (rc_new_eit s) as [new|] eqn:Ne.
  - specialize (Nw _ eq_refl). destruct (eit_events new) as [|e2 r2] eqn:Ev2; [congruence|].
    unfold rc_GetEvent in E at 1. rewrite Ev in E. cbn [bind] in E. unfold rc_GetEvent in E at 1. rewrite Ev2 in E. cbn [bind] in E.
    assert (Oe : other_event t new = negb (ev_id e =? ev_id e2)) by (unfold other_event, present; rewrite Ev, Ev2; auto).
    destruct (ev_id e =? ev_id e2) eqn:Eid; cbn [negb] in *.
    + eapply (Same new e2 r2 (rc_set_eit (rc_count_read s) (Some new) None)); auto; try reflexivity; [repeat split|cbn; congruence].
    + cbn [bind] in E. fin. rewrite D3 in E. destruct run.
      * ib E. unfold rc_SendBoundaryMessage in E0, E. fin. fold pos in E0. destruct (send_ok _ _ _ _ _ _ _ _ Ev E0) as [Ab ->]. fin. fold pos in E.
        destruct (send_ok _ _ _ _ _ _ _ _ Ev2 E) as [Ab2 ->].
        eapply Cut; [unfold turn; fin; rewrite Oe; reflexivity| | | | |]; fin; auto.
        -- rewrite !put_msgs, Ab, Ab2, <- app_assoc. reflexivity.
        -- repeat split.
        -- constructor; fin; auto. congruence.
      * ib E. injection E as <-. unfold rc_SendBoundaryMessage in E0. fin. rewrite D4 in E0. destruct (send_ok _ _ _ _ _ _ _ _ Ev2 E0) as [Ab ->].
        eapply Cut; [unfold turn; fin; rewrite Oe; reflexivity| | | | |]; fin; auto.
        -- rewrite Ab. match goal with |- msgs (rc_set_started ?a _) = _ => change (msgs a = msgs s ++ [MEvent KStart (eit_onid new) (eit_tsid new) (eit_sid new) e2 (stamp bt) bp]) end.
           rewrite put_msgs. reflexivity.
        -- repeat split.
        -- constructor; fin; auto. congruence.
  - cbn [bind] in E.
    eapply (Same t e r (rc_count_read s)); auto; try reflexivity.
    + unfold other_event, present. rewrite Ev. cbn. rewrite Z.eqb_refl. auto.
    + repeat split.
    + cbn. congruence.
Qed.

(** ** The calls of the ring *)
Lemma ring_quiet : forall evs s s', rc_ring_events local s evs = Ok s' -> announced evs = [] ->
  msgs s' = msgs s /\ keeps s s' /\ rc_reads s' = rc_reads s /\ rc_eit s' = rc_eit s /\ rc_started s' = rc_started s /\ rc_boundary s' = rc_boundary s /\ rc_new_eit s' = rc_new_eit s.
Proof.
  induction evs as [|e evs IH]; intros s s' E A; cbn [rc_ring_events] in E.
  - injection E as <-. repeat split.
  - ib E. assert (a = rc_put s (Ring e) /\ announced evs = []) as [-> A'] by (destruct e; cbn in A; try discriminate; injection E0 as <-; auto).
    destruct (IH _ _ E A') as [H1 [[K1 [K2 [K3 [K4 K5]]]] [H3 [H4 [H5 [H6 H7]]]]]]. fin.
    split; [rewrite H1; unfold msgs; cbn; rewrite messages_app; cbn; apply app_nil_r|]. repeat split; auto.
Qed.

Lemma ring_chunk : forall evs s s' h n ops d q, rc_ring_events local s evs = Ok s' -> announced evs = [q] -> brel h n ops s -> drel d s ->
  exists now, tells ops (local n) now /\
    msgs s' = msgs s ++ (if d_running d then about KUpdate (d_eit d) now (wrap (rg_ring_size (rc_ring s)) q) else [])
      ++ [MChunk (stamp now) (wrap (rg_ring_size (rc_ring s)) q)] /\
    brel h (S n) ops s' /\ drel d s' /\ rc_new_eit s' = rc_new_eit s /\ rc_ring s' = rc_ring s.
Proof.
  induction evs as [|e evs IH]; intros s s' h n ops d q E A B D; cbn [rc_ring_events] in E; [discriminate|]. ib E.
  destruct (match e with EvNotify _ => true | _ => false end) eqn:En.
  - destruct e as [| | | | | | | |p]; try discriminate. cbn in A. injection A as <- A'.
    destruct (ring_quiet _ _ _ E A') as [H1 [[K1 [K2 [K3 [K4 K5]]]] [H3 [H4 [H5 [H6 H7]]]]]].
    unfold rc_OnEndOfChunk in E0. ib E0. destruct a0 as [s1 now].
    assert (B1 : brel h n ops (rc_put s (Ring (EvNotify p)))) by (destruct B; constructor; auto).
    destruct (now_ok _ _ _ _ _ _ B1 E1) as [T ->]. exists now. split; [auto|]. clear E1. fin.
    fold (wrap (rg_ring_size (rc_ring s)) p) in E0. set (pos := wrap (rg_ring_size (rc_ring s)) p) in *.
    destruct D as [D1 D2 D3 D4 D5]. rewrite D3, D1 in E0. ib E0. unfold rc_SendChunkMessage in E0. ib E0. injection E0 as <-.
    rewrite (stamp_ok _ _ E2) in *. fin.
    assert (X : rc_demux a0 = rc_demux s /\ rc_clock a0 = rc_clock s /\ rc_pmt_pid a0 = rc_pmt_pid s /\ rc_recording a0 = rc_recording s /\
              rc_ring a0 = rc_ring s /\ rc_reads a0 = S n /\ rc_eit a0 = rc_eit s /\ rc_started a0 = rc_started s /\ rc_boundary a0 = rc_boundary s /\
              rc_new_eit a0 = rc_new_eit s /\ msgs a0 = msgs s ++ (if d_running d then about KUpdate (d_eit d) now pos else [])).
    { assert (Rd : rc_reads s = n) by apply B. destruct (d_running d).
      - destruct (eit_events (d_eit d)) as [|e0 r0] eqn:Ev; [congruence|]. destruct (send_ok _ _ _ _ _ _ _ _ Ev E1) as [Ab ->]. fin.
        rewrite Ab, put_msgs. repeat split; auto.
        unfold msgs. cbn. rewrite messages_app. cbn. rewrite app_nil_r. auto.
      - injection E1 as <-. fin. rewrite app_nil_r. repeat split; auto.
        unfold msgs. cbn. rewrite messages_app. cbn. rewrite app_nil_r. auto. }
    destruct X as [X1 [X2 [X3 [X4 [X5 [X6 [X7 [X8 [X9 [X10 X11]]]]]]]]]].
    split; [rewrite H1, put_msgs, X11, <- app_assoc; auto|].
    destruct B as [R1 R2 R3 R4 R5]. split; [constructor; rewrite ?K1, ?K2, ?K3, ?X1, ?X2, ?X3; auto; congruence|].
    split; [constructor; auto; congruence|]. split; congruence.
  - assert (a = rc_put s (Ring e) /\ announced evs = [q]) as [-> A'] by (destruct e; cbn in A; try discriminate; injection E0 as <-; auto).
    assert (B1 : brel h n ops (rc_put s (Ring e))) by (destruct B; constructor; auto).
    assert (D1 : drel d (rc_put s (Ring e))) by (destruct D; constructor; auto).
    destruct (IH _ _ _ _ _ _ _ E A' B1 D1) as [now [T [M [X1 [X2 [X3 X4]]]]]]. exists now. fin.
    split; [auto|]. split; [|auto]. rewrite M. f_equal. unfold msgs. cbn. rewrite messages_app. cbn. apply app_nil_r.
Qed.

(** ** Runs *)
Hypothesis Geo : valid_geometry (rco_chunk_size o) (rco_num_chunks o) start.
Hypothesis Len : forall p, zlen (bytes p) = 188.
Notation rinv := (rinv (rco_chunk_size o) (rco_num_chunks o) start).
Notation recording := (recording sid stage local bytes cs rsize start).
Notation waiting := (waiting sid stage local bytes cs rsize start).

Lemma service_eit_events : forall x t, service_eit sid x = Some t -> eit_events t <> [].
Proof.
  intros [pid b] t E. unfold service_eit in E. cbn [snd] in E. destruct b as [b| |b|[b|]|b| | |]; try discriminate.
  destruct (_ =? _); [|discriminate]. destruct (eit_events b) eqn:Ev; [discriminate|]. injection E as <-. congruence.
Qed.
Lemma latest_events : forall h t, latest (service_eit sid) h = Some t -> eit_events t <> [].
Proof. induction h as [|x h IH]; intros t E; cbn in E; [discriminate|]. destruct (service_eit sid x) eqn:F; [injection E as <-; eapply service_eit_events; eauto|auto]. Qed.

Lemma recording_loop : forall ps f h n ops d t S s s', brel h n ops s -> drel d s -> rc_new_eit s = None -> rinv (rc_ring s) t S false ->
  feed_loop (list_source packet) (recorder o local bytes stage) f ps s = Some (Ok s') ->
  exists ms ok, recording h n ops d (zlen S) ps ms ok /\ msgs s' = msgs s ++ ms /\ rg_broken (rc_ring s') = negb ok.
Proof.
  induction ps as [|p ps IH]; intros f h n ops d t S s s' B D Nn Ri E; (destruct f as [|f]; [discriminate|]); cbn [feed_loop list_source sr_next] in E.
  - injection E as <-. exists [], true. split; [constructor|]. rewrite app_nil_r. split; [auto|]. apply Ri.
  - cbn [sk_handle recorder] in E. destruct (rc_HandlePacket o local bytes stage s p) as [[s4 b]|] eqn:H; [|discriminate].
    unfold rc_HandlePacket in H. ib H. ib H. rename a0 into s1.
    assert (Pr : (let* s1 := rc_feed_clock s p in handle_tables (rc_handleTable o local) s1 (p_pid p) (demux_feed (rc_demux s1) stage p)) = Ok s1)
      by (rewrite E0; exact E1). clear E0 E1.
    destruct (after_ok _ _ _ _ _ _ B Pr) as [ts [h' [n' [ops' [Af [B1 [[M1 [M2 [M3 [M4 [M5 M6]]]]] [_ N1]]]]]]]].
    rewrite Nn in N1. assert (N1' : rc_new_eit s1 = news sid p ts) by (destruct (news sid p ts); auto). clear N1.
    assert (D1 : drel d s1) by (destruct D; constructor; congruence).
    rewrite (d_rec _ _ D1) in H. unfold rc_OnRecording in H. ib H. rename a0 into s2.
    destruct (events_ok _ _ _ _ _ _ B1 D1 ltac:(rewrite N1'; intros; eapply latest_events; eauto) E0) as [now [ms [d' [T [Tu [Ms [B2 [D2 [Nn2 Rg]]]]]]]]].
    clear E0. rewrite N1', M5 in Tu. rewrite M5 in Rg. destruct (rinv_pos _ _ _ Geo _ _ _ Ri) as [Ps [_ Sz]]. rewrite Ps in Tu.
    ib H. destruct a0 as [[r evs] ok]. rewrite Rg in E0. ib H. injection H as <- <-. rename a0 into s3.
    destruct (ring_step _ _ _ Geo _ _ _ _ _ _ _ Ri (Len p) E0) as [Ri' [Sz' [Br An]]].
    assert (Ms0 : msgs s1 = msgs s) by (unfold msgs; rewrite M6; auto). rewrite Ms0 in Ms.
    assert (LS : zlen (S ++ bytes p) = zlen S + zlen (bytes p)) by apply zlen_app.
    destruct An as [[An Dv]|[q [An [Dv Wq]]]].
    + destruct (ring_quiet _ _ _ E1 An) as [Q1 [K [Q3 [Q4 [Q5 [Q6 Q7]]]]]].
      destruct ok.
      * assert (B3 : brel h' (Datatypes.S n') ops' (rc_set_ring s3 r)).
        { destruct B2 as [a1 a2 a3 a4 a5]. destruct K as [K1 [K2 [K3 [K4 K5]]]]. constructor; cbn [rc_set_ring rc_demux rc_clock rc_pmt_pid rc_reads]; rewrite ?K1, ?K2, ?K3; auto. congruence. }
        assert (D3 : drel d' (rc_set_ring s3 r)).
        { destruct D2 as [a1 a2 a3 a4 a5]. destruct K as [K1 [K2 [K3 [K4 K5]]]]. constructor; cbn [rc_set_ring rc_eit rc_started rc_boundary rc_recording]; congruence. }
        destruct (IH _ _ _ _ _ _ _ _ _ B3 D3 (eq_trans Q7 Nn2) (Ri' eq_refl) E) as [ms' [ok' [X1 [X2 X3]]]].
        exists (ms ++ ms'), ok'. split; [|split; [rewrite X2; change (msgs (rc_set_ring s3 r)) with (msgs s3); rewrite Q1, Ms, app_assoc; auto|auto]].
        rewrite LS in X1. eapply J_packet; eauto. rewrite Len. auto.
      * injection E as <-. exists ms, false. split; [eapply J_refused; eauto|]. split; [change (msgs (rc_set_ring s3 r)) with (msgs s3); congruence|exact Br].
    + destruct (ring_chunk _ _ _ _ _ _ _ _ E1 An B2 D2) as [now2 [T2 [Q1 [B3 [D3 [Q4 Q5]]]]]].
      rewrite Rg, Sz, Wq in Q1. rewrite Nn2 in Q4.
      assert (Q1' : msgs s3 = msgs s ++ ms ++ chunk_messages cs rsize start d' now2 (zlen S + zlen (bytes p))).
      { rewrite Q1, Ms, <- app_assoc. unfold chunk_messages. rewrite Len. reflexivity. }
      destruct ok.
      * assert (B4 : brel h' (Datatypes.S (Datatypes.S n')) ops' (rc_set_ring s3 r)) by (destruct B3; constructor; auto).
        assert (D4 : drel d' (rc_set_ring s3 r)) by (destruct D3; constructor; auto).
        destruct (IH _ _ _ _ _ _ _ _ _ B4 D4 Q4 (Ri' eq_refl) E) as [ms' [ok' [X1 [X2 X3]]]].
        exists (ms ++ chunk_messages cs rsize start d' now2 (zlen S + zlen (bytes p)) ++ ms'), ok'.
        split; [|split; [rewrite X2; change (msgs (rc_set_ring s3 r)) with (msgs s3); rewrite Q1', <- !app_assoc; auto|auto]].
        rewrite LS in X1. eapply J_chunk; eauto. rewrite Len. auto.
      * injection E as <-. exists (ms ++ chunk_messages cs rsize start d' now2 (zlen S + zlen (bytes p))), false.
        split; [eapply J_chunk_refused; eauto; rewrite Len; auto|]. split; [change (msgs (rc_set_ring s3 r)) with (msgs s3); auto|exact Br].
Qed.

Lemma waiting_loop : forall ps f h n ops t s s', brel h n ops s -> rc_recording s = false -> rc_new_eit s = latest (service_eit sid) h ->
  rinv (rc_ring s) t [] false ->
  feed_loop (list_source packet) (recorder o local bytes stage) f ps s = Some (Ok s') ->
  exists ms ok, waiting h n ops ps ms ok /\ msgs s' = msgs s ++ ms /\ rg_broken (rc_ring s') = negb ok.
Proof.
  induction ps as [|p ps IH]; intros f h n ops t s s' B R Nn Ri E; (destruct f as [|f]; [discriminate|]); cbn [feed_loop list_source sr_next] in E.
  - injection E as <-. exists [], true. split; [constructor|]. rewrite app_nil_r. split; [auto|]. apply Ri.
  - cbn [sk_handle recorder] in E. destruct (rc_HandlePacket o local bytes stage s p) as [[s4 b]|] eqn:H; [|discriminate].
    unfold rc_HandlePacket in H. ib H. ib H. rename a0 into s1.
    assert (Pr : (let* s1 := rc_feed_clock s p in handle_tables (rc_handleTable o local) s1 (p_pid p) (demux_feed (rc_demux s1) stage p)) = Ok s1)
      by (rewrite E0; exact E1). clear E0 E1.
    destruct (after_ok _ _ _ _ _ _ B Pr) as [ts [h' [n' [ops' [Af [B1 [[M1 [M2 [M3 [M4 [M5 M6]]]]] [Hh N1]]]]]]]].
    assert (N2 : rc_new_eit s1 = latest (service_eit sid) h').
    { rewrite N1, Nn, Hh, latest_app. reflexivity. }
    rewrite M3, R in H. unfold rc_OnPreparing in H.
    assert (Ms0 : msgs s1 = msgs s) by (unfold msgs; rewrite M6; auto).
    assert (Rd : ready sid h' ops' <-> ck_IsReady (rc_clock s1) = true /\ rc_new_eit s1 <> None).
    { unfold ready. rewrite (ready_iff _ _ (b_clock _ _ _ _ B1)), N2. tauto. }
    assert (Wait : ~ ready sid h' ops' -> Ok (s1, true) = Ok (s4, b) -> exists ms ok, waiting h n ops (p :: ps) ms ok /\ msgs s' = msgs s ++ ms /\ rg_broken (rc_ring s') = negb ok).
    { intros Nr X. injection X as <- <-. rewrite <- M5 in Ri. destruct (IH _ _ _ _ _ _ _ B1 (eq_trans M3 R) N2 Ri E) as [ms [ok [X1 [X2 X3]]]].
      exists ms, ok. split; [eapply W_wait; eauto|]. split; [congruence|auto]. }
    destruct (ck_IsReady (rc_clock s1)) eqn:Rdy; [|apply Wait; auto; rewrite Rd; intros [? _]; congruence].
    destruct (rc_new_eit s1) as [x|] eqn:Nx; [|apply Wait; auto; rewrite Rd; intros [_ ?]; congruence].
    clear Wait. symmetry in N2.
    assert (Ne : eit_events x <> []) by (eapply latest_events; eauto). destruct (eit_events x) as [|e r] eqn:Ev; [congruence|]. clear Ne.
    ib H. destruct a0 as [s2 now].
    assert (B1' : brel h' n' ops' (rc_set_recording (rc_set_eit s1 (Some x) None))) by (destruct B1; constructor; auto).
    destruct (now_ok _ _ _ _ _ _ B1' E0) as [T ->]. clear E0. cbn [rc_set_recording rc_set_eit rc_count_read rc_ring rc_boundary] in H.
    destruct (rinv_pos _ _ _ Geo _ _ _ Ri) as [Ps [_ Sz]]. rewrite zlen_nil, Z.add_0_r in Ps.
    rewrite Z.mod_small in Ps by (destruct Geo as [_ [_ [_ [? _]]]]; auto). rewrite M5, Ps in H.
    apply assert_ok in H as [_ H]. apply assert_ok in H as [_ H]. ib H. unfold rc_SendChunkMessage in E0. ib E0. injection E0 as <-.
    rewrite (stamp_ok _ _ E1) in H. clear E1. unfold rc_GetEvent in H. rewrite Ev in H. cbn [bind] in H.
    set (s3 := rc_put (rc_count_read (rc_set_recording (rc_set_eit s1 (Some x) None))) (Msg (MChunk (stamp now) start))) in *.
    set (s3' := rc_UpdateEventBoundary s3 now start) in *.
    assert (B3 : brel h' (S n') ops' s3') by (destruct B1 as [c1 c2 c3 c4 c5]; constructor; auto; cbn; congruence).
    assert (Ms3 : msgs s3' = msgs s ++ [MChunk (stamp now) start]).
    { change (msgs s3') with (msgs s3). unfold s3. rewrite put_msgs. f_equal. rewrite <- Ms0. reflexivity. }
    assert (Go : forall run s5, s4 = rc_set_started s5 run -> b = true -> over x now = negb run ->
       (s5 = s3' /\ run = false \/ rc_SendBoundaryMessage s3' KStart x = Ok s5 /\ run = true) ->
       exists ms ok, waiting h n ops (p :: ps) ms ok /\ msgs s' = msgs s ++ ms /\ rg_broken (rc_ring s') = negb ok).
    { intros run s5 -> -> Ov Cs. assert (X : brel h' (S n') ops' s5 /\ rc_eit s5 = Some x /\ rc_boundary s5 = Some (now, start) /\ rc_recording s5 = true /\
          rc_new_eit s5 = None /\ rc_ring s5 = rc_ring s /\ msgs s5 = msgs s3' ++ (if over x now then [] else about KStart x now start)).
      { destruct Cs as [[-> ->]|[Sd ->]]; rewrite Ov; cbn [negb].
        - rewrite app_nil_r. auto 8.
        - unfold rc_SendBoundaryMessage in Sd. change (rc_boundary s3') with (Some (now, start)) in Sd. cbv iota beta in Sd.
          destruct (send_ok _ _ _ _ _ _ _ _ Ev Sd) as [Ab ->]. rewrite Ab, put_msgs. split; [destruct B3; constructor; auto|]. auto 8. }
      destruct X as [X1 [X2 [X3 [X4 [X5 [X6 X7]]]]]].
      assert (B5 : brel h' (S n') ops' (rc_set_started s5 run)) by (destruct X1; constructor; auto).
      assert (D5 : drel (mkDesk x run (now, start)) (rc_set_started s5 run)) by (constructor; cbn; auto; congruence).
      rewrite <- X6 in Ri. destruct (recording_loop _ _ _ _ _ _ _ _ _ _ B5 D5 X5 Ri E) as [ms [ok [Y1 [Y2 Y3]]]].
      eexists _, ok. split; [eapply W_start; eauto; [apply (ready_iff _ _ (b_clock _ _ _ _ B1)); auto|]|].
      - rewrite Ov, negb_involutive. rewrite zlen_nil in Y1. exact Y1.
      - split; [|auto]. rewrite Y2. change (msgs (rc_set_started s5 run)) with (msgs s5). rewrite X7, Ms3, <- !app_assoc. reflexivity. }
    unfold over in Go.
    destruct (rc_IsUnspecifiedEventEndTime e) eqn:U.
    + ib H. injection H as <- <-. rewrite (ends_none _ _ _ Ev U) in Go. eapply (Go true); eauto.
    + ib H. rewrite (ends_ok _ _ _ _ Ev U E0) in Go. destruct (Z.ltb_spec now a0) as [Lt|Lt].
      * ib H. injection H as <- <-. eapply (Go true); eauto. apply Z.leb_gt. auto.
      * injection H as <- <-. eapply (Go false); eauto. apply Z.leb_le. auto.
Qed.

Lemma brel_init : forall r, brel [] 0 [] (rc_init r).
Proof. intros r. destruct (rel_init o local stage r) as [A1 A2 A3 A4 A5 A6]. constructor; auto. Qed.

Lemma journal_run : forall ops ps n s0 code s, rc_new o ops = Ok s0 ->
  FeedPackets (list_source packet) (recorder o local bytes stage) n ps s0 = Some (Ok (code, s)) ->
  (start <> 0 /\ messages (rc_trace s) = [] /\ code = 1) \/
  exists ms ok, waiting [] 0 [] ps ms ok /\ messages (rc_trace s) = MStart :: ms ++ [MStop (negb ok)] /\ code = (if ok then 0 else 1).
Proof.
  intros ops ps n s0 code s N F. unfold rc_new in N. ib N. rename a into r0. injection N as <-.
  destruct (open_lemma _ _ _ Geo ops) as [rr [evs0 [ok0 [Op [_ [Ok0 [Br Ri]]]]]]].
  unfold rg_open in Op. rewrite E in Op. cbn [bind] in Op.
  unfold FeedPackets in F. cbn [sk_start recorder] in F. unfold rc_Start in F.
  assert (Main : ok0 = true -> forall s1, rc_ring s1 = rr -> msgs s1 = [MStart] -> brel [] 0 [] s1 -> rc_recording s1 = false -> rc_new_eit s1 = None ->
     match feed_loop (list_source packet) (recorder o local bytes stage) n ps s1 with
     | None => None
     | Some r => Some (let* s2 := r in let* s3 := sk_end (recorder o local bytes stage) s2 in let* code := sk_exit (recorder o local bytes stage) s3 in Ok (code, s3))
     end = Some (Ok (code, s)) ->
     exists ms ok, waiting [] 0 [] ps ms ok /\ messages (rc_trace s) = MStart :: ms ++ [MStop (negb ok)] /\ code = (if ok then 0 else 1)).
  { intros -> s1 I1 M1 B R1 N1 X.
    destruct (feed_loop _ _ _ _ _) as [[s2|]|] eqn:L; try discriminate. cbn [bind sk_end sk_exit recorder] in X. injection X as <- <-.
    rewrite <- I1 in Ri. destruct (waiting_loop _ _ _ _ _ _ _ _ B R1 N1 Ri L) as [ms [ok [Y1 [Y2 Y3]]]].
    exists ms, ok. split; [auto|]. change (messages (rc_trace (rc_put s2 (Msg (MStop (rg_broken (rc_ring s2))))))) with (msgs (rc_put s2 (Msg (MStop (rg_broken (rc_ring s2)))))).
    rewrite put_msgs, Y2, M1, Y3. split; [reflexivity|]. unfold rg_GetExitCode. cbn [rc_put rc_ring]. rewrite Y3. destruct ok; reflexivity. }
  destruct (Z.eqb_spec start 0) as [Z0|Z0].
  - injection Op as <- <- <-. right. cbv beta iota in F. eapply (Main eq_refl (rc_put (rc_init r0) (Msg MStart))); eauto; try reflexivity.
    destruct (brel_init r0). constructor; auto.
  - change (rc_ring (rc_init r0)) with (rg_SetObserver r0) in F. rewrite Op in F. cbn [bind] in F.
    assert (Ev : evs0 = if ok0 then [EvSeek start] else [EvSeekFail]).
    { unfold rg_SetPosition in Op. repeat (apply assert_ok in Op as [_ Op]). destruct (rg_next _) as [[|] q]; injection Op as _ <- <-; auto. }
    destruct ok0; subst evs0; cbn [rc_ring_events bind] in F.
    + right. eapply (Main eq_refl (rc_put (rc_set_ring (rc_put (rc_init r0) (Ring (EvSeek start))) rr) (Msg MStart))); eauto; try reflexivity.
      destruct (brel_init r0). constructor; auto.
    + left. injection F as <- <-. auto.
Qed.

End Journal.

(** ** The journal is determined by the input *)
Section Det.
Variables (sid : Z) (stage : nat) (local : nat -> Z) (bytes : packet -> list Z) (cs ring start : Z).

Lemma tells_det : forall ops w a b, tells ops w a -> tells ops w b -> a = b.
Proof. intros ops w a b [c [E1 E2]] [c' [E3 E4]]. congruence. Qed.
Lemma after_det : forall h n ops p ts h' n' ops' ts2 h2 n2 ops2, after sid stage local h n ops p ts h' n' ops' -> after sid stage local h n ops p ts2 h2 n2 ops2 ->
  ts = ts2 /\ h' = h2 /\ n' = n2 /\ ops' = ops2.
Proof.
  intros h n ops p ts h' n' ops' ts2 h2 n2 ops2 [A B] [C D]. pose proof (delivered_det _ _ _ _ _ _ _ A C). subst ts2.
  rewrite B in D. injection D as <- <- <-. auto.
Qed.

Lemma recording_det : forall h n ops d w ps ms ok, recording sid stage local bytes cs ring start h n ops d w ps ms ok -> ok = true ->
  forall ms', recording sid stage local bytes cs ring start h n ops d w ps ms' true -> ms = ms'.
Proof.
  induction 1 as [|h n ops d w p ps ts h' n' ops' now d' ms ms0 ok A T Tu Dv _ IH|h n ops d w p ps ts h' n' ops' now now2 d' ms ms0 ok A T T2 Tu Dv _ IH| |];
    intros Ok ms' R; try discriminate.
  - inversion R; auto.
  - inversion R as [|? ? ? ? ? ? ? ts2 h2 n2 ops2 now3 d2 ms2 ms3 ? A2 T3 Tu2 Dv2 R2|? ? ? ? ? ? ? ts2 h2 n2 ops2 now3 now4 d2 ms2 ms3 ? A2 T3 T4 Tu2 Dv2 R2| |]; subst; [|congruence].
    destruct (after_det _ _ _ _ _ _ _ _ _ _ _ _ A A2) as [<- [<- [<- <-]]]. rewrite (tells_det _ _ _ _ T T3) in Tu. rewrite Tu in Tu2. injection Tu2 as <- <-.
    f_equal. auto.
  - inversion R as [|? ? ? ? ? ? ? ts2 h2 n2 ops2 now3 d2 ms2 ms3 ? A2 T3 Tu2 Dv2 R2|? ? ? ? ? ? ? ts2 h2 n2 ops2 now3 now4 d2 ms2 ms3 ? A2 T3 T4 Tu2 Dv2 R2| |]; subst; [congruence|].
    destruct (after_det _ _ _ _ _ _ _ _ _ _ _ _ A A2) as [<- [<- [<- <-]]]. rewrite (tells_det _ _ _ _ T T3) in Tu. rewrite Tu in Tu2. injection Tu2 as <- <-.
    rewrite (tells_det _ _ _ _ T2 T4). f_equal. f_equal. auto.
Qed.

Lemma waiting_det : forall h n ops ps ms ok, waiting sid stage local bytes cs ring start h n ops ps ms ok -> ok = true ->
  forall ms', waiting sid stage local bytes cs ring start h n ops ps ms' true -> ms = ms'.
Proof.
  induction 1 as [|h n ops p ps ts h' n' ops' ms ok A Nr _ IH|h n ops p ps ts h' n' ops' t now ms ok A Sn La T R]; intros Ok ms' W.
  - inversion W; auto.
  - inversion W as [|? ? ? ? ? ts2 h2 n2 ops2 ms2 ? A2 Nr2 W2|? ? ? ? ? ts2 h2 n2 ops2 t2 now2 ms2 ? A2 Sn2 La2 T2 R2]; subst;
      destruct (after_det _ _ _ _ _ _ _ _ _ _ _ _ A A2) as [<- [<- [<- <-]]]; auto.
    exfalso. apply Nr. split; [auto|congruence].
  - inversion W as [|? ? ? ? ? ts2 h2 n2 ops2 ms2 ? A2 Nr2 W2|? ? ? ? ? ts2 h2 n2 ops2 t2 now2 ms2 ? A2 Sn2 La2 T2 R2]; subst;
      destruct (after_det _ _ _ _ _ _ _ _ _ _ _ _ A A2) as [<- [<- [<- <-]]].
    + exfalso. apply Nr2. split; [auto|congruence].
    + rewrite La in La2. injection La2 as <-. rewrite (tells_det _ _ _ _ T T2) in *. f_equal. f_equal. eapply recording_det; eauto.
Qed.
End Det.
