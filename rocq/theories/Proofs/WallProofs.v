(** The recorder and the wall clock. *)
From Coq Require Import ZArith Lia List Bool.
From Verif Require Import Base.Outcome Base.Util Model.Pcr Model.Clock Model.Sink Model.Ts Model.RingFileSink Model.ServiceRecorder
  Spec.ClockSpec Spec.FilterSpec Spec.TuneSpec Spec.FileSpec Spec.RecorderSpec Spec.JournalSpec Spec.TransSpec Spec.WallSpec
  Proofs.ClockProofs Proofs.FilterProofs Proofs.TuneProofs Proofs.RecorderProofs Proofs.RecorderMain Proofs.RecorderJournal.
Import ListNotations.
Open Scope Z_scope.

(** ** A state with another reading of the wall clock at the last TOT *)
Definition cl (l : Z) (c : clock) : clock :=
  mkClock (ck_baseline c) l (ck_last_pcr c) (ck_gap_count c) (ck_ready c) (ck_wrap c).
Definition reloc (l : Z) (s : rec_state) : rec_state := rc_set_clock s (cl l (rc_clock s)).
Definition rmap {A B} (f : A -> B) (r : res A) : res B := match r with Ok a => Ok (f a) | Fail e => Fail e end.

Lemma rmap_bind : forall A B C (f : B -> C) (r : res A) k, rmap f (bind r k) = bind r (fun a => rmap f (k a)).
Proof. destruct r; reflexivity. Qed.
Lemma bind_rmap : forall A B C (f : A -> B) (r : res A) (k : B -> res C), bind (rmap f r) k = bind r (fun a => k (f a)).
Proof. destruct r; reflexivity. Qed.
Lemma bind_same : forall A B (r : res A) (k k' : A -> res B), (forall a, r = Ok a -> k a = k' a) -> bind r k = bind r k'.
Proof. destruct r; cbn; auto. Qed.

(** What happens is the same, up to that reading. *)
Definition sim (r r' : res rec_state) : Prop :=
  match r, r' with Ok s, Ok s' => exists l, s' = reloc l s | Fail e, Fail e' => e = e' | _, _ => False end.
Definition simb (r r' : res (rec_state * bool)) : Prop :=
  match r, r' with Ok (s, b), Ok (s', b') => b = b' /\ exists l, s' = reloc l s | Fail e, Fail e' => e = e' | _, _ => False end.

Lemma rmap_sim : forall l r r', r' = rmap (reloc l) r -> sim r r'.
Proof. intros l r r' ->. destruct r; cbn; eauto. Qed.

(** ** The clock *)
Lemma pcr_cl : forall l c v, ck_UpdatePcr (cl l c) v = rmap (cl l) (ck_UpdatePcr c v).
Proof.
  intros l [b l0 lp gc rd wr] v. unfold ck_UpdatePcr, ck_accept, ck_SyncPcr, bl_SetPcr, assert, ck_IsReady, ck_Invalidate, cl; cbn [ck_baseline ck_local ck_last_pcr ck_gap_count ck_ready ck_wrap].
  destruct (IsValidPcr v); [|reflexivity].
  destruct (rd && bl_IsReady b).
  - destruct (0 <=? _); [|reflexivity]. destruct (kPcrTicksPerSec <=? _).
    + destruct (_ <=? _); reflexivity.
    + destruct (bl_IsReady b); reflexivity.
  - destruct (bl_IsReady b); reflexivity.
Qed.
Lemma time_cl : forall l c t a b, exists l', ck_UpdateTime (cl l c) t a = rmap (cl l') (ck_UpdateTime c t b).
Proof.
  intros l [bl l0 lp gc rd wr] t a b. exists a.
  unfold ck_UpdateTime, ck_SyncPcr, bl_SetPcr, assert, cl; cbn [ck_baseline ck_local ck_last_pcr ck_gap_count ck_ready ck_wrap].
  destruct rd; [|reflexivity]. destruct (IsValidPcr _); reflexivity.
Qed.
Lemma now_cl : forall l c a b, ck_IsReady c = true -> ck_Now (cl l c) a = ck_Now c b.
Proof. intros l c a b R. unfold ck_Now. change (ck_IsReady (cl l c)) with (ck_IsReady c). rewrite R. reflexivity. Qed.

Section Wall.
Variable o : recorder_option.
Variable local : nat -> Z.
Variable bytes : packet -> list Z.
Variable stage : nat.
Notation sid := (rco_sid o).

(** ** Until a time is asked for *)
Lemma feed_sim : forall l s p, rc_feed_clock (reloc l s) p = rmap (reloc l) (rc_feed_clock s p).
Proof.
  intros l s p. unfold rc_feed_clock. change (ck_baseline (rc_clock (reloc l s))) with (ck_baseline (rc_clock s)).
  destruct (_ && _); [|reflexivity]. destruct (p_pcr p) as [v|]; [|reflexivity].
  change (rc_clock (reloc l s)) with (cl l (rc_clock s)). rewrite pcr_cl, bind_rmap, rmap_bind. apply bind_same. reflexivity.
Qed.

Lemma table_sim : forall l s src t, sim (rc_handleTable o still s src t) (rc_handleTable o local (reloc l s) src t).
Proof.
  intros l s src t. unfold rc_handleTable. destruct (tb_body t) as [b| |b|b|b| | |]; try (cbn; eauto; fail).
  - apply (rmap_sim l). unfold rc_HandlePat. destruct (negb (src =? PID_PAT)); [reflexivity|]. destruct b as [b|]; [|reflexivity].
    destruct (pat_tsid b =? 0); [reflexivity|]. destruct (mfind sid (pat_pmts b)); reflexivity.
  - apply (rmap_sim l). unfold rc_HandlePmt. destruct b as [b|]; [|reflexivity]. destruct (negb (pmt_sid b =? sid)); [reflexivity|].
    change (ck_baseline (rc_clock (reloc l s))) with (ck_baseline (rc_clock s)).
    destruct (negb (bl_HasPid _)); [reflexivity|]. destruct (negb (_ =? _)); reflexivity.
  - apply (rmap_sim l). unfold rc_HandleEit. destruct b as [b|]; [|reflexivity]. destruct (negb (eit_sid b =? sid)); [reflexivity|].
    destruct (eit_events b); [reflexivity|]. rewrite rmap_bind. apply bind_same. reflexivity.
  - unfold rc_HandleTot. destruct b as [b|]; [|cbn; eauto].
    change (rc_clock (reloc l s)) with (cl l (rc_clock s)).
    destruct (time_cl l (rc_clock s) b (local (rc_reads (reloc l s))) (still (rc_reads s))) as [l' ->].
    apply (rmap_sim l'). rewrite bind_rmap, rmap_bind. apply bind_same. reflexivity.
Qed.

Lemma tables_sim : forall ts l s src, sim (handle_tables (rc_handleTable o still) s src ts) (handle_tables (rc_handleTable o local) (reloc l s) src ts).
Proof.
  induction ts as [|t ts IH]; intros l s src; cbn [handle_tables]; [cbn; eauto|].
  pose proof (table_sim l s src t) as T. destruct (rc_handleTable o still s src t) as [s1|e], (rc_handleTable o local (reloc l s) src t) as [s2|e2]; cbn in T; try contradiction.
  - destruct T as [l' ->]. cbn [bind]. apply IH.
  - cbn. auto.
Qed.

(** ** When the clock is ready *)
Lemma now_sim : forall l s, ck_IsReady (rc_clock s) = true ->
  rc_Now local (reloc l s) = rmap (fun x => (reloc l (fst x), snd x)) (rc_Now still s).
Proof.
  intros l s R. unfold rc_Now. change (rc_clock (reloc l s)) with (cl l (rc_clock s)). rewrite (now_cl _ _ _ (still (rc_reads s)) R).
  rewrite rmap_bind. apply bind_same. reflexivity.
Qed.

Lemma send_event : forall l s k t time pos, rc_SendEventMessage (reloc l s) k t time pos = rmap (reloc l) (rc_SendEventMessage s k t time pos).
Proof.
  intros. unfold rc_SendEventMessage. rewrite rmap_bind. apply bind_same. intros. rewrite rmap_bind. apply bind_same. reflexivity.
Qed.
Lemma send_chunk : forall l s time pos, rc_SendChunkMessage (reloc l s) time pos = rmap (reloc l) (rc_SendChunkMessage s time pos).
Proof. intros. unfold rc_SendChunkMessage. rewrite rmap_bind. apply bind_same. reflexivity. Qed.
Lemma send_boundary : forall l s k t, rc_SendBoundaryMessage (reloc l s) k t = rmap (reloc l) (rc_SendBoundaryMessage s k t).
Proof.
  intros. unfold rc_SendBoundaryMessage. change (rc_boundary (reloc l s)) with (rc_boundary s).
  destruct (rc_boundary s) as [[a b]|]; [apply send_event|reflexivity].
Qed.

Lemma chunk_sim : forall l s pos, ck_IsReady (rc_clock s) = true -> rc_OnEndOfChunk local (reloc l s) pos = rmap (reloc l) (rc_OnEndOfChunk still s pos).
Proof.
  intros l s pos R. unfold rc_OnEndOfChunk. rewrite (now_sim _ _ R), bind_rmap, rmap_bind. apply bind_same. intros [s1 now] _. cbn [fst snd].
  change (rg_ring_size (rc_ring (reloc l s1))) with (rg_ring_size (rc_ring s1)). change (rc_started (reloc l s1)) with (rc_started s1).
  change (rc_eit (reloc l s1)) with (rc_eit s1). set (q := if pos =? _ then _ else _). clearbody q. rewrite rmap_bind.
  destruct (rc_started s1).
  - destruct (rc_eit s1); [|reflexivity]. rewrite send_event, bind_rmap. apply bind_same. intros. apply send_chunk.
  - cbn [bind]. apply send_chunk.
Qed.

Ltac kp := repeat split; cbn; congruence.
Lemma keeps_trans : forall a b c, keeps a b -> keeps b c -> keeps a c.
Proof. unfold keeps. intros a b c (A1 & A2 & A3 & A4 & A5) (B1 & B2 & B3 & B4 & B5). kp. Qed.
Lemma keeps_refl : forall a, keeps a a. Proof. intros; kp. Qed.
Lemma event_keeps : forall s k t time pos s', rc_SendEventMessage s k t time pos = Ok s' -> keeps s s'.
Proof. intros s k t time pos s' E. unfold rc_SendEventMessage in E. ib E. ib E. injection E as <-. kp. Qed.
Lemma boundary_keeps : forall s k t s', rc_SendBoundaryMessage s k t = Ok s' -> keeps s s'.
Proof. intros s k t s' E. unfold rc_SendBoundaryMessage in E. destruct (rc_boundary s) as [[? ?]|]; [eapply event_keeps; eauto|discriminate]. Qed.
Lemma now_keeps : forall loc s s' now, rc_Now loc s = Ok (s', now) -> s' = rc_count_read s.
Proof. intros loc s s' now E. unfold rc_Now in E. ib E. congruence. Qed.

Lemma chunk_keeps : forall loc s pos s', rc_OnEndOfChunk loc s pos = Ok s' -> keeps s s'.
Proof.
  intros loc s pos s' E. unfold rc_OnEndOfChunk in E. ib E. destruct a as [s1 now]. apply now_keeps in E0 as ->.
  cbn [rc_ring rc_count_read rc_started rc_eit] in E. ib E. unfold rc_SendChunkMessage in E. ib E. injection E as <-.
  apply keeps_trans with a; [|kp]. destruct (rc_started s); [|injection E0 as <-; kp]. destruct (rc_eit s); [|discriminate].
  exact (event_keeps _ _ _ _ _ _ E0).
Qed.

Lemma ring_keeps : forall loc evs s s', rc_ring_events loc s evs = Ok s' -> keeps s s'.
Proof.
  intros loc. induction evs as [|e evs IH]; intros s s' E; cbn [rc_ring_events] in E; [injection E as <-; kp|]. ib E.
  apply keeps_trans with a; [|exact (IH _ _ E)]. apply keeps_trans with (rc_put s (Ring e)); [kp|].
  destruct e; try (injection E0 as <-; kp). exact (chunk_keeps _ _ _ _ E0).
Qed.

Lemma ring_sim : forall evs l s, ck_IsReady (rc_clock s) = true -> rc_ring_events local (reloc l s) evs = rmap (reloc l) (rc_ring_events still s evs).
Proof.
  induction evs as [|e evs IH]; intros l s R; cbn [rc_ring_events]; [reflexivity|].
  change (rc_put (reloc l s) (Ring e)) with (reloc l (rc_put s (Ring e))). rewrite rmap_bind.
  destruct e; cbn [bind]; try (apply IH; exact R).
  rewrite (chunk_sim l (rc_put s (Ring (EvNotify pos))) pos R), bind_rmap. apply bind_same. intros s1 E. apply IH. destruct (chunk_keeps _ _ _ _ E) as (_ & -> & _). exact R.
Qed.

Lemma preparing_sim : forall l s, rc_OnPreparing o local (reloc l s) = rmap (fun x => (reloc l (fst x), snd x)) (rc_OnPreparing o still s).
Proof.
  intros l s. unfold rc_OnPreparing. change (ck_IsReady (rc_clock (reloc l s))) with (ck_IsReady (rc_clock s)).
  destruct (ck_IsReady (rc_clock s)) eqn:R; [|reflexivity]. change (rc_new_eit (reloc l s)) with (rc_new_eit s).
  destruct (rc_new_eit s) as [t|]; [|reflexivity]. cbv zeta.
  change (rc_set_recording (rc_set_eit (reloc l s) (Some t) None)) with (reloc l (rc_set_recording (rc_set_eit s (Some t) None))).
  rewrite now_sim by exact R. rewrite bind_rmap, rmap_bind. apply bind_same. intros [s1 now] _. cbn [fst snd].
  change (rc_ring (reloc l s1)) with (rc_ring s1). unfold assert.
  destruct (_ <? _); [|reflexivity]. destruct (_ =? 0); [|reflexivity].
  rewrite send_chunk, bind_rmap, rmap_bind. apply bind_same. intros s2 _.
  change (rc_UpdateEventBoundary (reloc l s2) now (rg_ring_pos (rc_ring s1))) with (reloc l (rc_UpdateEventBoundary s2 now (rg_ring_pos (rc_ring s1)))).
  rewrite rmap_bind. apply bind_same. intros e _. rewrite send_boundary.
  destruct (rc_IsUnspecifiedEventEndTime e); [rewrite bind_rmap, rmap_bind; apply bind_same; reflexivity|].
  rewrite rmap_bind. apply bind_same. intros z _. destruct (now <? z); [rewrite bind_rmap, rmap_bind; apply bind_same; reflexivity|reflexivity].
Qed.

Lemma events_sim : forall l s, ck_IsReady (rc_clock s) = true -> rc_events local (reloc l s) = rmap (reloc l) (rc_events still s).
Proof.
  intros l s R. unfold rc_events. rewrite (now_sim _ _ R), bind_rmap, rmap_bind. apply bind_same. intros [s1 now] _. cbn [fst snd].
  change (rc_eit (reloc l s1)) with (rc_eit s1). change (rc_new_eit (reloc l s1)) with (rc_new_eit s1).
  destruct (rc_eit s1) as [old|]; [|reflexivity]. rewrite rmap_bind. apply bind_same. intros [t changed] _.
  assert (X : match rc_new_eit s1 with None => reloc l s1 | Some new => rc_set_eit (reloc l s1) (Some new) None end =
              reloc l (match rc_new_eit s1 with None => s1 | Some new => rc_set_eit s1 (Some new) None end)) by (destruct (rc_new_eit s1); reflexivity).
  cbv zeta. rewrite X. set (s2 := match rc_new_eit s1 with None => s1 | _ => _ end). clearbody s2. clear X.
  change (rc_started (reloc l s2)) with (rc_started s2). change (rc_ring (reloc l s2)) with (rc_ring s2).
  destruct (rc_started s2).
  - destruct changed.
    + destruct (rc_new_eit s1) as [new|]; [|reflexivity].
      change (rc_UpdateEventBoundary (reloc l s2) now (rg_ring_pos (rc_ring s2))) with (reloc l (rc_UpdateEventBoundary s2 now (rg_ring_pos (rc_ring s2)))).
      rewrite send_boundary, bind_rmap, rmap_bind. apply bind_same. intros. apply send_boundary.
    + rewrite rmap_bind. apply bind_same. intros e _. destruct (rc_IsUnspecifiedEventEndTime e); [reflexivity|].
      rewrite rmap_bind. apply bind_same. intros z _. destruct (z <=? now); [|reflexivity].
      change (rc_UpdateEventBoundary (reloc l s2) z (rg_ring_pos (rc_ring s2))) with (reloc l (rc_UpdateEventBoundary s2 z (rg_ring_pos (rc_ring s2)))).
      rewrite send_boundary, bind_rmap, rmap_bind. apply bind_same. reflexivity.
  - destruct changed; [|reflexivity]. destruct (rc_new_eit s1) as [new|]; [|reflexivity].
    rewrite send_boundary, bind_rmap, rmap_bind. apply bind_same. reflexivity.
Qed.

Lemma events_keeps : forall loc s s', rc_events loc s = Ok s' -> keeps s s'.
Proof.
  intros loc s s' E. unfold rc_events in E. ib E. destruct a as [s1 now]. apply now_keeps in E0 as ->.
  change (rc_eit (rc_count_read s)) with (rc_eit s) in E. change (rc_new_eit (rc_count_read s)) with (rc_new_eit s) in E.
  destruct (rc_eit s) as [old|]; [|discriminate]. ib E. destruct a as [t ch]. cbv zeta in E.
  match type of E with context [rc_started ?x] => set (s2 := x) in E end.
  assert (X : keeps s s2) by (unfold s2; destruct (rc_new_eit s); kp). clearbody s2. apply keeps_trans with s2; [exact X|]. clear X.
  destruct (rc_started s2).
  - destruct ch.
    + destruct (rc_new_eit s); [|discriminate]. ib E. apply boundary_keeps in E. apply boundary_keeps in E1. eapply keeps_trans; [|exact E].
      eapply keeps_trans; [|exact E1]. kp.
    + ib E. destruct (rc_IsUnspecifiedEventEndTime a); [injection E as <-; kp|]. ib E. destruct (_ <=? _); [|injection E as <-; kp].
      ib E. injection E as <-. apply boundary_keeps in E3. apply keeps_trans with a1; [|kp]. eapply keeps_trans; [|exact E3]. kp.
  - destruct ch; [|injection E as <-; kp]. destruct (rc_new_eit s); [|discriminate]. ib E. injection E as <-. apply boundary_keeps in E1.
    apply keeps_trans with a; [exact E1|kp].
Qed.

Lemma recording_sim : forall l s p, ck_IsReady (rc_clock s) = true ->
  rc_OnRecording local bytes (reloc l s) p = rmap (fun x => (reloc l (fst x), snd x)) (rc_OnRecording still bytes s p).
Proof.
  intros l s p R. unfold rc_OnRecording. rewrite (events_sim _ _ R), bind_rmap, rmap_bind. apply bind_same. intros s1 E.
  change (rc_ring (reloc l s1)) with (rc_ring s1). rewrite rmap_bind. apply bind_same. intros [[r evs] ok] _.
  rewrite ring_sim by (destruct (events_keeps _ _ _ E) as (_ & -> & _); exact R). rewrite bind_rmap, rmap_bind. apply bind_same. reflexivity.
Qed.

(** ** A packet *)
Definition half (loc : nat -> Z) (s : rec_state) (p : packet) : res rec_state :=
  let* s1 := rc_feed_clock s p in handle_tables (rc_handleTable o loc) s1 (p_pid p) (demux_feed (rc_demux s1) stage p).

Lemma half_sim : forall l s p, sim (half still s p) (half local (reloc l s) p).
Proof.
  intros l s p. unfold half. rewrite feed_sim, bind_rmap. destruct (rc_feed_clock s p) as [s1|e]; cbn [bind]; [|reflexivity].
  change (rc_demux (reloc l s1)) with (rc_demux s1). apply tables_sim.
Qed.

Lemma handle_half : forall loc s p, rc_HandlePacket o loc bytes stage s p =
  let* s2 := half loc s p in if rc_recording s2 then rc_OnRecording loc bytes s2 p else rc_OnPreparing o loc s2.
Proof. intros. unfold rc_HandlePacket, half. destruct (rc_feed_clock s p); reflexivity. Qed.

Lemma heed_note : forall ts h n ops pid h' n' ops', heed sid still h n ops pid ts = (h', n', ops') -> note sid still h ops pid ts = (h', ops').
Proof.
  induction ts as [|t ts IH]; intros h n ops pid h' n' ops' E; cbn [heed note] in *; [congruence|]. apply IH in E. exact E.
Qed.

Lemma past_half : forall h n ops s p s2 h' ops', brel o h n ops s -> half still s p = Ok s2 -> past sid stage h ops p h' ops' ->
  brel o h' (rc_reads s2) ops' s2 /\ rc_recording s2 = rc_recording s /\ (ck_IsReady (rc_clock s2) = true <-> seen ops' true true) /\ (rc_new_eit s = latest (service_eit sid) h -> rc_new_eit s2 = latest (service_eit sid) h').
Proof.
  intros h n ops s p s2 h' ops' B E [ts [H N]]. destruct (after_ok o still stage _ _ _ _ _ _ B E) as (ts2 & h2 & n2 & ops2 & [H2 N2] & B2 & S2 & -> & Nw).
  assert (ts2 = ts) by (destruct H as [[A ->]|[A ->]], H2 as [[A2 ->]|[A2 ->]]; auto; contradiction). subst ts2.
  apply heed_note in N2. rewrite N in N2. injection N2 as -> ->. destruct B2 as [R1 R2 R3 R4 R5].
  split; [constructor; auto|]. split; [apply S2|]. split; [rewrite (ready_iff _ _ R3); tauto|].
  intros L. rewrite Nw, latest_app. unfold news. destruct (latest _ (rev _)); auto.
Qed.

Notation rec loc := (recorder o loc bytes stage).

Lemma hand_steady : forall ps h n ops s l, brel o h n ops s -> rc_recording s = true -> steady sid stage h ops ps ->
  simb (snd (hand (rec still) s ps)) (snd (hand (rec local) (reloc l s) ps)).
Proof.
  induction ps as [|p ps IH]; intros h n ops s l B Rc St; cbn [hand]; [cbn; eauto|].
  inversion St as [|h0 ops0 p0 ps0 h' ops' P Sn St']; subst. cbn [sk_handle recorder]. rewrite !handle_half.
  pose proof (half_sim l s p) as H. destruct (half still s p) as [s2|e] eqn:E2, (half local (reloc l s) p) as [s2'|e']; cbn in H; try contradiction; [|subst; reflexivity].
  destruct H as [l2 ->]. cbn [bind]. change (rc_recording (reloc l2 s2)) with (rc_recording s2).
  destruct (past_half _ _ _ _ _ _ _ _ B E2 P) as (B2 & Rc2 & Rd & _). rewrite Rc2, Rc. apply Rd in Sn. rewrite (recording_sim l2 s2 p Sn).
  destruct (rc_OnRecording still bytes s2 p) as [[s3 b]|e] eqn:E3; cbn [rmap fst snd]; [|reflexivity].
  destruct b; [|cbn; eauto].
  assert (K : brel o h' (rc_reads s3) ops' s3 /\ rc_recording s3 = true).
  { unfold rc_OnRecording in E3. ib E3. ib E3. destruct a0 as [[r evs] ok]. ib E3. injection E3 as <- _.
    destruct (keeps_trans _ _ _ (events_keeps _ _ _ E) (ring_keeps _ _ _ _ E1)) as (K1 & K2 & K3 & K4 & K5).
    destruct B2 as [R1 R2 R3 R4 R5]. split; [constructor; cbn [rc_set_ring rc_demux rc_clock rc_pmt_pid rc_reads]; rewrite ?K1, ?K2, ?K3; auto|].
    cbn. congruence. }
  destruct K as [B3 Rc3]. specialize (IH _ _ _ _ l2 B3 Rc3 St').
  destruct (hand (rec still) s3 ps), (hand (rec local) (reloc l2 s3) ps). exact IH.
Qed.

Lemma hand_holds : forall ps h n ops s l, brel o h n ops s -> rc_recording s = false -> rc_new_eit s = latest (service_eit sid) h ->
  holds sid stage h ops ps -> simb (snd (hand (rec still) s ps)) (snd (hand (rec local) (reloc l s) ps)).
Proof.
  induction ps as [|p ps IH]; intros h n ops s l B Rc Nw St; cbn [hand]; [cbn; eauto|].
  cbn [sk_handle recorder]. rewrite !handle_half.
  pose proof (half_sim l s p) as H. destruct (half still s p) as [s2|e] eqn:E2, (half local (reloc l s) p) as [s2'|e']; cbn in H; try contradiction; [|subst; reflexivity].
  destruct H as [l2 ->]. cbn [bind]. change (rc_recording (reloc l2 s2)) with (rc_recording s2).
  assert (X : exists h' ops', past sid stage h ops p h' ops' /\ ((~ ready sid h' ops' /\ holds sid stage h' ops' ps) \/ (ready sid h' ops' /\ steady sid stage h' ops' ps)))
    by (inversion St; subst; eauto 8).
  destruct X as (h' & ops' & P & X). destruct (past_half _ _ _ _ _ _ _ _ B E2 P) as (B2 & Rc2 & Rd & Nw2). specialize (Nw2 Nw). rewrite Rc2, Rc.
  rewrite (preparing_sim l2 s2). destruct (rc_OnPreparing o still s2) as [[s3 b]|e] eqn:E3; cbn [rmap fst snd]; [|reflexivity].
  destruct b; [|cbn; eauto]. unfold ready in X. rewrite <- Nw2, <- Rd in X. unfold rc_OnPreparing in E3.
  assert (Y : simb (snd (hand (rec still) s3 ps)) (snd (hand (rec local) (reloc l2 s3) ps))).
  { destruct X as [[Nr St']|[[Y1 Y2] St']].
    - assert (s3 = s2) as ->. { destruct (ck_IsReady (rc_clock s2)) eqn:Y1; [|congruence]. destruct (rc_new_eit s2); [|congruence]. exfalso. apply Nr. split; [auto|congruence]. }
      eapply IH; eauto.
    - rewrite Y1 in E3. destruct (rc_new_eit s2) as [t|]; [|congruence].
      assert (K : keeps (rc_set_recording s2) s3).
      { ib E3. destruct a as [s4 now]. apply now_keeps in E as ->. unfold assert in E3. destruct (_ <? _); [|discriminate]. destruct (_ =? 0); [|discriminate].
        apply bind_ok in E3 as (s5 & F1 & E3). unfold rc_SendChunkMessage in F1. apply bind_ok in F1 as (u & _ & F1). injection F1 as <-.
        apply bind_ok in E3 as (ev & _ & E3).
        destruct (rc_IsUnspecifiedEventEndTime ev); [apply bind_ok in E3 as (s6 & F2 & E3); apply boundary_keeps in F2; injection E3 as <-; (eapply keeps_trans; [|eapply keeps_trans; [exact F2|kp]]; kp)|].
        apply bind_ok in E3 as (z & _ & E3).
        destruct (now <? z); [apply bind_ok in E3 as (s6 & F2 & E3); apply boundary_keeps in F2; injection E3 as <-; (eapply keeps_trans; [|eapply keeps_trans; [exact F2|kp]]; kp)|].
        injection E3 as <-. kp. }
      destruct K as (K1 & K2 & K3 & K4 & K5). cbn [rc_set_recording rc_demux rc_clock rc_pmt_pid rc_recording] in *.
      destruct B2 as [R1 R2 R3 R4 R5]. eapply hand_steady; [|congruence|exact St'].
      constructor; rewrite ?K1, ?K2, ?K3; auto. }
  destruct (hand (rec still) s3 ps), (hand (rec local) (reloc l2 s3) ps). exact Y.
Qed.
End Wall.
