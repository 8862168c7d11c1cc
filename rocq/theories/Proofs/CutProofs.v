(** What a command makes of a stream cut short (C81). *)
From Coq Require Import ZArith Lia List Bool.
From Verif Require Import Base.Outcome Base.Util Model.Sink Model.FileSource Model.StdoutSink Model.Ts Model.ServiceFilter Model.RecorderOption Model.RingFileSink Model.ServiceRecorder Model.Commands
  Spec.SourceSpec Spec.StdoutSpec Spec.TransSpec Spec.PipeSpec Spec.CutSpec Proofs.SourceProofs Proofs.PipeProofs.
From Verif Require Model.ProgramFilter Model.EitCollector Model.EitpfCollector Model.AirtimeTracker Model.MetadataFilter Model.ServiceScanner
  Model.PcrSynchronizer Model.PesPrinter.
Import ListNotations.
Open Scope Z_scope.

Ltac ib H := let v := fresh "v" in let E := fresh "Hb" in
  match type of H with bind ?m _ = Ok _ => destruct m as [v|] eqn:E; [cbn [bind] in H|discriminate H] end.

Lemma pre_refl : forall A (a : list A), is_prefix a a.
Proof. intros. exists []. rewrite app_nil_r. reflexivity. Qed.
Lemma pre_trans : forall A (a b c : list A), is_prefix a b -> is_prefix b c -> is_prefix a c.
Proof. intros A a b c [x ->] [y ->]. exists (x ++ y). rewrite app_assoc. reflexivity. Qed.
Lemma pre_app : forall A (a b : list A), is_prefix a (a ++ b).
Proof. intros. exists b. reflexivity. Qed.

(** ** The packets of a file *)
Lemma znth_app_l : forall A i (a b : list A), i < zlen a -> znth i (a ++ b) = znth i a.
Proof.
  intros A i a b H. unfold znth. destruct (Z.ltb_spec i 0); [reflexivity|].
  unfold zlen in H. apply nth_error_app1. lia.
Qed.

Lemma sync_app : forall i (a b : list Z), i < zlen a -> sync_at (a ++ b) i <-> sync_at a i.
Proof. intros i a b H. unfold sync_at. rewrite znth_app_l by auto. tauto. Qed.
Lemma synced_app : forall i (a b : list Z), i + 564 < zlen a -> synced_at (a ++ b) i <-> synced_at a i.
Proof. intros i a b H. unfold synced_at. rewrite !sync_app by lia. tauto. Qed.

Lemma app_same : forall A (a b c d : list A), zlen a = zlen c -> a ++ b = c ++ d -> a = c /\ b = d.
Proof.
  intros A a. induction a as [|x a IH]; intros b [|y c] d L E; cbn in E; unfold zlen in L; cbn in L; try lia; [auto|].
  injection E as -> E. destruct (IH b c d) as [-> ->]; auto. unfold zlen. lia.
Qed.

Lemma packets_cut : forall a ps, packets_of a ps -> forall b qs, packets_of (a ++ b) qs -> is_prefix ps qs.
Proof.
  induction 1 as [bs L|p rest ps L S K IH|bs i p rest ps L N I Sy F D Lp K IH|bs L N|bs L N F]; intros b qs Q; try (exists qs; reflexivity).
  - rewrite <- app_assoc in Q.
    assert (S0 : sync_at (p ++ rest ++ b) 0) by (apply sync_app; [lia|auto]).
    inversion Q as [bs' L'|p' rest' ps' L' S' K'|bs' i' p' rest' ps' L' N'|bs' L' N'|bs' L' N']; subst; try contradiction.
    + exfalso. pose proof (zlen_app _ p (rest ++ b)). pose proof (zlen_nonneg _ (rest ++ b)). lia.
    + apply app_same in H as [-> ->]; [|lia]. destruct (IH b ps' K') as [c ->]. exists c. reflexivity.
  - assert (N0 : ~ sync_at (bs ++ b) 0) by (intros X; apply sync_app in X; [auto|lia]).
    inversion Q as [bs' L'|p' rest' ps' L' S' K'|bs' i' p' rest' ps' L' N' I' Sy' F' D' Lp' K'|bs' L' N'|bs' L' N' F']; subst.
    + exfalso. rewrite zlen_app in L'. pose proof (zlen_nonneg _ b). lia.
    + exfalso. apply N0. rewrite <- H. apply sync_app; [lia|auto].
    + assert (i' = i) as ->.
      { destruct (Z.lt_trichotomy i i') as [C|[C|C]]; [|auto|].
        - exfalso. apply (F' i); [lia|]. apply synced_app; [lia|auto].
        - exfalso. apply (F i'); [lia|]. apply synced_app in Sy'; [auto|lia]. }
      rewrite zdrop_app_le in D' by lia. rewrite D, <- app_assoc in D'. apply app_same in D' as [-> <-]; [|lia].
      destruct (IH b ps' K') as [c ->]. exists c. reflexivity.
    + exfalso. rewrite zlen_app in L'. pose proof (zlen_nonneg _ b). lia.
    + exfalso. apply (F' i); [lia|]. apply synced_app; [lia|auto].
Qed.

Lemma views_app : forall P (view : list (list Z) -> list Z -> P) a b h, is_prefix (views view h a) (views view h (a ++ b)).
Proof.
  intros P view a. induction a as [|x a IH]; intros b h; cbn [views app]; [eexists; reflexivity|].
  destruct (IH b (x :: h)) as [c ->]. exists c. reflexivity.
Qed.

(** ** Any sink *)
Section Sinks.
Context {P X : Type}.
Variable k : sink P.
Variable inv : sk_state k -> Prop.
Variable out : sk_state k -> list X.

Definition grows : Prop := forall s p s' b, inv s -> sk_handle k s p = Ok (s', b) -> inv s' /\ is_prefix (out s) (out s').

Lemma hand_grows : grows -> forall ps d o d' b, inv d -> hand k d ps = (o, Ok (d', b)) -> inv d' /\ is_prefix (out d) (out d').
Proof.
  intros G ps. induction ps as [|p ps IH]; intros d o d' b I H; cbn [hand] in H.
  - injection H as <- <- <-. split; [auto|apply pre_refl].
  - destruct (sk_handle k d p) as [[d1 [|]]|f] eqn:E.
    + destruct (G _ _ _ _ I E) as [I1 P1]. destruct (hand k d1 ps) as [o1 x] eqn:E1. injection H as <- ->.
      destruct (IH _ _ _ _ I1 E1) as [I2 P2]. split; [auto|eapply pre_trans; eauto].
    + injection H as <- <- <-. eapply G; eauto.
    + discriminate.
Qed.

Lemma hand_cut : forall ps qs d,
  snd (hand k d (ps ++ qs)) = match snd (hand k d ps) with Ok (d', true) => snd (hand k d' qs) | x => x end.
Proof.
  induction ps as [|p ps IH]; intros qs d; cbn [hand app]; [reflexivity|].
  destruct (sk_handle k d p) as [[d1 [|]]|f]; try reflexivity.
  specialize (IH qs d1). destruct (hand k d1 (ps ++ qs)), (hand k d1 ps). exact IH.
Qed.

(** [keeps]: a property of the states in which packets are still accepted. *)
Definition keeps (calm : sk_state k -> Prop) : Prop := forall s p s', calm s -> sk_handle k s p = Ok (s', true) -> calm s'.
Lemma hand_keeps : forall calm, keeps calm -> forall ps d o d', calm d -> hand k d ps = (o, Ok (d', true)) -> calm d'.
Proof.
  intros calm K ps. induction ps as [|p ps IH]; intros d o d' C H; cbn [hand] in H.
  - injection H as <- <-. auto.
  - destruct (sk_handle k d p) as [[d1 [|]]|f] eqn:E; try discriminate.
    destruct (hand k d1 ps) as [o1 x] eqn:E1. injection H as <- ->. eauto.
Qed.

(** The states before End: the one is behind the other, or the same. *)
Lemma feed_cut : grows -> forall calm, keeps calm -> forall ps qs n d d0 c t c' t', (List.length (ps ++ qs) < n)%nat -> sk_start k d = Ok (d0, true) ->
  inv d0 -> calm d0 ->
  FeedPackets (list_source P) k n ps d = Some (Ok (c, t)) -> FeedPackets (list_source P) k n (ps ++ qs) d = Some (Ok (c', t')) ->
  exists d1 d2, sk_end k d1 = Ok t /\ sk_end k d2 = Ok t' /\ inv d1 /\ inv d2 /\ is_prefix (out d1) (out d2) /\ (d1 = d2 \/ calm d1).
Proof.
  intros G calm K ps qs n d d0 c t c' t' Hn S I C F1 F2. rewrite app_length in Hn.
  rewrite (feed_hand _ k ps n d d0) in F1 by (auto; lia). rewrite (feed_hand _ k (ps ++ qs) n d d0) in F2 by (auto; rewrite app_length; lia).
  rewrite hand_cut in F2. destruct (hand k d0 ps) as [o1 [[d1 b1]|f1]] eqn:E1; cbn [snd] in F1, F2; [|discriminate].
  destruct (hand_grows G _ _ _ _ _ I E1) as [I1 P1].
  assert (Fin : forall x c t, Some (finish k x) = Some (Ok (c, t)) -> sk_end k x = Ok t).
  { clear. intros x c t H. injection H as H. unfold finish in H. destruct (sk_end k x) as [y|]; cbn [bind] in H; [|discriminate].
    destruct (sk_exit k y); cbn [bind] in H; [|discriminate]. injection H as <- <-. reflexivity. }
  destruct b1.
  - destruct (hand k d1 qs) as [o2 [[d2 b2]|f2]] eqn:E2; cbn [snd] in F2; [|discriminate].
    destruct (hand_grows G _ _ _ _ _ I1 E2) as [I2 P2]. exists d1, d2. repeat (split; [eauto; fail|]). right. eapply hand_keeps; eauto.
  - exists d1, d1. repeat (split; [eauto; fail|]). split; [apply pre_refl|auto].
Qed.

Lemma run_cut : grows -> forall calm, keeps calm -> forall view reads reads' n d d0 c h t c' h' t', cut_short reads reads' ->
  (List.length (bytes_of reads') < n)%nat -> sk_start k d = Ok (d0, true) -> inv d0 -> calm d0 ->
  run_main view k reads d n = Some (Ok (c, (h, t))) -> run_main view k reads' d n = Some (Ok (c', (h', t'))) ->
  exists d1 d2, sk_end k d1 = Ok t /\ sk_end k d2 = Ok t' /\ inv d1 /\ inv d2 /\ is_prefix (out d1) (out d2) /\ (d1 = d2 \/ calm d1).
Proof.
  intros G calm K view reads reads' n d d0 c h t c' h' t' [R [R' [more E]]] Hn S I C M M'.
  destruct (reads_packets reads R) as [bs [Pk _]]. destruct (reads_packets reads' R') as [bs' [Pk' _]].
  pose proof Pk' as Pm. rewrite E in Pm. destruct (packets_cut _ _ Pk _ _ Pm) as [x ->].
  assert (L : (List.length (bytes_of reads) < n)%nat) by (rewrite E, app_length in Hn; lia).
  pose proof (main_feed view k reads bs d n R Pk L) as F. pose proof (main_feed view k reads' (bs ++ x) d n R' Pk' Hn) as F'.
  assert (L' : (List.length (views view [] (bs ++ x)) < n)%nat) by (rewrite views_length; pose proof (packets_length _ _ Pk'); lia).
  destruct (views_app _ view bs x []) as [y Ey]. rewrite Ey in *.
  destruct (FeedPackets (list_source P) k n (views view [] bs) d) as [[[c1 t1]|f1]|] eqn:F1; [|congruence|contradiction].
  destruct (FeedPackets (list_source P) k n (views view [] bs ++ y) d) as [[[c2 t2]|f2]|] eqn:F2; [|congruence|contradiction].
  destruct F as [h1 F]. destruct F' as [h2 F']. rewrite M in F. rewrite M' in F'. injection F as <- <- <-. injection F' as <- <- <-.
  exact (feed_cut G calm K _ _ _ _ _ _ _ _ _ L' S I C F1 F2).
Qed.

(** End adds nothing. *)
Lemma run_cut_same : grows -> (forall s s', inv s -> sk_end k s = Ok s' -> out s' = out s) ->
  forall view reads reads' n d d0 c h t c' h' t', cut_short reads reads' ->
  (List.length (bytes_of reads') < n)%nat -> sk_start k d = Ok (d0, true) -> inv d0 ->
  run_main view k reads d n = Some (Ok (c, (h, t))) -> run_main view k reads' d n = Some (Ok (c', (h', t'))) -> is_prefix (out t) (out t').
Proof.
  intros G N view reads reads' n d d0 c h t c' h' t' Cs L S I M M'.
  destruct (run_cut G (fun _ => True) (fun _ _ _ _ _ => Logic.I) view reads reads' n d d0 c h t c' h' t' Cs L S I Logic.I M M') as [d1 [d2 [E1 [E2 [I1 [I2 [Px _]]]]]]].
  rewrite (N _ _ I1 E1), (N _ _ I2 E2). exact Px.
Qed.
End Sinks.

Lemma tables_grow : forall S X (out : S -> list X) handle, (forall s pid t s', handle s pid t = Ok s' -> is_prefix (out s) (out s')) ->
  forall ts s pid s', handle_tables handle s pid ts = Ok s' -> is_prefix (out s) (out s').
Proof.
  intros S X out handle H ts. induction ts as [|t ts IH]; intros s pid s' E; cbn [handle_tables] in E.
  - injection E as <-. apply pre_refl.
  - ib E. eapply pre_trans; eauto.
Qed.

(** ** The filters hand on to the sink behind them *)
Lemma filter_grows : forall X stage opt k inv (out : sk_state k -> list X), grows k inv out ->
  grows (service_filter stage opt k) (fun x => inv (snd x)) (fun x => out (snd x)).
Proof.
  intros X stage opt k inv out G [s d] p [s' d'] b I H. cbn [service_filter sk_handle sf_HandlePacket snd] in *. unfold sf_HandlePacket in H. ib H.
  assert (R : inv d /\ is_prefix (out d) (out d)) by (split; [auto|apply pre_refl]).
  destruct (sf_done _); [injection H as <- <- <-; auto|].
  destruct (sf_CheckFilterForDrop _ _); [injection H as <- <- <-; auto|].
  destruct (p_pid p =? PID_PAT).
  - destruct (sf_pat _) as [t|]; [|discriminate]. ib H. destruct v0 as [d1 ok]. injection H as <- <- <-. eapply G; eauto.
  - apply assert_ok in H as [_ H]. ib H. destruct v0 as [d1 ok]. injection H as <- <- <-. eapply G; eauto.
Qed.

Section Program.
Variable X : Type.
Variable npackets : pmt -> nat.
Variable o : ProgramFilter.program_filter_option.
Variable k : sink packet.
Variable inv : sk_state k -> Prop.
Variable out : sk_state k -> list X.
Hypothesis G : grows k inv out.

Let on (d d' : sk_state k) : Prop := inv d -> inv d' /\ is_prefix (out d) (out d').
Lemma on_refl : forall d, on d d.
Proof. intros d I. split; [auto|apply pre_refl]. Qed.
Lemma on_trans : forall a b c, on a b -> on b c -> on a c.
Proof. intros a b c A B I. destruct (A I) as [I1 P1]. destruct (B I1) as [I2 P2]. split; [auto|eapply pre_trans; eauto]. Qed.
Lemma on_handle : forall d p d' b, sk_handle k d p = Ok (d', b) -> on d d'.
Proof. intros d p d' b E I. eapply G; eauto. Qed.

Lemma on_all : forall ps d d' b, ProgramFilter.pf_send_all k d ps = Ok (d', b) -> on d d'.
Proof.
  induction ps as [|p ps IH]; intros d d' b H; cbn [ProgramFilter.pf_send_all] in H.
  - injection H as <- <-. apply on_refl.
  - ib H. destruct v as [d1 ok]. eapply on_trans; [eapply on_handle; eauto|]. destruct ok; [eauto|]. injection H as <- <-. apply on_refl.
Qed.
Lemma on_pmt : forall n s d s' d' b, ProgramFilter.pf_send_pmt npackets k n s d = Some (Ok ((s', d'), b)) -> on d d'.
Proof.
  induction n as [|n IH]; intros s d s' d' b H; cbn [ProgramFilter.pf_send_pmt] in H; [discriminate|].
  destruct (ProgramFilter.pz_next npackets (ProgramFilter.pf_pz s)) as [q z]. destruct (p_pid q =? _); [|discriminate].
  destruct (sk_handle k d q) as [[d1 [|]]|f] eqn:E; try discriminate.
  - eapply on_trans; [eapply on_handle; eauto|]. destruct (ProgramFilter.pz_at_boundary z); [injection H as <- <- <-; apply on_refl|eauto].
  - injection H as <- <- <-. eapply on_handle; eauto.
Qed.

Lemma on_wait : forall s d p s' d' b, ProgramFilter.pf_WaitReady npackets o k s d p = Ok ((s', d'), b) -> on d d'.
Proof.
  intros s d p s' d' b H. unfold ProgramFilter.pf_WaitReady in H.
  destruct (ProgramFilter.pf_stop s); [injection H as <- <- <-; apply on_refl|].
  destruct ((p_pid p =? PID_PAT) && ProgramFilter.pfo_pre_streaming o); [ib H; destruct v as [d1 ok]; injection H as <- <- <-; eapply on_handle; eauto|].
  destruct (_ || _); [injection H as <- <- <-; apply on_refl|].
  destruct (negb _); [injection H as <- <- <-; apply on_refl|].
  destruct (p_pcr p) as [pcr|]; [|injection H as <- <- <-; apply on_refl].
  ib H. rename v into s2.
  destruct (ProgramFilter.pf_NeedClockSync s2); [injection H as <- <- <-; apply on_refl|].
  ib H. destruct (0 <=? v); [injection H as <- <- <-; apply on_refl|].
  ib H. destruct (v0 <? 0); [injection H as <- <- <-; apply on_refl|].
  ib H. destruct v1 as [[s3 d3] ok].
  assert (A : on d d3).
  { destruct (ProgramFilter.pfo_pre_streaming o); [injection Hb2 as <- <- <-; apply on_refl|].
    apply assert_ok in Hb2 as [_ Hb2]. ib Hb2. destruct v1 as [d1 ok1]. destruct ok1; injection Hb2 as <- <- <-; eapply on_all; eauto. }
  destruct (negb ok); [injection H as <- <- <-; auto|].
  destruct (ProgramFilter.pf_send_pmt _ _ _ _ _) as [[[[s4 d4] ok4]|f]|] eqn:E; cbn [bind] in H; try discriminate.
  eapply on_trans; [exact A|]. apply on_pmt in E.
  destruct (negb ok4); [injection H as <- <- <-; auto|].
  eapply on_trans; [exact E|]. ib H. destruct v1 as [d5 ok5]. injection H as <- <- <-. eapply on_handle; eauto.
Qed.

Lemma on_forward : forall s d p s' d' b, ProgramFilter.pf_forward npackets k s d p = Ok ((s', d'), b) -> on d d'.
Proof.
  intros s d p s' d' b H. unfold ProgramFilter.pf_forward in H. destruct (p_pid p =? _).
  - destruct (ProgramFilter.pz_next npackets (ProgramFilter.pf_pz s)) as [q z]. apply assert_ok in H as [_ H]. ib H. destruct v as [d1 ok].
    injection H as <- <- <-. eapply on_handle; eauto.
  - destruct (zmem _ _); [injection H as <- <- <-; apply on_refl|]. ib H. destruct v as [d1 ok]. injection H as <- <- <-. eapply on_handle; eauto.
Qed.
Lemma on_stream : forall s d p s' d' b, ProgramFilter.pf_DoStreaming npackets k s d p = Ok ((s', d'), b) -> on d d'.
Proof.
  intros s d p s' d' b H. unfold ProgramFilter.pf_DoStreaming in H.
  destruct (ProgramFilter.pf_stop s); [injection H as <- <- <-; apply on_refl|].
  destruct (p_pid p =? _); [|eapply on_forward; eauto].
  destruct (p_pcr p) as [pcr|]; [|ib H; destruct v as [d1 ok]; injection H as <- <- <-; eapply on_handle; eauto].
  ib H. destruct (ProgramFilter.pf_NeedClockSync v); [ib H; destruct v0 as [d1 ok]; injection H as <- <- <-; eapply on_handle; eauto|].
  ib H. destruct (0 <=? v0); [injection H as <- <- <-; apply on_refl|eapply on_forward; eauto].
Qed.

Lemma program_grows : forall stage, grows (ProgramFilter.program_filter npackets o k stage) (fun x => inv (snd x)) (fun x => out (snd x)).
Proof.
  intros stage [s d] p [s' d'] b I H. cbn [ProgramFilter.program_filter sk_handle snd] in *. unfold ProgramFilter.pf_HandlePacket in H. ib H.
  assert (A : on d d') by (destruct (ProgramFilter.pf_streaming v); [eapply on_stream|eapply on_wait]; eauto). exact (A I).
Qed.
End Program.

(** ** Standard output *)
Lemma stdout_grows : forall bytes, (forall p, zlen (bytes p) = 188) -> grows (to_stdout bytes) fine (fun s => so_out s ++ so_buf s).
Proof.
  intros bytes size s p s' b I H. destruct (stdout_takes bytes size s p I) as [s1 [E [F O]]]. rewrite E in H. injection H as <- <-.
  split; [auto|]. rewrite O. apply pre_app.
Qed.
Lemma stdout_ends : forall bytes s s', fine s -> sk_end (to_stdout bytes) s = Ok s' -> so_out s' = so_out s ++ so_buf s.
Proof. intros bytes s s' F E. destruct (stdout_finish bytes s F) as [t [E1 O]]. unfold finish in E1. rewrite E in E1. cbn in E1. injection E1 as ->. exact O. Qed.

(** ** record-service *)
Section Recorder.
Variable o : recorder_option.
Variable local : nat -> Z.
Variable bytes : packet -> list Z.

Lemma put_grows : forall s e, is_prefix (rc_trace s) (rc_trace (rc_put s e)).
Proof. intros. cbn. apply pre_app. Qed.
Lemma send_grows : forall s kd t x y s', rc_SendEventMessage s kd t x y = Ok s' -> is_prefix (rc_trace s) (rc_trace s').
Proof. intros s kd t x y s' H. unfold rc_SendEventMessage in H. ib H. ib H. injection H as <-. apply put_grows. Qed.
Lemma send_boundary_grows : forall s kd t s', rc_SendBoundaryMessage s kd t = Ok s' -> is_prefix (rc_trace s) (rc_trace s').
Proof. intros s kd t s' H. unfold rc_SendBoundaryMessage in H. destruct (rc_boundary s) as [[x y]|]; [|discriminate]. eapply send_grows; eauto. Qed.
Lemma chunk_grows : forall s x y s', rc_SendChunkMessage s x y = Ok s' -> is_prefix (rc_trace s) (rc_trace s').
Proof. intros s x y s' H. unfold rc_SendChunkMessage in H. ib H. injection H as <-. apply put_grows. Qed.
Lemma now_same : forall s s' n, rc_Now local s = Ok (s', n) -> rc_trace s' = rc_trace s.
Proof. intros s s' n H. unfold rc_Now in H. ib H. injection H as <- <-. reflexivity. Qed.

Lemma chunk_end_grows : forall s pos s', rc_OnEndOfChunk local s pos = Ok s' -> is_prefix (rc_trace s) (rc_trace s').
Proof.
  intros s pos s' H. unfold rc_OnEndOfChunk in H. ib H. destruct v as [s1 now]. apply now_same in Hb. rewrite <- Hb. ib H.
  eapply pre_trans; [|eapply chunk_grows; eauto]. destruct (rc_started s1); [|injection Hb0 as <-; apply pre_refl].
  destruct (rc_eit s1); [eapply send_grows; eauto|discriminate].
Qed.
Lemma ring_events_grow : forall evs s s', rc_ring_events local s evs = Ok s' -> is_prefix (rc_trace s) (rc_trace s').
Proof.
  induction evs as [|e evs IH]; intros s s' H; cbn [rc_ring_events] in H.
  - injection H as <-. apply pre_refl.
  - ib H. eapply pre_trans; [apply (put_grows s (Ring e))|]. eapply pre_trans; [|eapply IH; eauto].
    destruct e; try (injection Hb as <-; apply pre_refl). eapply chunk_end_grows; eauto.
Qed.

Lemma rc_table_same : forall s pid t s', rc_handleTable o local s pid t = Ok s' -> rc_trace s' = rc_trace s.
Proof.
  intros s pid t s' H. unfold rc_handleTable in H. destruct (tb_body t) as [b|b|b|b|b|b|b|]; try (injection H as <-; reflexivity).
  - unfold rc_HandlePat in H. destruct (negb _); [injection H as <-; reflexivity|]. destruct b as [u|]; [|injection H as <-; reflexivity].
    destruct (_ =? 0); [injection H as <-; reflexivity|]. destruct (mfind _ _); [|discriminate]. injection H as <-. reflexivity.
  - unfold rc_HandlePmt in H. destruct b as [u|]; [|injection H as <-; reflexivity].
    destruct (negb _); [injection H as <-; reflexivity|]. destruct (negb _); [injection H as <-; reflexivity|]. destruct (negb _); injection H as <-; reflexivity.
  - unfold rc_HandleEit in H. destruct b as [u|]; [|injection H as <-; reflexivity].
    destruct (negb _); [injection H as <-; reflexivity|]. destruct (eit_events u); [injection H as <-; reflexivity|]. ib H. injection H as <-. reflexivity.
  - unfold rc_HandleTot in H. destruct b as [u|]; [|injection H as <-; reflexivity]. ib H. injection H as <-. reflexivity.
Qed.

Lemma preparing_grows : forall s s' b, rc_OnPreparing o local s = Ok (s', b) -> is_prefix (rc_trace s) (rc_trace s').
Proof.
  intros s s' b H. unfold rc_OnPreparing in H. destruct (ck_IsReady _); [|injection H as <- <-; apply pre_refl].
  destruct (rc_new_eit s) as [t|]; [|injection H as <- <-; apply pre_refl].
  ib H. destruct v as [s2 now]. apply now_same in Hb. apply assert_ok in H as [_ H]. apply assert_ok in H as [_ H]. ib H.
  apply chunk_grows in Hb0. change (rc_trace (rc_set_recording (rc_set_eit s (Some t) None))) with (rc_trace s) in Hb. rewrite <- Hb.
  eapply pre_trans; [exact Hb0|]. ib H.
  assert (A : forall x y, rc_trace (rc_UpdateEventBoundary v x y) = rc_trace v) by reflexivity.
  destruct (rc_IsUnspecifiedEventEndTime _); [ib H; injection H as <- <-; apply send_boundary_grows in Hb2; exact Hb2|].
  ib H. destruct (_ <? _); [ib H; injection H as <- <-; apply send_boundary_grows in Hb3; exact Hb3|]. injection H as <- <-. apply pre_refl.
Qed.

Lemma events_grow : forall s s', rc_events local s = Ok s' -> is_prefix (rc_trace s) (rc_trace s').
Proof.
  intros s s' H. unfold rc_events in H. ib H. destruct v as [s1 now]. apply now_same in Hb. rewrite <- Hb. clear Hb.
  destruct (rc_eit s1) as [old|]; [|discriminate]. ib H. destruct v as [t changed]. clear Hb.
  set (s2 := match rc_new_eit s1 with None => s1 | Some new => rc_set_eit s1 (Some new) None end) in *.
  assert (E2 : rc_trace s1 = rc_trace s2) by (unfold s2; destruct (rc_new_eit s1); reflexivity). rewrite E2. clearbody s2. clear E2.
  destruct (rc_started s2), changed.
  - destruct (rc_new_eit s1) as [new|]; [|discriminate]. ib H. apply send_boundary_grows in Hb. apply send_boundary_grows in H.
    eapply pre_trans; [exact Hb|exact H].
  - ib H. destruct (rc_IsUnspecifiedEventEndTime v); [injection H as <-; apply pre_refl|]. ib H.
    destruct (_ <=? _); [|injection H as <-; apply pre_refl]. ib H. injection H as <-. apply send_boundary_grows in Hb1. exact Hb1.
  - destruct (rc_new_eit s1) as [new|]; [|discriminate]. ib H. injection H as <-. apply send_boundary_grows in Hb. exact Hb.
  - injection H as <-. apply pre_refl.
Qed.

Lemma recorder_grows : forall stage, grows (recorder o local bytes stage) (fun _ => True) rc_trace.
Proof.
  intros stage s p s' b _ H. cbn [recorder sk_handle] in H. unfold rc_HandlePacket in H. ib H. ib H. split; [exact Logic.I|].
  assert (A : rc_trace v = rc_trace s).
  { unfold rc_feed_clock in Hb. destruct (_ && _); [|injection Hb as <-; reflexivity]. destruct (p_pcr p); [|injection Hb as <-; reflexivity].
    ib Hb. injection Hb as <-. reflexivity. }
  apply (tables_grow _ _ rc_trace) in Hb0; [|intros x pid t x' E; rewrite (rc_table_same _ _ _ _ E); apply pre_refl]. rewrite A in Hb0.
  eapply pre_trans; [exact Hb0|]. destruct (rc_recording v0); [|eapply preparing_grows; eauto].
  unfold rc_OnRecording in H. ib H. ib H. destruct v2 as [[r evs] ok]. ib H. injection H as <- <-.
  eapply pre_trans; [eapply events_grow; eauto|]. apply ring_events_grow in Hb3. exact Hb3.
Qed.
End Recorder.

(** ** The JSON commands *)
Lemma eits_grow : forall mjd o, grows (EitCollector.eit_sink mjd o) (fun _ => True) EitCollector.ec_out.
Proof.
  intros mjd o s p s' b _ H. split; [exact Logic.I|]. cbn [EitCollector.eit_sink sk_handle] in H. unfold EitCollector.ec_HandlePacket in H. ib H.
  assert (A : is_prefix (EitCollector.ec_out s) (EitCollector.ec_out v)).
  { clear H. revert s Hb. induction p as [|d p IH]; intros s H; cbn [EitCollector.ec_deliver_all] in H; [injection H as <-; apply pre_refl|].
    ib H. eapply pre_trans; [|apply IH; eauto]. clear IH H. destruct d as [x|t]; cbn [EitCollector.ec_deliver] in Hb.
    - unfold EitCollector.ec_handleSection in Hb.
      repeat match type of Hb with (if ?c then _ else _) = _ => destruct c; [first [injection Hb as <-; apply pre_refl | idtac]|] | bind _ _ = _ => ib Hb end.
      unfold EitCollector.ec_write in Hb. ib Hb. injection Hb as <-. apply pre_app.
    - injection Hb as <-. destruct t; cbn; apply pre_refl. }
  destruct (EitCollector.ec_IsCompleted o v); [injection H as <- <-; auto|]. destruct (EitCollector.ec_CheckTimeout o v); injection H as <- <-; auto.
Qed.

Lemma eitpfs_grow : forall mjd o, grows (EitpfCollector.pf_sink mjd o) (fun _ => True) EitpfCollector.pf_out.
Proof.
  intros mjd o s p s' b _ H. split; [exact Logic.I|]. cbn [EitpfCollector.pf_sink sk_handle] in H. unfold EitpfCollector.pf_HandlePacket in H. ib H. ib H.
  injection H as <- _. clear Hb0. revert s Hb. induction p as [|x p IH]; intros s H; cbn [EitpfCollector.pf_handle_all] in H; [injection H as <-; apply pre_refl|].
  ib H. eapply pre_trans; [|apply IH; eauto]. clear IH H.
  assert (W : forall out e b out', EitpfCollector.pf_write mjd out e b = Ok out' -> is_prefix out out').
  { intros out e b1 out' W. unfold EitpfCollector.pf_write in W. destruct b1; [ib W|]; injection W as <-; [apply pre_app|apply pre_refl]. }
  unfold EitpfCollector.pf_handleSection in Hb.
  repeat match type of Hb with (if ?c then _ else _) = _ => destruct c | bind _ _ = _ => ib Hb end; injection Hb as <-; try apply pre_refl; cbn; eauto.
Qed.

Lemma metadata_grows : forall sid, grows (MetadataFilter.md_sink sid) (fun _ => True) (fun s => s).
Proof.
  intros sid s p s' b _ H. split; [exact Logic.I|]. cbn [MetadataFilter.md_sink sk_handle] in H. unfold MetadataFilter.md_HandlePacket in H. ib H.
  injection H as <- _. apply (tables_grow _ _ (fun s => s)) in Hb; [exact Hb|]. clear. intros s pid t s' H.
  unfold MetadataFilter.md_handleTable in H. destruct (tb_body t); try (injection H as <-; apply pre_refl).
  unfold MetadataFilter.md_HandleEit in H. destruct t0 as [e|]; [|injection H as <-; apply pre_refl]. destruct (_ && _); [injection H as <-; apply pre_refl|].
  destruct (eit_events e) as [|v0 vs]; [injection H as <-; apply pre_refl|]. ib H. injection H as <-. apply pre_app.
Qed.

Lemma airtime_grows : forall o, grows (AirtimeTracker.at_sink o) (fun _ => True) AirtimeTracker.at_out.
Proof.
  intros o s p s' b _ H. split; [exact Logic.I|]. cbn [AirtimeTracker.at_sink sk_handle] in H. unfold AirtimeTracker.at_HandlePacket in H. ib H.
  injection H as <- _. apply (tables_grow _ _ AirtimeTracker.at_out) in Hb; [exact Hb|]. clear. intros s pid t s' H.
  assert (W : forall e v s', AirtimeTracker.at_WriteEventInfo s e v = Ok s' -> is_prefix (AirtimeTracker.at_out s) (AirtimeTracker.at_out s')).
  { clear. intros e v s' H. unfold AirtimeTracker.at_WriteEventInfo in H. ib H. ib H. injection H as <-. apply pre_app. }
  unfold AirtimeTracker.at_handleTable in H. destruct (tb_body t); try (injection H as <-; apply pre_refl).
  unfold AirtimeTracker.at_HandleEit in H. destruct t0 as [e|]; [|injection H as <-; apply pre_refl].
  repeat match type of H with (if ?c then _ else _) = _ => destruct c | (match ?l with [] => _ | _ :: _ => _ end) = _ => destruct l end;
    first [injection H as <-; apply pre_refl | eauto].
Qed.

Lemma pes_grows : grows PesPrinter.pp_sink (fun _ => True) PesPrinter.pp_out.
Proof.
  intros s p s' b _ H. split; [exact Logic.I|]. cbn [PesPrinter.pp_sink sk_handle] in H. unfold PesPrinter.pp_HandlePacket in H. ib H. ib H. ib H. ib H.
  injection H as <- _.
  assert (W : forall s kd pid l q v s', PesPrinter.pp_Print s kd pid l q v = Ok s' -> is_prefix (PesPrinter.pp_out s) (PesPrinter.pp_out s')).
  { clear. intros s kd pid l q v s' H. unfold PesPrinter.pp_Print in H.
    destruct (mfind q (PesPrinter.pp_clocks s)) as [c|]; [destruct (ck_IsReady c)|]; repeat ib H; injection H as <-; apply pre_app. }
  assert (A1 : is_prefix (PesPrinter.pp_out s) (PesPrinter.pp_out v)).
  { unfold PesPrinter.pp_pcr in Hb. destruct (p_pcr p); [|injection Hb as <-; apply pre_refl]. destruct (mfind _ _); [|injection Hb as <-; apply pre_refl].
    ib Hb. apply W in Hb. exact Hb. }
  assert (A2 : forall s kd pid x s', PesPrinter.pp_pes s kd pid x = Ok s' -> is_prefix (PesPrinter.pp_out s) (PesPrinter.pp_out s')).
  { intros s0 kd pid x s0' H. unfold PesPrinter.pp_pes in H. destruct x as [x|]; [|injection H as <-; apply pre_refl]. apply assert_ok in H as [_ H].
    destruct (mfind _ _) as [[l q]|]; eapply W; eauto. }
  eapply pre_trans; [exact A1|]. eapply pre_trans; [eapply A2; eauto|]. eapply pre_trans; [eapply A2; eauto|].
  apply (tables_grow _ _ PesPrinter.pp_out) in Hb2; [exact Hb2|]. clear. intros s pid t s' H.
  unfold PesPrinter.pp_handleTable in H. destruct (tb_body t) as [b|b|b|b|b|b|b|]; try (injection H as <-; apply pre_refl).
  - injection H as <-. unfold PesPrinter.pp_HandlePat. destruct b as [u|]; [|apply pre_refl].
    assert (M : forall l s, is_prefix (PesPrinter.pp_out s) (PesPrinter.pp_out (PesPrinter.pp_add_pmts s l))).
    { induction l as [|[a c] l IH]; intros s0; cbn [PesPrinter.pp_add_pmts]; [apply pre_refl|]. eapply pre_trans; [|apply IH]. apply pre_app. }
    destruct (pid =? PID_PAT).
    + assert (A : is_prefix (PesPrinter.pp_out s) (PesPrinter.pp_out (PesPrinter.pp_add_pmts (PesPrinter.pp_put (PesPrinter.pp_ResetStates s) [PesPrinter.LPat (pat_version u) pid]) (pat_pmts u)))).
      { eapply pre_trans; [|apply M]. apply pre_app. }
      destruct (PesPrinter.pp_pmt_pids _); exact A.
    + eapply pre_trans; [|apply pre_app]. apply pre_app.
  - injection H as <-. destruct b; [apply pre_app|apply pre_refl].
  - injection H as <-. unfold PesPrinter.pp_HandlePmt. destruct b as [m|]; [|apply pre_refl].
    assert (M : forall q l s, is_prefix (PesPrinter.pp_out s) (PesPrinter.pp_out (PesPrinter.pp_add_streams s q l))).
    { intros q. induction l as [|[a c] l IH]; intros s0; cbn [PesPrinter.pp_add_streams]; [apply pre_refl|]. eapply pre_trans; [|apply IH]. apply pre_app. }
    eapply pre_trans; [|apply M]. destruct (negb _); apply pre_app.
  - unfold PesPrinter.pp_HandleEit in H. destruct b as [e|]; [|injection H as <-; apply pre_refl]. destruct (negb _); [injection H as <-; apply pre_refl|].
    ib H. injection H as <-. apply pre_app.
  - unfold PesPrinter.pp_HandleTot in H. destruct b as [e|]; [|injection H as <-; apply pre_refl]. ib H. injection H as <-. apply pre_app.
Qed.

Lemma scan_same : forall s pid t s', ServiceScanner.sc_handleTable s pid t = Ok s' -> ServiceScanner.sc_out s' = ServiceScanner.sc_out s.
Proof.
  intros s pid t s' H. unfold ServiceScanner.sc_handleTable in H. destruct (tb_body t) as [b|b|b|b|b|b|b|]; injection H as <-; try reflexivity.
  - unfold ServiceScanner.sc_HandlePat. destruct b; repeat (match goal with |- context [if ?c then _ else _] => destruct c end); reflexivity.
  - unfold ServiceScanner.sc_HandleSdt. destruct b; repeat (match goal with |- context [if ?c then _ else _] => destruct c end); reflexivity.
  - unfold ServiceScanner.sc_HandleNit. destruct b; repeat (match goal with |- context [if ?c then _ else _] => destruct c end); reflexivity.
Qed.
Lemma scan_grows : forall o, grows (ServiceScanner.sc_sink o) (fun _ => True) ServiceScanner.sc_out.
Proof.
  intros o s p s' b _ H. split; [exact Logic.I|]. cbn [ServiceScanner.sc_sink sk_handle] in H. unfold ServiceScanner.sc_HandlePacket in H. ib H.
  injection H as <- _. apply (tables_grow _ _ ServiceScanner.sc_out) in Hb; [exact Hb|]. intros x pid t x' E. rewrite (scan_same _ _ _ _ E). apply pre_refl.
Qed.
Lemma scan_calm : forall o, keeps (ServiceScanner.sc_sink o) (fun s => ServiceScanner.sc_completed s = false).
Proof.
  intros o s p s' _ H. cbn [ServiceScanner.sc_sink sk_handle] in H. unfold ServiceScanner.sc_HandlePacket in H. ib H. injection H as <- H.
  destruct (ServiceScanner.sc_completed v); [discriminate|reflexivity].
Qed.

Lemma sync_same : forall o s pid t s', PcrSynchronizer.ps_handleTable o s pid t = Ok s' -> PcrSynchronizer.ps_out s' = PcrSynchronizer.ps_out s.
Proof.
  intros o s pid t s' H. unfold PcrSynchronizer.ps_handleTable in H. destruct (tb_body t) as [b|b|b|b|b|b|b|]; injection H as <-; try reflexivity.
  - unfold PcrSynchronizer.ps_HandlePat. destruct (negb _); [reflexivity|]. destruct b as [u|]; [|reflexivity]. destruct (_ =? 0); [reflexivity|].
    cbn. destruct (PcrSynchronizer.ps_pmt_pids s); reflexivity.
  - unfold PcrSynchronizer.ps_HandlePmt. destruct b as [m|]; [|reflexivity]. destruct (mfind _ _); [|reflexivity]. destruct (negb _); reflexivity.
  - destruct b; reflexivity.
  - unfold PcrSynchronizer.ps_HandleSdt. destruct b as [d|]; [|reflexivity]. destruct (PcrSynchronizer.ps_count _ _ _ _). reflexivity.
Qed.
Lemma sync_grows : forall o, grows (PcrSynchronizer.ps_sink o) (fun _ => True) PcrSynchronizer.ps_out.
Proof.
  intros o s p s' b _ H. split; [exact Logic.I|]. cbn [PcrSynchronizer.ps_sink sk_handle] in H. unfold PcrSynchronizer.ps_HandlePacket in H.
  destruct (_ =? PID_NULL); [injection H as <- <-; apply pre_refl|]. ib H.
  apply (tables_grow _ _ PcrSynchronizer.ps_out) in Hb; [|intros x pid t x' E; rewrite (sync_same _ _ _ _ _ E); apply pre_refl].
  eapply pre_trans; [exact Hb|]. destruct (PcrSynchronizer.ps_done v); [injection H as <- <-; apply pre_refl|].
  unfold PcrSynchronizer.ps_capture in H. destruct (_ && _); [|injection H as <- <-; apply pre_refl].
  destruct (p_pcr p); [|injection H as <- <-; apply pre_refl]. ib H. injection H as <- <-. apply pre_refl.
Qed.
Lemma sync_calm : forall o, keeps (PcrSynchronizer.ps_sink o) (fun s => PcrSynchronizer.ps_done s = false).
Proof.
  intros o s p s' C H. cbn [PcrSynchronizer.ps_sink sk_handle] in H. unfold PcrSynchronizer.ps_HandlePacket in H.
  destruct (_ =? PID_NULL); [injection H as <-; exact C|]. ib H.
  destruct (PcrSynchronizer.ps_done v) eqn:D; [discriminate|].
  unfold PcrSynchronizer.ps_capture in H. destruct (_ && _); [|injection H as <-; exact D].
  destruct (p_pcr p); [|injection H as <-; exact D]. ib H. injection H as <- H. cbn [PcrSynchronizer.ps_done].
  destruct (zlen _ =? zlen _); [discriminate|exact D].
Qed.

(** ** Two runs with different results of write *)
Section Twin.
Variable k : sink packet.
Variable R : sk_state k -> sk_state k -> Prop.

Definition twin {S} (x y : res (S * sk_state k * bool)) : Prop :=
  match x, y with
  | Ok (s, d, b), Ok (s', d', b') => s = s' /\ b = b' /\ R d d'
  | Fail f, Fail f' => f = f'
  | _, _ => False
  end.
Definition twin1 (x y : res (sk_state k * bool)) : Prop :=
  match x, y with
  | Ok (d, b), Ok (d', b') => b = b' /\ R d d'
  | Fail f, Fail f' => f = f'
  | _, _ => False
  end.
Hypothesis same : forall d d' p, R d d' -> twin1 (sk_handle k d p) (sk_handle k d' p).

Lemma twin_handle : forall S (s : S) d d' p, R d d' ->
  twin (let* (d1, ok) := sk_handle k d p in Ok ((s, d1), ok)) (let* (d1, ok) := sk_handle k d' p in Ok ((s, d1), ok)).
Proof.
  intros S s d d' p H. pose proof (same d d' p H) as T. destruct (sk_handle k d p) as [[d1 b1]|f], (sk_handle k d' p) as [[d2 b2]|f'];
    cbn in T |- *; try contradiction; auto.
Qed.
Lemma twin_ok : forall S (s : S) d d' b, R d d' -> twin (Ok ((s, d), b)) (Ok ((s, d'), b)).
Proof. intros. cbn. auto. Qed.
Lemma twin_bind : forall A S (m : res A) f g, (forall a, twin (S := S) (f a) (g a)) -> twin (bind m f) (bind m g).
Proof. intros A S m f g H. destruct m; cbn; auto. Qed.
Lemma twin_assert : forall S b (x y : res (S * sk_state k * bool)), twin x y -> twin (assert b x) (assert b y).
Proof. intros S b x y H. unfold assert. destruct b; cbn; auto. Qed.

Lemma filter_twin : forall stage opt s d d' p, R d d' -> twin (sf_HandlePacket stage opt k (s, d) p) (sf_HandlePacket stage opt k (s, d') p).
Proof.
  intros stage opt s d d' p H. unfold sf_HandlePacket. apply twin_bind. intros s1.
  destruct (sf_done s1); [apply twin_ok; auto|]. destruct (sf_CheckFilterForDrop _ _); [apply twin_ok; auto|].
  destruct (_ =? PID_PAT); [destruct (sf_pat s1); [apply twin_handle; auto|reflexivity]|]. apply twin_assert, twin_handle; auto.
Qed.

Section Pf.
Variable npackets : pmt -> nat.
Variable o : ProgramFilter.program_filter_option.

Lemma all_twin : forall ps d d', R d d' -> twin1 (ProgramFilter.pf_send_all k d ps) (ProgramFilter.pf_send_all k d' ps).
Proof.
  induction ps as [|p ps IH]; intros d d' H; cbn [ProgramFilter.pf_send_all]; [cbn; auto|].
  pose proof (same d d' p H) as T. destruct (sk_handle k d p) as [[d1 b1]|f], (sk_handle k d' p) as [[d2 b2]|f']; cbn in T; try contradiction; [|exact T].
  destruct T as [-> T]. cbn [bind]. destruct b2; [auto|cbn; auto].
Qed.
Lemma pmt_twin : forall n s d d', R d d' ->
  match ProgramFilter.pf_send_pmt npackets k n s d, ProgramFilter.pf_send_pmt npackets k n s d' with
  | None, None => True
  | Some x, Some y => twin x y
  | _, _ => False
  end.
Proof.
  induction n as [|n IH]; intros s d d' H; cbn [ProgramFilter.pf_send_pmt]; [exact Logic.I|].
  destruct (ProgramFilter.pz_next npackets (ProgramFilter.pf_pz s)) as [q z]. destruct (_ =? _); [|reflexivity].
  pose proof (same d d' q H) as T. destruct (sk_handle k d q) as [[d1 b1]|f], (sk_handle k d' q) as [[d2 b2]|f']; cbn in T; try contradiction; [|exact T].
  destruct T as [-> T]. destruct b2; [|cbn; auto]. destruct (ProgramFilter.pz_at_boundary z); [cbn; auto|]. apply IH; auto.
Qed.
Lemma forward_twin : forall s d d' p, R d d' -> twin (ProgramFilter.pf_forward npackets k s d p) (ProgramFilter.pf_forward npackets k s d' p).
Proof.
  intros s d d' p H. unfold ProgramFilter.pf_forward. destruct (_ =? _).
  - destruct (ProgramFilter.pz_next npackets (ProgramFilter.pf_pz s)) as [q z]. apply twin_assert, twin_handle; auto.
  - destruct (zmem _ _); [apply twin_ok|apply twin_handle]; auto.
Qed.
Lemma stream_twin : forall s d d' p, R d d' -> twin (ProgramFilter.pf_DoStreaming npackets k s d p) (ProgramFilter.pf_DoStreaming npackets k s d' p).
Proof.
  intros s d d' p H. unfold ProgramFilter.pf_DoStreaming. destruct (ProgramFilter.pf_stop s); [apply twin_ok; auto|].
  destruct (_ =? _); [|apply forward_twin; auto]. destruct (p_pcr p) as [pcr|]; [|apply twin_handle; auto].
  apply twin_bind. intros s1. destruct (ProgramFilter.pf_NeedClockSync s1); [apply twin_handle; auto|].
  apply twin_bind. intros c. destruct (0 <=? c); [apply twin_ok|apply forward_twin]; auto.
Qed.
Lemma wait_twin : forall s d d' p, R d d' -> twin (ProgramFilter.pf_WaitReady npackets o k s d p) (ProgramFilter.pf_WaitReady npackets o k s d' p).
Proof.
  intros s d d' p H. unfold ProgramFilter.pf_WaitReady. destruct (ProgramFilter.pf_stop s); [apply twin_ok; auto|].
  destruct (_ && _); [apply twin_handle; auto|]. destruct (_ || _); [apply twin_ok; auto|]. destruct (negb _); [apply twin_ok; auto|].
  destruct (p_pcr p) as [pcr|]; [|apply twin_ok; auto]. apply twin_bind. intros s2.
  destruct (ProgramFilter.pf_NeedClockSync s2); [apply twin_ok; auto|]. apply twin_bind. intros c. destruct (0 <=? c); [apply twin_ok; auto|].
  apply twin_bind. intros c2. destruct (c2 <? 0); [apply twin_ok; auto|].
  set (x := if ProgramFilter.pfo_pre_streaming o then Ok (s2, d, true) else _). set (y := if ProgramFilter.pfo_pre_streaming o then Ok (s2, d', true) else _).
  assert (T : twin x y).
  { unfold x, y. destruct (ProgramFilter.pfo_pre_streaming o); [apply twin_ok; auto|]. apply twin_assert.
    pose proof (all_twin (ProgramFilter.pf_pats s2) d d' H) as T.
    destruct (ProgramFilter.pf_send_all k d _) as [[d1 b1]|f], (ProgramFilter.pf_send_all k d' _) as [[d2 b2]|f']; cbn in T; try contradiction; [|exact T].
    destruct T as [-> T]. cbn [bind]. destruct b2; apply twin_ok; auto. }
  clearbody x y. destruct x as [[[s3 d3] b3]|f], y as [[[s3' d3'] b3']|f']; cbn in T; try contradiction; [|exact T].
  destruct T as [<- [<- T]]. cbn [bind]. destruct (negb b3); [apply twin_ok; auto|].
  pose proof (pmt_twin (ProgramFilter.pf_pmt_fuel npackets s3) s3 d3 d3' T) as T4.
  destruct (ProgramFilter.pf_send_pmt npackets k _ s3 d3) as [[[[s4 d4] b4]|f]|], (ProgramFilter.pf_send_pmt npackets k _ s3 d3') as [[[[s4' d4'] b4']|f']|];
    cbn in T4; try contradiction; try exact T4; [|reflexivity].
  destruct T4 as [<- [<- T4]]. cbn [bind]. destruct (negb b4); [apply twin_ok; auto|]. apply twin_handle; auto.
Qed.
Lemma program_twin : forall stage s d d' p, R d d' -> twin (ProgramFilter.pf_HandlePacket npackets o k stage (s, d) p) (ProgramFilter.pf_HandlePacket npackets o k stage (s, d') p).
Proof.
  intros stage s d d' p H. unfold ProgramFilter.pf_HandlePacket. apply twin_bind. intros s1. destruct (ProgramFilter.pf_streaming s1); [apply stream_twin|apply wait_twin]; auto.
Qed.
End Pf.
End Twin.

Lemma twin_hand : forall P (k : sink P) (R : sk_state k -> sk_state k -> Prop),
  (forall d d' p, R d d' -> match sk_handle k d p, sk_handle k d' p with Ok (a, b), Ok (a', b') => b = b' /\ R a a' | Fail f, Fail f' => f = f' | _, _ => False end) ->
  forall ps d d', R d d' -> match snd (hand k d ps), snd (hand k d' ps) with Ok (a, b), Ok (a', b') => b = b' /\ R a a' | Fail f, Fail f' => f = f' | _, _ => False end.
Proof.
  intros P k R S ps. induction ps as [|p ps IH]; intros d d' H; cbn [hand]; [cbn; auto|].
  pose proof (S d d' p H) as T. destruct (sk_handle k d p) as [[d1 b1]|f], (sk_handle k d' p) as [[d2 b2]|f']; try contradiction; [|exact T].
  destruct T as [-> T]. destruct b2; [|cbn; auto]. specialize (IH d1 d2 T). destruct (hand k d1 ps), (hand k d2 ps). exact IH.
Qed.

Lemma twin_run : forall P X (k : sink P) (R : sk_state k -> sk_state k -> Prop) (o : sk_state k -> X),
  (forall d d' p, R d d' -> match sk_handle k d p, sk_handle k d' p with Ok (a, b), Ok (a', b') => b = b' /\ R a a' | Fail f, Fail f' => f = f' | _, _ => False end) ->
  (forall d d' c t, R d d' -> finish k d = Ok (c, t) -> exists t', finish k d' = Ok (c, t') /\ o t = o t') ->
  forall view reads n d d' d0 d0' c h t, Forall read_ok reads -> (List.length (bytes_of reads) < n)%nat ->
  sk_start k d = Ok (d0, true) -> sk_start k d' = Ok (d0', true) -> R d0 d0' ->
  run_main view k reads d n = Some (Ok (c, (h, t))) -> exists h' t', run_main view k reads d' n = Some (Ok (c, (h', t'))) /\ o t = o t'.
Proof.
  intros P X k R o S F view reads n d d' d0 d0' c h t Rd Hn S0 S0' H M.
  destruct (reads_packets reads Rd) as [bs [Pk _]].
  pose proof (main_feed view k reads bs d n Rd Pk Hn) as A. pose proof (main_feed view k reads bs d' n Rd Pk Hn) as B.
  assert (L : (List.length (views view [] bs) < n)%nat) by (rewrite views_length; pose proof (packets_length _ _ Pk); lia).
  rewrite (feed_hand _ k _ n d d0) in A by auto. rewrite (feed_hand _ k _ n d' d0') in B by auto.
  pose proof (twin_hand _ k R S (views view [] bs) d0 d0' H) as T.
  destruct (snd (hand k d0 (views view [] bs))) as [[a b]|f], (snd (hand k d0' (views view [] bs))) as [[a' b']|f']; try contradiction; [|congruence].
  destruct T as [_ T]. destruct (finish k a) as [[c1 t1]|f] eqn:E; [|congruence]. destruct A as [h1 A]. rewrite M in A. injection A as <- <- <-.
  destruct (F _ _ _ _ T E) as [t' [E' O]]. rewrite E' in B. destruct B as [h' B]. eauto.
Qed.

(** Two standard outputs that stand for the same bytes. *)
Definition alike (d d' : stdout_state) : Prop := fine d /\ fine d' /\ so_out d ++ so_buf d = so_out d' ++ so_buf d'.
Lemma alike_takes : forall bytes, (forall p, zlen (bytes p) = 188) -> forall d d' p, alike d d' ->
  twin1 (to_stdout bytes) alike (sk_handle (to_stdout bytes) d p) (sk_handle (to_stdout bytes) d' p).
Proof.
  intros bytes size d d' p [F [F' E]]. destruct (stdout_takes bytes size d p F) as [s1 [-> [F1 O1]]].
  destruct (stdout_takes bytes size d' p F') as [s2 [-> [F2 O2]]]. split; [reflexivity|]. split; [auto|]. split; [auto|]. congruence.
Qed.
Lemma alike_ends : forall bytes d d', alike d d' -> exists t t', sk_end (to_stdout bytes) d = Ok t /\ sk_end (to_stdout bytes) d' = Ok t' /\ so_out t = so_out t'.
Proof.
  intros bytes d d' [F [F' E]]. exists (so_End d), (so_End d'). split; [reflexivity|]. split; [reflexivity|].
  rewrite (stdout_ends bytes d (so_End d) F eq_refl), (stdout_ends bytes d' (so_End d') F' eq_refl). exact E.
Qed.
Lemma alike_init : forall w w', Forall no_error w -> Forall no_error w' -> alike (so_init w) (so_init w').
Proof. intros. split; [apply fine_init; auto|]. split; [apply fine_init; auto|reflexivity]. Qed.
