(** The messages of record-service: positions and times within their ranges. *)
From Coq Require Import ZArith Lia List Bool.
From Verif Require Import Base.Outcome Base.Util Model.Pcr Model.Sink Model.Ts Model.RingFileSink Model.ServiceRecorder
  Spec.RecorderSpec Spec.ProgramSpec Spec.DocumentsSpec Proofs.RecorderProofs.
Import ListNotations.
Open Scope Z_scope.

Definition at_place (p : Z) : Prop := 0 <= p < 2 ^ 64.
Definition fine (m : message) : Prop := placed m /\ timely m.
Definition fine_eit (t : eit) : Prop := sane_table (TEit (Some t)).
Record decent (s : rec_state) : Prop := mkDecent {
  d_msgs : Forall fine (messages (rc_trace s));
  d_ring : at_place (rg_ring_pos (rc_ring s));
  d_bound : forall t p, rc_boundary s = Some (t, p) -> at_place p;
  d_eit : forall t, rc_eit s = Some t -> fine_eit t;
  d_new : forall t, rc_new_eit s = Some t -> fine_eit t }.

Lemma u64_place : forall z, at_place (u64 z).
Proof. intros z. unfold at_place, u64. apply Z.mod_pos_bound. reflexivity. Qed.
Lemma zero_place : at_place 0. Proof. unfold at_place. lia. Qed.

Lemma messages_put : forall tr m, messages (tr ++ [Msg m]) = messages tr ++ [m].
Proof. induction tr as [|[x|x] tr IH]; intros m; cbn; rewrite ?IH; reflexivity. Qed.
Lemma messages_ring : forall tr m, messages (tr ++ [Ring m]) = messages tr.
Proof. induction tr as [|[x|x] tr IH]; intros m; cbn; rewrite ?IH; reflexivity. Qed.

Lemma put_decent : forall s m, decent s -> fine m -> decent (rc_put s (Msg m)).
Proof.
  intros s m [A B C D E] F. constructor; cbn; auto. rewrite messages_put. apply Forall_app. auto.
Qed.
Lemma ring_decent : forall s m, decent s -> decent (rc_put s (Ring m)).
Proof. intros s m [A B C D E]. constructor; cbn; auto. rewrite messages_ring. exact A. Qed.
Lemma chunk_decent : forall s t p s', decent s -> at_place p -> rc_SendChunkMessage s t p = Ok s' -> decent s'.
Proof. intros s t p s' D P E. unfold rc_SendChunkMessage in E. ib E. injection E as <-. apply put_decent; [exact D|]. split; [exact P|exact I]. Qed.
Lemma event_decent : forall s k x t p s', decent s -> fine_eit x -> at_place p -> rc_SendEventMessage s k x t p = Ok s' -> decent s'.
Proof.
  intros s k x t p s' D F P E. unfold rc_SendEventMessage in E. ib E. ib E. injection E as <-. apply put_decent; [exact D|]. split; [exact P|].
  unfold rc_GetEvent in E0. unfold fine_eit in F. cbn [sane_table] in F. destruct (eit_events x); [discriminate|]. injection E0 as <-. inversion F; subst. exact H1.
Qed.
Lemma boundary_decent : forall s k x s', decent s -> fine_eit x -> rc_SendBoundaryMessage s k x = Ok s' -> decent s'.
Proof.
  intros s k x s' D F E. unfold rc_SendBoundaryMessage in E. destruct (rc_boundary s) as [[t p]|] eqn:B; [|discriminate].
  eapply event_decent; [exact D|exact F| |exact E]. eapply d_bound; eauto.
Qed.
Lemma update_decent : forall s t p, decent s -> at_place p -> decent (rc_UpdateEventBoundary s t p).
Proof. intros s t p [A B C D E] P. constructor; cbn; auto. intros ? ? [= <- <-]. exact P. Qed.
Lemma started_decent : forall s b, decent s -> decent (rc_set_started s b).
Proof. intros s b [A B C D E]. constructor; cbn; auto. Qed.
Lemma now_decent : forall local s s' n, decent s -> rc_Now local s = Ok (s', n) -> decent s'.
Proof. intros local s s' n [A B C D E] H. unfold rc_Now in H. ib H. injection H as <- <-. constructor; cbn; auto. Qed.

Lemma chunk_end_decent : forall local s p s', decent s -> at_place p -> rc_OnEndOfChunk local s p = Ok s' -> decent s'.
Proof.
  intros local s p s' D P E. unfold rc_OnEndOfChunk in E. ib E. destruct a as [s1 now]. pose proof (now_decent _ _ _ _ D E0) as D1.
  set (q := if p =? _ then 0 else p) in E. assert (Q : at_place q) by (subst q; destruct (p =? _); [apply zero_place|exact P]). clearbody q.
  ib E. eapply chunk_decent; [|exact Q|exact E]. destruct (rc_started s1); [|injection E1 as <-; exact D1].
  destruct (rc_eit s1) as [t|] eqn:T; [|discriminate]. eapply event_decent; [exact D1| |exact Q|exact E1]. eapply d_eit; eauto.
Qed.
Definition told (e : ring_event) : Prop := forall p, e = EvNotify p -> at_place p.
Lemma events_decent : forall local evs s s', decent s -> Forall told evs -> rc_ring_events local s evs = Ok s' -> decent s'.
Proof.
  induction evs as [|e evs IH]; intros s s' D F E; cbn [rc_ring_events] in E; [injection E as <-; exact D|].
  inversion F; subst. ib E. eapply IH; [|eassumption|exact E]. pose proof (ring_decent s e D) as D1.
  destruct e; try (injection E0 as <-; exact D1). eapply chunk_end_decent; [exact D1| |exact E0]. apply H1. reflexivity.
Qed.
Lemma set_ring_decent : forall s r, decent s -> at_place (rg_ring_pos r) -> decent (rc_set_ring s r).
Proof. intros s r [A B C D E] P. constructor; cbn; auto. Qed.

(** ** The ring *)
Ltac quiet := repeat first [apply Forall_nil | apply Forall_cons; [discriminate|]].
Lemma told_write : forall ops rest, Forall told (fst (fst (rg_write rest ops))).
Proof.
  induction ops as [|r ops IH]; intros rest; cbn [rg_write]; (destruct (zlen rest =? 0); [constructor|]).
  - quiet.
  - destruct (r <=? 0); [quiet|]. specialize (IH (zdrop r rest)). destruct (rg_write (zdrop r rest) ops) as [[e o1] ok].
    constructor; [discriminate|exact IH].
Qed.
Lemma wrap_place : forall s s' evs ok, at_place (rg_ring_pos s) -> rg_wrap s = (s', evs, ok) -> at_place (rg_ring_pos s') /\ Forall told evs.
Proof.
  intros s s' evs ok P E. unfold rg_wrap in E. destruct (_ =? _); [|injection E as <- <- <-; split; [exact P|constructor]].
  destruct (rg_next (rg_ops s)) as [o1 p1]. destruct (negb o1); [injection E as <- <- <-; split; [exact P|quiet]|].
  destruct (rg_next p1) as [o2 p2]. destruct (negb o2); injection E as <- <- <-; (split; [solve [exact P|apply zero_place]|quiet]).
Qed.
Lemma flush_place : forall s s' evs ok, at_place (rg_ring_pos s) -> rg_Flush s = Ok (s', evs, ok) -> at_place (rg_ring_pos s') /\ Forall told evs.
Proof.
  intros s s' evs ok P E. unfold rg_Flush in E. apply assert_ok in E as [_ E]. pose proof (told_write (rg_ops s) (rg_buf s)) as T.
  destruct (rg_write (rg_buf s) (rg_ops s)) as [[ws ops] wok]. cbn [fst] in T. destruct (negb wok); [injection E as <- <- <-; split; [exact P|exact T]|].
  apply assert_ok in E as [_ E]. destruct (_ =? rg_chunk_size s).
  - apply assert_ok in E as [_ E]. apply assert_ok in E as [_ E]. destruct (rg_next ops) as [o1 p1]. destruct (negb o1).
    + injection E as <- <- <-. split; [exact P|]. apply Forall_app. split; [exact T|quiet].
    + destruct (rg_wrap _) as [[s1 we] ok2] eqn:W. apply wrap_place in W as [W1 W2]; [|exact P]. injection E as <- <- <-. split; [exact W1|].
      apply Forall_app. split; [exact T|]. constructor; [discriminate|]. apply Forall_app. split; [|exact W2].
      destruct (rg_observed s); [|constructor]. constructor; [|constructor]. intros p [= <-]. exact P.
  - destruct (rg_wrap _) as [[s1 we] ok2] eqn:W. apply wrap_place in W as [W1 W2]; [|exact P]. injection E as <- <- <-. split; [exact W1|].
    apply Forall_app. auto.
Qed.
Lemma loop_place : forall n s data s' evs ok, at_place (rg_ring_pos s) -> rg_loop n s data = Ok (s', evs, ok) -> at_place (rg_ring_pos s') /\ Forall told evs.
Proof.
  induction n as [|n IH]; intros s data s' evs ok P E; cbn [rg_loop] in E; [discriminate|]. ib E. destruct a as [s1 k].
  assert (P1 : at_place (rg_ring_pos s1)).
  { unfold rg_FillBuffer in E0. destruct (_ <? 0); [discriminate|]. apply assert_ok in E0 as [_ E0]. apply assert_ok in E0 as [_ E0].
    injection E0 as <- <-. apply u64_place. }
  ib E. destruct a as [[s2 e2] ok2]. assert (P2 : at_place (rg_ring_pos s2) /\ Forall told e2).
  { destruct (rg_NeedFlush s1); [eapply flush_place; eauto|]. injection E1 as <- <- <-. split; [exact P1|constructor]. }
  destruct P2 as [P2 T2]. destruct (negb ok2); [injection E as <- <- <-; split; [exact P2|exact T2]|].
  destruct (_ =? 0); [injection E as <- <- <-; auto|]. ib E. destruct a as [[s3 e3] ok3]. destruct (IH _ _ _ _ _ P2 E2) as [P3 T3].
  injection E as <- <- <-. split; [exact P3|]. apply Forall_app. auto.
Qed.

Section Rec.
Variable o : recorder_option.
Variable local : nat -> Z.
Variable bytes : packet -> list Z.

Lemma clock_decent : forall s p s', decent s -> rc_feed_clock s p = Ok s' -> decent s'.
Proof.
  intros s p s' [A B C D E] H. unfold rc_feed_clock in H. destruct (_ && _); [|injection H as <-; constructor; auto].
  destruct (p_pcr p); [|injection H as <-; constructor; auto]. ib H. injection H as <-. constructor; cbn; auto.
Qed.
Lemma table_decent : forall s src t s', decent s -> sane_table (tb_body t) -> rc_handleTable o local s src t = Ok s' -> decent s'.
Proof.
  intros s src t s' D F H. pose proof (table_same _ _ _ _ _ _ H) as [(S1 & S2 & S3 & S4 & S5 & S6) _].
  assert (N : forall x, rc_new_eit s' = Some x -> rc_new_eit s = Some x \/ tb_body t = TEit (Some x)).
  { clear - H. unfold rc_handleTable in H. destruct (tb_body t) as [b| |b|b|b| | |]; try (injection H as <-; auto).
    - unfold rc_HandlePat in H. destruct (negb _); [injection H as <-; auto|]. destruct b; [|injection H as <-; auto]. destruct (_ =? 0); [injection H as <-; auto|].
      destruct (mfind _ _); [|discriminate]. injection H as <-. auto.
    - unfold rc_HandlePmt in H. destruct b; [|injection H as <-; auto]. repeat (destruct (negb _); [injection H as <-; auto|]). injection H as <-. auto.
    - unfold rc_HandleEit in H. destruct b as [b|]; [|injection H as <-; auto]. destruct (negb _); [injection H as <-; auto|].
      destruct (eit_events b); [injection H as <-; auto|]. ib H. injection H as <-. cbn. intros x [= <-]. auto.
    - unfold rc_HandleTot in H. destruct b; [|injection H as <-; auto]. ib H. injection H as <-. auto. }
  destruct D as [A B C D E]. constructor; rewrite ?S6, ?S5, ?S1, ?S2; auto.
  intros x X. apply N in X as [X|X]; [auto|]. unfold fine_eit. rewrite <- X. exact F.
Qed.
Lemma tables_decent : forall ts s src s', decent s -> (forall t, In t ts -> sane_table (tb_body t)) ->
  handle_tables (rc_handleTable o local) s src ts = Ok s' -> decent s'.
Proof.
  induction ts as [|t ts IH]; intros s src s' D F E; cbn [handle_tables] in E; [injection E as <-; exact D|].
  ib E. eapply IH; [|intros x X; apply F; right; exact X|exact E]. eapply table_decent; [exact D|apply F; left; reflexivity|exact E0].
Qed.
Lemma set_eit_decent : forall s a b, decent s -> (forall t, a = Some t -> fine_eit t) -> (forall t, b = Some t -> fine_eit t) -> decent (rc_set_eit s a b).
Proof. intros s a b [A B C D E] F G. constructor; cbn; auto. Qed.

Lemma preparing_decent : forall s s' b, decent s -> rc_OnPreparing o local s = Ok (s', b) -> decent s'.
Proof.
  intros s s' b D E. unfold rc_OnPreparing in E. destruct (ck_IsReady _); [|injection E as <- <-; exact D].
  destruct (rc_new_eit s) as [t|] eqn:T; [|injection E as <- <-; exact D]. pose proof (d_new _ D _ T) as F. ib E. destruct a as [s2 now].
  assert (D1 : decent (rc_set_recording (rc_set_eit s (Some t) None))).
  { assert (X : decent (rc_set_eit s (Some t) None)) by (apply set_eit_decent; [exact D|intros ? [= <-]; exact F|discriminate]). destruct X; constructor; auto. }
  pose proof (now_decent _ _ _ _ D1 E0) as D2. apply assert_ok in E as [_ E]. apply assert_ok in E as [_ E]. ib E.
  pose proof (chunk_decent _ _ _ _ D2 (d_ring _ D2) E1) as D3. pose proof (update_decent a now _ D3 (d_ring _ D2)) as D4. ib E.
  destruct (rc_IsUnspecifiedEventEndTime a0); [|ib E; destruct (now <? _)]; try (ib E; injection E as <- <-; apply started_decent; eapply boundary_decent; eauto).
  injection E as <- <-. apply started_decent. exact D4.
Qed.
Lemma rc_events_decent : forall s s', decent s -> rc_events local s = Ok s' -> decent s'.
Proof.
  intros s s' D E. unfold rc_events in E. ib E. destruct a as [s1 now]. pose proof (now_decent _ _ _ _ D E0) as D1.
  destruct (rc_eit s1) as [old|] eqn:O; [|discriminate]. pose proof (d_eit _ D1 _ O) as F. ib E. destruct a as [x changed].
  set (s2 := match rc_new_eit s1 with None => s1 | Some new => rc_set_eit s1 (Some new) None end) in E.
  assert (D2 : decent s2). { subst s2. destruct (rc_new_eit s1) as [new|] eqn:N; [|exact D1]. apply set_eit_decent; [exact D1|intros ? [= <-]; exact (d_new _ D1 _ N)|discriminate]. }
  assert (Fx : fine_eit x).
  { destruct (rc_new_eit s1) as [new|] eqn:N; [|injection E1 as <- <-; exact F]. ib E1. ib E1. destruct (negb _); injection E1 as <- <-; [exact F|exact (d_new _ D1 _ N)]. }
  assert (Fn : forall new, rc_new_eit s1 = Some new -> fine_eit new) by apply (d_new _ D1). clearbody s2.
  assert (U : forall t, decent (rc_UpdateEventBoundary s2 t (rg_ring_pos (rc_ring s2)))) by (intros; apply update_decent; [exact D2|apply d_ring; exact D2]).
  destruct (rc_started s2).
  - destruct changed.
    + destruct (rc_new_eit s1) as [new|]; [|discriminate]. ib E. eapply boundary_decent; [|apply Fn; reflexivity|exact E]. eapply boundary_decent; [apply U|exact Fx|exact E2].
    + ib E. destruct (rc_IsUnspecifiedEventEndTime a); [injection E as <-; exact D2|]. ib E. destruct (_ <=? now); [|injection E as <-; exact D2].
      ib E. injection E as <-. apply started_decent. eapply boundary_decent; [apply U|exact Fx|exact E4].
  - destruct changed; [|injection E as <-; exact D2]. destruct (rc_new_eit s1) as [new|]; [|discriminate]. ib E. injection E as <-.
    apply started_decent. eapply boundary_decent; [exact D2|apply Fn; reflexivity|exact E2].
Qed.
Lemma packet_decent : forall stage s p s' b, decent s -> (forall t, In t (p_tabs p stage) -> sane_table (tb_body t)) ->
  rc_HandlePacket o local bytes stage s p = Ok (s', b) -> decent s'.
Proof.
  intros stage s p s' b D F E. unfold rc_HandlePacket in E. ib E. pose proof (clock_decent _ _ _ D E0) as D1. ib E.
  assert (D2 : decent a0).
  { eapply tables_decent; [exact D1| |exact E1]. intros t T. apply F. unfold demux_feed in T. destruct (zmem _ _); [exact T|contradiction]. }
  destruct (rc_recording a0); [|eapply preparing_decent; eauto]. unfold rc_OnRecording in E. ib E. pose proof (rc_events_decent _ _ D2 E2) as D3.
  ib E. destruct a2 as [[r evs] ok]. destruct (loop_place _ _ _ _ _ _ (d_ring _ D3) E3) as [P T]. ib E. injection E as <- <-.
  apply set_ring_decent; [eapply events_decent; eauto|exact P].
Qed.

Lemma run_decent : forall stage ops ps n s0 c s, 0 <= rco_start_pos o < 2 ^ 64 -> rc_new o ops = Ok s0 ->
  (forall p t, In p ps -> In t (p_tabs p stage) -> sane_table (tb_body t)) ->
  FeedPackets (list_source packet) (recorder o local bytes stage) n ps s0 = Some (Ok (c, s)) -> decent s.
Proof.
  intros stage ops ps n s0 c s G N F H.
  assert (D0 : decent s0).
  { unfold rc_new in N. ib N. injection N as <-. unfold rg_new in E. repeat apply assert_ok in E as [_ E]. injection E as <-.
    constructor; cbn; try discriminate; [constructor|apply zero_place]. }
  unfold FeedPackets in H. cbn [recorder sk_start sk_end sk_exit] in H. destruct (rc_Start o local s0) as [[s1 ok]|] eqn:S; [|discriminate].
  assert (D1 : decent s1).
  { unfold rc_Start in S. destruct (_ =? 0); [injection S as <- <-; apply put_decent; [exact D0|split; exact I]|]. ib S. destruct a as [[r evs] k].
    assert (X : at_place (rg_ring_pos r) /\ Forall told evs).
    { unfold rg_SetPosition in E. repeat apply assert_ok in E as [_ E]. destruct (rg_next _) as [k1 o1]. destruct k1; injection E as <- <- <-; (split; [solve [exact G|apply d_ring; exact D0]|quiet]). }
    destruct X as [X1 X2]. ib S. pose proof (events_decent _ _ _ _ D0 X2 E0) as D. pose proof (set_ring_decent _ r D X1) as D'.
    destruct k; injection S as <- <-; [apply put_decent; [exact D'|split; exact I]|exact D']. }
  cbn [bind] in H. destruct ok; [|injection H as _ <-; exact D1].
  assert (L : forall n qs s1 r, (forall p, In p qs -> In p ps) -> decent s1 ->
    feed_loop (list_source packet) (recorder o local bytes stage) n qs s1 = Some (Ok r) -> decent r).
  { clear - F. induction n as [|n IH]; intros qs s1 r Q D H; [discriminate|]. cbn [feed_loop] in H. destruct qs as [|q qs]; cbn [list_source sr_next] in H.
    - injection H as <-. exact D.
    - cbn [recorder sk_handle] in H. destruct (rc_HandlePacket o local bytes stage s1 q) as [[s2 b]|] eqn:E; cbn [bind] in H; [|discriminate].
      assert (D2 : decent s2) by (eapply packet_decent; [exact D| |exact E]; intros t; apply F; apply Q; left; reflexivity).
      destruct b; [|injection H as <-; exact D2]. eapply IH; [|exact D2|exact H]. intros p P. apply Q. right. exact P. }
  destruct (feed_loop _ _ _ _ _) as [[s2|]|] eqn:Lp; cbn [bind] in H; try discriminate. injection H as _ <-.
  apply put_decent; [|split; exact I]. eapply L; [|exact D1|exact Lp]. auto.
Qed.
End Rec.
