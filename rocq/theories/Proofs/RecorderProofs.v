From Coq Require Import ZArith Lia List Bool.
From Verif Require Import Proofs.ClockProofs Proofs.RingProofs Proofs.RingMain Proofs.FilterProofs Proofs.TuneProofs
  Base.Outcome Base.Util Model.Pcr Model.Clock Model.Sink Model.Ts Model.RingFileSink Model.ServiceRecorder
  Spec.ClockSpec Spec.FilterSpec Spec.TuneSpec Spec.FileSpec Spec.RecorderSpec.
Import ListNotations.
Open Scope Z_scope.

(** ** Traces *)
Lemma messages_app : forall a b, messages (a ++ b) = messages a ++ messages b.
Proof. induction a as [|[m|e] a IH]; intros b; cbn; rewrite ?IH; auto. Qed.
Lemma calls_app : forall a b, ring_calls (a ++ b) = ring_calls a ++ ring_calls b.
Proof. induction a as [|[m|e] a IH]; intros b; cbn; rewrite ?IH; auto. Qed.
Lemma positions_app : forall a b, chunk_positions (a ++ b) = chunk_positions a ++ chunk_positions b.
Proof. induction a as [|[| | |] a IH]; intros b; cbn; rewrite ?IH; auto. Qed.
Lemma parse_snoc : forall l m, parse (l ++ [m]) = match parse l with Some q => next q m | None => None end.
Proof. intros. unfold parse. rewrite fold_left_app. reflexivity. Qed.
Lemma boundary_snoc : forall l m, boundary (l ++ [m]) =
  match m with
  | MChunk t p => match boundary l with None => Some (t, p) | _ => boundary l end
  | MEvent KEnd _ _ _ _ t p => Some (t, p)
  | _ => boundary l
  end.
Proof. intros. unfold boundary. rewrite fold_left_app. reflexivity. Qed.

Lemma snoc_split : forall A (l a b : list A) x y, l ++ [x] = a ++ y :: b ->
  (b = [] /\ x = y /\ l = a) \/ exists b', b = b' ++ [x] /\ l = a ++ y :: b'.
Proof.
  intros A l a b x y E. destruct b as [|z b] using rev_ind; [left|right].
  - apply app_inj_tail in E as [-> ->]. auto.
  - clear IHb. exists b. change (a ++ y :: b ++ [z]) with (a ++ (y :: b) ++ [z]) in E. rewrite app_assoc in E.
    apply app_inj_tail in E as [-> ->]. auto.
Qed.

Lemma contiguous_snoc : forall l m, contiguous l ->
  (forall x y z e t p, m = MEvent KStart x y z e t p -> boundary l = Some (t, p)) -> contiguous (l ++ [m]).
Proof.
  intros l m C H a x y z e t p b E. apply snoc_split in E as [[_ [-> ->]]|[b' [_ ->]]]; eauto.
Qed.

Lemma answered_snoc : forall rs tr x, answered rs tr -> (forall p, x <> Ring (EvNotify p)) -> answered rs (tr ++ [x]).
Proof.
  intros rs tr x A N a p b E. apply snoc_split in E as [[_ [X _]]|[b' [-> ->]]]; [exfalso; eapply N; eauto|].
  destruct (A a p b' eq_refl) as [t [r [[P ->]|[id [u [v [w [e [P [I ->]]]]]]]]]]; exists t, (r ++ [x]); [left; auto|right].
  exists id, u, v, w, e. repeat (split; [solve [auto]|]). auto.
Qed.

(** ** The state *)
Definition wrap (rs p : Z) : Z := if p =? rs then 0 else p.
Definition msgs (s : rec_state) := messages (rc_trace s).
Definition calls (s : rec_state) := ring_calls (rc_trace s).

Record good (start : Z) (s : rec_state) : Prop := mkGood {
  g_new : forall t, rc_new_eit s = Some t -> eit_events t <> [];
  g_phase : if rc_recording s then
      exists t e r bt bp u, rc_eit s = Some t /\ eit_events t = e :: r /\ rc_boundary s = Some (bt, bp) /\
        ConvertJstTimeToUnixTime bt = Ok u /\ boundary (msgs s) = Some (u, bp) /\
        parse (msgs s) = Some (if rc_started s then During (ev_id e) else Quiet)
    else parse (msgs s) = Some Prepared /\ rc_started s = false /\ boundary (msgs s) = None /\ announced (calls s) = [];
  g_contig : contiguous (msgs s);
  g_ans : answered (rg_ring_size (rc_ring s)) (rc_trace s);
  g_chunks : chunk_positions (msgs s) =
    if rc_recording s then start :: map (wrap (rg_ring_size (rc_ring s))) (announced (calls s)) else [] }.

(** What table handling leaves alone. *)
Definition same (s s' : rec_state) : Prop :=
  rc_boundary s' = rc_boundary s /\ rc_eit s' = rc_eit s /\ rc_recording s' = rc_recording s /\ rc_started s' = rc_started s /\
  rc_ring s' = rc_ring s /\ rc_trace s' = rc_trace s.

Lemma same_refl : forall s, same s s. Proof. unfold same; intuition. Qed.
Lemma same_trans : forall a b c, same a b -> same b c -> same a c. Proof. unfold same; intuition congruence. Qed.

Lemma good_same : forall start s s', good start s -> same s s' -> (forall t, rc_new_eit s' = Some t -> eit_events t <> []) -> good start s'.
Proof.
  intros start s s' [G1 G2 G3 G4 G5] [E1 [E2 [E3 [E4 [E5 E6]]]]] N. unfold msgs, calls in *.
  constructor; unfold msgs, calls; rewrite ?E6, ?E5, ?E4, ?E3, ?E2, ?E1; auto.
Qed.

Ltac ib H := match type of H with bind ?m _ = Ok _ => let E := fresh "E" in destruct m as [?|] eqn:E; [cbn [bind] in H|discriminate H] end.

Lemma clock_same : forall s p s', rc_feed_clock s p = Ok s' -> same s s' /\ rc_new_eit s' = rc_new_eit s /\ rc_demux s' = rc_demux s /\
  rc_pmt_pid s' = rc_pmt_pid s /\ rc_reads s' = rc_reads s.
Proof.
  intros s p s' E. unfold rc_feed_clock in E. destruct (_ && _); [|injection E as <-; unfold same; intuition].
  destruct (p_pcr p); [|injection E as <-; unfold same; intuition]. ib E. injection E as <-. unfold same; cbn; intuition.
Qed.

Section Rec.
Variable o : recorder_option.
Variable local : nat -> Z.
Notation sid := (rco_sid o).

Lemma table_same : forall s src t s', rc_handleTable o local s src t = Ok s' ->
  same s s' /\ ((forall t, rc_new_eit s = Some t -> eit_events t <> []) -> forall t, rc_new_eit s' = Some t -> eit_events t <> []).
Proof.
  intros s src t s' E. unfold rc_handleTable in E. destruct (tb_body t) as [b| |b|b|b| | |]; try (injection E as <-; split; [apply same_refl|auto]).
  - unfold rc_HandlePat in E. destruct (negb _); [injection E as <-; split; [apply same_refl|auto]|].
    destruct b as [b|]; [|injection E as <-; split; [apply same_refl|auto]].
    destruct (pat_tsid b =? 0); [injection E as <-; split; [apply same_refl|auto]|].
    destruct (mfind _ _); [|discriminate]. injection E as <-. split; [unfold same; cbn; intuition|auto].
  - unfold rc_HandlePmt in E. destruct b as [b|]; [|injection E as <-; split; [apply same_refl|auto]].
    destruct (negb _); [injection E as <-; split; [apply same_refl|auto]|].
    destruct (negb _); [injection E as <-; split; [unfold same; cbn; intuition|auto]|].
    destruct (negb _); injection E as <-; (split; [unfold same; cbn; intuition|auto]).
  - unfold rc_HandleEit in E. destruct b as [b|]; [|injection E as <-; split; [apply same_refl|auto]].
    destruct (negb _); [injection E as <-; split; [apply same_refl|auto]|].
    destruct (eit_events b) eqn:Ev; [injection E as <-; split; [apply same_refl|auto]|].
    ib E. injection E as <-. split; [unfold same; cbn; intuition|]. cbn. intros _ t0 [= <-]. congruence.
  - unfold rc_HandleTot in E. destruct b as [b|]; [|injection E as <-; split; [apply same_refl|auto]].
    ib E. injection E as <-. split; [unfold same; cbn; intuition|auto].
Qed.

Lemma tables_same : forall ts s src s', handle_tables (rc_handleTable o local) s src ts = Ok s' ->
  same s s' /\ ((forall t, rc_new_eit s = Some t -> eit_events t <> []) -> forall t, rc_new_eit s' = Some t -> eit_events t <> []).
Proof.
  induction ts as [|t ts IH]; intros s src s' E; cbn [handle_tables] in E; [injection E as <-; split; [apply same_refl|auto]|].
  ib E. destruct (table_same _ _ _ _ E0) as [A1 A2]. destruct (IH _ _ _ E) as [B1 B2]. split; [eapply same_trans; eauto|auto].
Qed.


(** ** Messages *)
Lemma now_same : forall s s' now, rc_Now local s = Ok (s', now) -> same s s' /\ rc_new_eit s' = rc_new_eit s.
Proof. intros s s' now E. unfold rc_Now in E. ib E. injection E as <- <-. unfold same; cbn; intuition. Qed.

(** The end of a chunk: an update if an event is running, and the chunk. *)
Lemma chunk_end_good : forall start s p s1 s2, good start s -> rc_recording s = true -> s1 = rc_put s (Ring (EvNotify p)) ->
  rc_OnEndOfChunk local s1 p = Ok s2 ->
  good start s2 /\ calls s2 = calls s ++ [EvNotify p] /\ rc_recording s2 = true /\ rc_ring s2 = rc_ring s /\ rc_eit s2 = rc_eit s /\
  rc_new_eit s2 = rc_new_eit s /\ rc_started s2 = rc_started s.
Proof.
  intros start s p s1 s2 G R -> E. destruct G as [G1 G2 G3 G4 G5]. rewrite R in G2, G5.
  destruct G2 as [t [e [r [bt [bp [u [H1 [H2 [H3 [H4 [H5 H6]]]]]]]]]]].
  unfold rc_OnEndOfChunk in E. ib E. destruct a as [s1 now]. destruct (now_same _ _ _ E0) as [[N1 [N2 [N3 [N4 [N5 N6]]]]] N7].
  cbn [rc_put rc_boundary rc_eit rc_recording rc_started rc_ring rc_trace rc_new_eit] in *.
  rewrite N5 in E. fold (wrap (rg_ring_size (rc_ring s)) p) in E. set (pos := wrap (rg_ring_size (rc_ring s)) p) in *.
  rewrite N4, N2 in E.
  assert (Mm : messages (rc_trace s1) = msgs s) by (rewrite N6, messages_app; cbn; rewrite app_nil_r; auto).
  assert (Cc : ring_calls (rc_trace s1) = calls s ++ [EvNotify p]) by (rewrite N6, calls_app; auto).
  assert (Fin : forall s3, rc_SendChunkMessage s3 now pos = Ok s2 -> exists v, ConvertJstTimeToUnixTime now = Ok v /\ s2 = rc_put s3 (Msg (MChunk v pos))).
  { intros s3 F. unfold rc_SendChunkMessage in F. ib F. injection F as <-. eauto. }
  destruct (rc_started s) eqn:St.
  - rewrite H1 in E. ib E. rename E1 into Eu. unfold rc_SendEventMessage, rc_GetEvent in Eu. rewrite H2 in Eu. cbn [bind] in Eu. ib Eu. injection Eu as Eu.
    destruct (Fin _ E) as [v [Ev ->]]. injection Ev as <-. subst a. rename a0 into v. clear E Fin.
    set (m1 := MEvent KUpdate (eit_onid t) (eit_tsid t) (eit_sid t) e v pos). set (m2 := MChunk v pos).
    assert (Tr : rc_trace (rc_put (rc_put s1 (Msg m1)) (Msg m2)) = rc_trace s ++ [Ring (EvNotify p); Msg m1; Msg m2]).
    { cbn [rc_put rc_trace]. rewrite N6. rewrite <- !app_assoc. reflexivity. }
    assert (Ms : msgs (rc_put (rc_put s1 (Msg m1)) (Msg m2)) = (msgs s ++ [m1]) ++ [m2]).
    { unfold msgs. rewrite Tr, messages_app. cbn [messages]. rewrite <- app_assoc. reflexivity. }
    assert (Cs : calls (rc_put (rc_put s1 (Msg m1)) (Msg m2)) = calls s ++ [EvNotify p]).
    { unfold calls. rewrite Tr, calls_app. reflexivity. }
    assert (P1 : parse (msgs s ++ [m1]) = Some (During (ev_id e))).
    { rewrite parse_snoc, H6. cbn [m1 next]. rewrite Z.eqb_refl. auto. }
    split; [|cbn [rc_put rc_recording rc_ring rc_eit rc_new_eit rc_started] in *; rewrite Cs; intuition congruence].
    constructor; rewrite ?Ms, ?Cs; cbn [rc_put rc_recording rc_ring rc_eit rc_new_eit rc_started rc_boundary].
    + rewrite N7. auto.
    + rewrite N3, R. exists t, e, r, bt, bp, u. rewrite N2, N1, N4. do 4 (split; [solve [auto]|]).
      rewrite parse_snoc, P1. rewrite !boundary_snoc. cbn [m1 m2 next]. rewrite H5. auto.
    + apply contiguous_snoc; [apply contiguous_snoc; auto|]; subst m1 m2; discriminate.
    + rewrite Tr, N5. intros a p0 b E.
      change [Ring (EvNotify p); Msg m1; Msg m2] with ([Ring (EvNotify p); Msg m1] ++ [Msg m2]) in E. rewrite app_assoc in E.
      apply snoc_split in E as [[_ [X _]]|[b1 [-> E]]]; [discriminate|].
      change [Ring (EvNotify p); Msg m1] with ([Ring (EvNotify p)] ++ [Msg m1]) in E. rewrite app_assoc in E.
      apply snoc_split in E as [[_ [X _]]|[b2 [-> E]]]; [discriminate|].
      apply snoc_split in E as [[-> [X <-]]|[b3 [-> E]]].
      * injection X as <-. exists v, []. right. exists (ev_id e), (eit_onid t), (eit_tsid t), (eit_sid t), e. auto.
      * destruct (G4 _ _ _ E) as [t' [r' [[P ->]|[id [x [y [z [e' [P [I ->]]]]]]]]]];
          exists t', ((r' ++ [Ring (EvNotify p)]) ++ [Msg m1; Msg m2]); [left|right].
        -- split; [auto|]. rewrite <- !app_assoc. reflexivity.
        -- exists id, x, y, z, e'. repeat (split; [solve [auto]|]). rewrite <- !app_assoc. reflexivity.
    + rewrite N3, R, N5. rewrite !positions_app, G5. cbn. rewrite announced_app, map_app, app_nil_r. reflexivity.
  - cbn [bind] in E. destruct (Fin _ E) as [v [Ev ->]]. clear E Fin.
    set (m2 := MChunk v pos).
    assert (Tr : rc_trace (rc_put s1 (Msg m2)) = rc_trace s ++ [Ring (EvNotify p); Msg m2]).
    { cbn [rc_put rc_trace]. rewrite N6. rewrite <- !app_assoc. reflexivity. }
    assert (Ms : msgs (rc_put s1 (Msg m2)) = msgs s ++ [m2]).
    { unfold msgs. rewrite Tr, messages_app. reflexivity. }
    assert (Cs : calls (rc_put s1 (Msg m2)) = calls s ++ [EvNotify p]).
    { unfold calls. rewrite Tr, calls_app. reflexivity. }
    split; [|cbn [rc_put rc_recording rc_ring rc_eit rc_new_eit rc_started] in *; rewrite Cs; intuition congruence].
    constructor; rewrite ?Ms, ?Cs; cbn [rc_put rc_recording rc_ring rc_eit rc_new_eit rc_started rc_boundary].
    + rewrite N7. auto.
    + rewrite N3, R. exists t, e, r, bt, bp, u. rewrite N2, N1, N4. do 4 (split; [solve [auto]|]).
      rewrite parse_snoc, H6. rewrite !boundary_snoc. cbn [m2 next]. rewrite H5. auto.
    + apply contiguous_snoc; auto; subst m2; discriminate.
    + rewrite Tr, N5. intros a p0 b E.
      change [Ring (EvNotify p); Msg m2] with ([Ring (EvNotify p)] ++ [Msg m2]) in E. rewrite app_assoc in E.
      apply snoc_split in E as [[_ [X _]]|[b2 [-> E]]]; [discriminate|].
      apply snoc_split in E as [[-> [X <-]]|[b3 [-> E]]].
      * injection X as <-. exists v, []. left. auto.
      * destruct (G4 _ _ _ E) as [t' [r' [[P ->]|[id [x [y [z [e' [P [I ->]]]]]]]]]];
          exists t', ((r' ++ [Ring (EvNotify p)]) ++ [Msg m2]); [left|right].
        -- split; [auto|]. rewrite <- !app_assoc. reflexivity.
        -- exists id, x, y, z, e'. repeat (split; [solve [auto]|]). rewrite <- !app_assoc. reflexivity.
    + rewrite N3, R, N5. rewrite !positions_app, G5. cbn. rewrite announced_app, map_app. reflexivity.
Qed.

Lemma ring_events_good : forall start evs s s2, good start s -> rc_recording s = true -> rc_ring_events local s evs = Ok s2 ->
  good start s2 /\ calls s2 = calls s ++ evs /\ rc_recording s2 = true /\ rc_ring s2 = rc_ring s.
Proof.
  induction evs as [|e evs IH]; intros s s2 G R E; cbn [rc_ring_events] in E.
  - injection E as <-. rewrite app_nil_r. auto.
  - ib E. assert (X : good start a /\ calls a = calls s ++ [e] /\ rc_recording a = true /\ rc_ring a = rc_ring s).
    { assert (Other : (forall p, e <> EvNotify p) -> a = rc_put s (Ring e) -> good start a /\ calls a = calls s ++ [e] /\ rc_recording a = true /\ rc_ring a = rc_ring s).
      { intros N ->.
        assert (Ms : msgs (rc_put s (Ring e)) = msgs s) by (unfold msgs; cbn [rc_put rc_trace]; rewrite messages_app; cbn; apply app_nil_r).
        assert (Cs : calls (rc_put s (Ring e)) = calls s ++ [e]) by (unfold calls; cbn [rc_put rc_trace]; rewrite calls_app; auto).
        assert (An : announced (calls s ++ [e]) = announced (calls s)).
        { rewrite announced_app. destruct e; cbn; rewrite ?app_nil_r; auto. exfalso. eapply N; eauto. }
        split; [|auto]. destruct G as [G1 G2 G3 G4 G5].
        constructor; rewrite ?Ms, ?Cs, ?An; cbn [rc_put rc_recording rc_ring rc_eit rc_new_eit rc_started rc_boundary rc_trace]; auto.
        apply answered_snoc; auto. intros p X. injection X as ->. eapply N; eauto. }
      destruct e; try (injection E0 as <-; apply Other; auto; discriminate).
      destruct (chunk_end_good _ _ _ _ _ G R eq_refl E0) as [X1 [X2 [X3 [X4 _]]]]. auto. }
    destruct X as [G' [C' [R' I']]]. destruct (IH _ _ G' R' E) as [A [B [C D]]]. rewrite C' in B. rewrite <- app_assoc in B.
    split; [auto|split; [auto|split; [auto|congruence]]].
Qed.

(** ** Preparing *)
Lemma put_msgs : forall s m, msgs (rc_put s (Msg m)) = msgs s ++ [m].
Proof. intros. unfold msgs. cbn [rc_put rc_trace]. rewrite messages_app. auto. Qed.
Lemma put_calls : forall s m, calls (rc_put s (Msg m)) = calls s.
Proof. intros. unfold calls. cbn [rc_put rc_trace]. rewrite calls_app. cbn. apply app_nil_r. Qed.

Lemma preparing_good : forall start s s' ok, good start s -> rc_recording s = false -> rg_ring_pos (rc_ring s) = start ->
  rc_OnPreparing o local s = Ok (s', ok) ->
  good start s' /\ ok = true /\ rc_ring s' = rc_ring s /\ calls s' = calls s /\
  rc_recording s' = (ck_IsReady (rc_clock s) && match rc_new_eit s with Some _ => true | None => false end) /\
  (rc_recording s' = false -> s' = s).
Proof.
  intros start s s' ok G R Ps E. unfold rc_OnPreparing in E.
  destruct (ck_IsReady (rc_clock s)); [|injection E as <- <-; cbn; auto 8].
  destruct (rc_new_eit s) as [t|] eqn:Nt; [|injection E as <- <-; cbn; auto 8].
  destruct G as [G1 G2 G3 G4 G5]. rewrite R in G2, G5. destruct G2 as [H1 [H2 [H3 H4]]]. specialize (G1 _ Nt).
  destruct (eit_events t) as [|e r] eqn:Ev; [congruence|]. clear G1.
  ib E. destruct a as [s2 now]. destruct (now_same _ _ _ E0) as [[N1 [N2 [N3 [N4 [N5 N6]]]]] N7]. clear E0.
  cbn [rc_set_recording rc_set_eit rc_boundary rc_eit rc_recording rc_started rc_ring rc_trace rc_new_eit] in *.
  rewrite N5, Ps in E. apply assert_ok in E as [_ E]. apply assert_ok in E as [_ E].
  ib E. unfold rc_SendChunkMessage in E0. ib E0. injection E0 as <-. rename a0 into u. rename E1 into Eu.
  unfold rc_GetEvent in E. rewrite Ev in E. cbn [bind] in E.
  set (m1 := MChunk u start) in *.
  assert (Pm : parse (msgs s ++ [m1]) = Some Quiet) by (rewrite parse_snoc, H1; reflexivity).
  assert (Bm : boundary (msgs s ++ [m1]) = Some (u, start)) by (rewrite boundary_snoc; cbn [m1]; rewrite H3; auto).
  assert (Cm : contiguous (msgs s ++ [m1])) by (apply contiguous_snoc; auto; subst m1; discriminate).
  set (s4 := rc_UpdateEventBoundary (rc_put s2 (Msg m1)) now start) in *.
  assert (Ms : msgs s4 = msgs s ++ [m1]).
  { change (msgs s4) with (msgs (rc_put s2 (Msg m1))). rewrite put_msgs. unfold msgs. rewrite N6. auto. }
  assert (Cs : calls s4 = calls s).
  { change (calls s4) with (calls (rc_put s2 (Msg m1))). rewrite put_calls. unfold calls. rewrite N6. auto. }
  assert (An : answered (rg_ring_size (rc_ring s)) (rc_trace s4)).
  { change (rc_trace s4) with (rc_trace s2 ++ [Msg m1]). rewrite N6. apply answered_snoc; auto; discriminate. }
  assert (Quiet4 : good start (rc_set_started s4 false)).
  { constructor; change (msgs (rc_set_started s4 false)) with (msgs s4); change (calls (rc_set_started s4 false)) with (calls s4); rewrite ?Ms, ?Cs.
    - change (rc_new_eit (rc_set_started s4 false)) with (rc_new_eit s2). rewrite N7. discriminate.
    - change (rc_recording (rc_set_started s4 false)) with (rc_recording s2). rewrite N3.
      exists t, e, r, now, start, u. repeat (split; [solve [auto]|]). auto.
    - auto.
    - change (rc_ring (rc_set_started s4 false)) with (rc_ring s2). rewrite N5. auto.
    - change (rc_recording (rc_set_started s4 false)) with (rc_recording s2). rewrite N3.
      rewrite positions_app, G5, H4. reflexivity. }
  assert (Starting : forall s5, rc_SendBoundaryMessage s4 KStart t = Ok s5 -> good start (rc_set_started s5 true) /\ rc_ring s5 = rc_ring s /\
            calls s5 = calls s /\ rc_recording s5 = true).
  { intros s5 F. unfold rc_SendBoundaryMessage in F. change (rc_boundary s4) with (Some (now, start)) in F. cbv iota beta in F.
    unfold rc_SendEventMessage, rc_GetEvent in F. rewrite Ev in F. cbn [bind] in F. rewrite Eu in F. cbn [bind] in F. injection F as <-.
    set (m2 := MEvent KStart (eit_onid t) (eit_tsid t) (eit_sid t) e u start).
    split; [|split; [exact N5|split; [rewrite put_calls; auto|exact N3]]].
    constructor; change (msgs (rc_set_started (rc_put s4 (Msg m2)) true)) with (msgs (rc_put s4 (Msg m2)));
      change (calls (rc_set_started (rc_put s4 (Msg m2)) true)) with (calls (rc_put s4 (Msg m2))); rewrite ?put_msgs, ?put_calls, ?Ms, ?Cs.
    - change (rc_new_eit (rc_set_started (rc_put s4 (Msg m2)) true)) with (rc_new_eit s2). rewrite N7. discriminate.
    - change (rc_recording (rc_set_started (rc_put s4 (Msg m2)) true)) with (rc_recording s2). rewrite N3.
      exists t, e, r, now, start, u. repeat (split; [solve [auto]|]). split; [rewrite boundary_snoc; cbn [m2]; auto|].
      rewrite parse_snoc, Pm. reflexivity.
    - apply contiguous_snoc; auto. subst m2. intros x y z e0 t0 p0 X. injection X as _ _ _ _ <- <-. auto.
    - change (rc_ring (rc_set_started (rc_put s4 (Msg m2)) true)) with (rc_ring s2). rewrite N5.
      change (rc_trace (rc_set_started (rc_put s4 (Msg m2)) true)) with (rc_trace s4 ++ [Msg m2]). apply answered_snoc; auto; discriminate.
    - change (rc_recording (rc_set_started (rc_put s4 (Msg m2)) true)) with (rc_recording s2). rewrite N3.
      rewrite !positions_app, G5, H4. reflexivity. }
  cbn [andb].
  destruct (rc_IsUnspecifiedEventEndTime e).
  { ib E. injection E as <- <-. destruct (Starting _ eq_refl) as [X1 [X2 [X3 X4]]]. cbn. do 4 (split; [auto|]). split; [auto|congruence]. }
  ib E. destruct (now <? a).
  { ib E. injection E as <- <-. destruct (Starting _ eq_refl) as [X1 [X2 [X3 X4]]]. cbn. do 4 (split; [auto|]). split; [auto|congruence]. }
  injection E as <- <-. change (calls (rc_set_started s4 false)) with (calls s4). cbn [rc_set_started rc_recording rc_ring].
  change (rc_recording s4) with (rc_recording s2). change (rc_ring s4) with (rc_ring s2). do 4 (split; [auto; congruence|]). split; [auto|congruence].
Qed.

(** ** Recording *)
Lemma events_good : forall start s s', good start s -> rc_recording s = true -> rc_events local s = Ok s' ->
  good start s' /\ rc_ring s' = rc_ring s /\ calls s' = calls s /\ rc_recording s' = true /\ rc_new_eit s' = None.
Proof using local.
  intros start s s' G R E. unfold rc_events in E. ib E. destruct a as [s1 now].
  destruct (now_same _ _ _ E0) as [Sm N7]. clear E0.
  assert (G1 : good start s1) by (eapply good_same; eauto; rewrite N7; apply G).
  destruct Sm as [N1 [N2 [N3 [N4 [N5 N6]]]]].
  assert (R1 : rc_recording s1 = true) by congruence.
  cut (good start s' /\ rc_ring s' = rc_ring s1 /\ calls s' = calls s1 /\ rc_recording s' = true /\ rc_new_eit s' = None).
  { intros [X1 [X2 [X3 [X4 X5]]]]. assert (calls s1 = calls s) by (unfold calls; rewrite N6; auto). intuition congruence. }
  clear G R N1 N2 N3 N4 N5 N6 N7 s. rename s1 into s. rename G1 into G. rename R1 into R.
  destruct G as [G1 G2 G3 G4 G5]. rewrite R in G2, G5.
  destruct G2 as [t [e [r [bt [bp [u [H1 [H2 [H3 [H4 [H5 H6]]]]]]]]]]].
  rewrite H1 in E.
  (* sending boundary messages *)
  assert (Send : forall s3 k x ev rr bt' bp' s4, rc_SendBoundaryMessage s3 k x = Ok s4 -> eit_events x = ev :: rr -> rc_boundary s3 = Some (bt', bp') ->
     exists u', ConvertJstTimeToUnixTime bt' = Ok u' /\ s4 = rc_put s3 (Msg (MEvent k (eit_onid x) (eit_tsid x) (eit_sid x) ev u' bp'))).
  { intros s3 k x ev rr bt' bp' s4 F Ex Eb. unfold rc_SendBoundaryMessage in F. rewrite Eb in F. unfold rc_SendEventMessage, rc_GetEvent in F.
    rewrite Ex in F. cbn [bind] in F. ib F. injection F as <-. eauto. }
  destruct (rc_new_eit s) as [new|] eqn:Nw.
  - specialize (G1 _ eq_refl). destruct (eit_events new) as [|e2 r2] eqn:Ev2; [congruence|]. clear G1.
    unfold rc_GetEvent in E at 1. rewrite H2 in E. cbn [bind] in E. unfold rc_GetEvent in E at 1. rewrite Ev2 in E. cbn [bind] in E.
    set (s2 := rc_set_eit s (Some new) None) in *.
    destruct (Z.eqb_spec (ev_id e) (ev_id e2)) as [Eid|Eid]; cbn [negb] in E.
    + (* the same event, perhaps changed *)
      assert (Gs2 : good start s2).
      { constructor; change (msgs s2) with (msgs s); change (calls s2) with (calls s); cbn [s2 rc_set_eit rc_new_eit rc_recording rc_ring rc_trace]; auto.
        - discriminate.
        - rewrite R. exists new, e2, r2, bt, bp, u. repeat (split; [solve [auto]|]). cbn [s2 rc_set_eit rc_started]. rewrite <- Eid. auto.
        - rewrite R. auto. }
      change (rc_started s2) with (rc_started s) in E. destruct (rc_started s) eqn:St.
      2: { injection E as <-. auto 8. }
      unfold rc_GetEvent in E. rewrite Ev2 in E. cbn [bind] in E.
      destruct (rc_IsUnspecifiedEventEndTime e2); [injection E as <-; auto 8|].
      ib E. rename a into et. destruct (et <=? now); [|injection E as <-; auto 8].
      ib E. injection E as <-. destruct (Send _ _ _ _ _ _ _ _ E1 Ev2 eq_refl) as [u' [Eu' ->]]. clear E1 Send.
      change (rg_ring_pos (rc_ring s2)) with (rg_ring_pos (rc_ring s)). set (pos := rg_ring_pos (rc_ring s)).
      set (m := MEvent KEnd (eit_onid new) (eit_tsid new) (eit_sid new) e2 u' pos).
      set (s3 := rc_UpdateEventBoundary s2 et pos).
      assert (Ms : msgs (rc_set_started (rc_put s3 (Msg m)) false) = msgs s ++ [m]) by (change (msgs (rc_set_started (rc_put s3 (Msg m)) false)) with (msgs (rc_put s3 (Msg m))); rewrite put_msgs; auto).
      assert (Cs : calls (rc_set_started (rc_put s3 (Msg m)) false) = calls s) by (change (calls (rc_set_started (rc_put s3 (Msg m)) false)) with (calls (rc_put s3 (Msg m))); rewrite put_calls; auto).
      split; [|rewrite Cs; auto]. constructor; rewrite ?Ms, ?Cs.
      * discriminate.
      * change (rc_recording (rc_set_started (rc_put s3 (Msg m)) false)) with (rc_recording s). rewrite R.
        exists new, e2, r2, et, pos, u'. repeat (split; [solve [auto]|]). split; [rewrite boundary_snoc; auto|].
        rewrite parse_snoc, H6. cbn [m next]. rewrite Eid, Z.eqb_refl. auto.
      * apply contiguous_snoc; auto. subst m. discriminate.
      * apply answered_snoc; auto; discriminate.
      * change (rc_recording (rc_set_started (rc_put s3 (Msg m)) false)) with (rc_recording s). rewrite R.
        rewrite positions_app, G5. cbn. rewrite app_nil_r. auto.
    + (* another event *)
      change (rc_started s2) with (rc_started s) in E. destruct (rc_started s) eqn:St.
      * ib E. change (rg_ring_pos (rc_ring s2)) with (rg_ring_pos (rc_ring s)) in *. set (pos := rg_ring_pos (rc_ring s)) in *.
        set (s3 := rc_UpdateEventBoundary s2 now pos) in *.
        destruct (Send _ _ _ _ _ _ _ _ E0 H2 eq_refl) as [u' [Eu' ->]]. clear E0.
        set (m := MEvent KEnd (eit_onid t) (eit_tsid t) (eit_sid t) e u' pos) in *.
        destruct (Send _ _ _ _ _ now pos _ E Ev2 eq_refl) as [u2 [Eu2 ->]]. rewrite Eu' in Eu2. injection Eu2 as <-. clear E Send.
        set (m2 := MEvent KStart (eit_onid new) (eit_tsid new) (eit_sid new) e2 u' pos) in *.
        set (sf := rc_put (rc_put s3 (Msg m)) (Msg m2)).
        assert (Ms : msgs sf = (msgs s ++ [m]) ++ [m2]) by (subst sf; rewrite !put_msgs; auto).
        assert (Cs : calls sf = calls s) by (subst sf; rewrite !put_calls; auto).
        split; [|rewrite Cs; auto]. constructor; rewrite ?Ms, ?Cs.
        -- discriminate.
        -- change (rc_recording sf) with (rc_recording s). rewrite R. exists new, e2, r2, now, pos, u'.
           repeat (split; [solve [auto]|]). split; [rewrite !boundary_snoc; auto|].
           change (rc_started sf) with (rc_started s). rewrite St. rewrite !parse_snoc, H6. cbn [m m2 next]. rewrite Z.eqb_refl. auto.
        -- apply contiguous_snoc; [apply contiguous_snoc; auto; subst m; discriminate|].
           subst m2. intros x y z e0 t0 p0 X. injection X as _ _ _ _ <- <-. rewrite boundary_snoc. auto.
        -- change (rc_trace sf) with ((rc_trace s ++ [Msg m]) ++ [Msg m2]).
           apply answered_snoc; [apply answered_snoc|]; auto; discriminate.
        -- change (rc_recording sf) with (rc_recording s). rewrite R. rewrite !positions_app, G5. cbn. rewrite !app_nil_r. auto.
      * ib E. injection E as <-. destruct (Send _ _ _ _ _ bt bp _ E0 Ev2 H3) as [u2 [Eu2 ->]]. rewrite H4 in Eu2. injection Eu2 as <-. clear E0 Send.
        set (m2 := MEvent KStart (eit_onid new) (eit_tsid new) (eit_sid new) e2 u bp) in *.
        set (sf := rc_set_started (rc_put s2 (Msg m2)) true).
        assert (Ms : msgs sf = msgs s ++ [m2]) by (change (msgs sf) with (msgs (rc_put s2 (Msg m2))); rewrite put_msgs; auto).
        assert (Cs : calls sf = calls s) by (change (calls sf) with (calls (rc_put s2 (Msg m2))); rewrite put_calls; auto).
        split; [|rewrite Cs; auto]. constructor; rewrite ?Ms, ?Cs.
        -- discriminate.
        -- change (rc_recording sf) with (rc_recording s). rewrite R. exists new, e2, r2, bt, bp, u.
           repeat (split; [solve [auto]|]). split; [rewrite !boundary_snoc; auto|].
           rewrite !parse_snoc, H6. reflexivity.
        -- apply contiguous_snoc; auto. subst m2. intros x y z e0 t0 p0 X. injection X as _ _ _ _ <- <-. auto.
        -- change (rc_trace sf) with (rc_trace s ++ [Msg m2]). apply answered_snoc; auto; discriminate.
        -- change (rc_recording sf) with (rc_recording s). rewrite R. rewrite !positions_app, G5. cbn. rewrite !app_nil_r. auto.
  - cbn [bind] in E.
    assert (Gs : good start s).
    { constructor; auto. - congruence. - rewrite R. exists t, e, r, bt, bp, u. auto 8. - rewrite R. auto. }
    destruct (rc_started s) eqn:St; [|injection E as <-; auto 8].
    unfold rc_GetEvent in E. rewrite H2 in E. cbn [bind] in E.
    destruct (rc_IsUnspecifiedEventEndTime e); [injection E as <-; auto 8|].
    ib E. rename a into et. destruct (et <=? now); [|injection E as <-; auto 8].
    ib E. injection E as <-. destruct (Send _ _ _ _ _ _ _ _ E1 H2 eq_refl) as [u' [Eu' ->]]. clear E1 Send.
    set (pos := rg_ring_pos (rc_ring s)).
    set (m := MEvent KEnd (eit_onid t) (eit_tsid t) (eit_sid t) e u' pos).
    set (sf := rc_set_started (rc_put (rc_UpdateEventBoundary s et pos) (Msg m)) false).
    assert (Ms : msgs sf = msgs s ++ [m]) by (change (msgs sf) with (msgs (rc_put (rc_UpdateEventBoundary s et pos) (Msg m))); rewrite put_msgs; auto).
    assert (Cs : calls sf = calls s) by (change (calls sf) with (calls (rc_put (rc_UpdateEventBoundary s et pos) (Msg m))); rewrite put_calls; auto).
    split; [|rewrite Cs; auto]. constructor; rewrite ?Ms, ?Cs.
    + change (rc_new_eit sf) with (rc_new_eit s). congruence.
    + change (rc_recording sf) with (rc_recording s). rewrite R.
      exists t, e, r, et, pos, u'. repeat (split; [solve [auto]|]). split; [rewrite boundary_snoc; auto|].
      rewrite parse_snoc, H6. cbn [m next]. rewrite Z.eqb_refl. auto.
    + apply contiguous_snoc; auto. subst m. discriminate.
    + change (rc_trace sf) with (rc_trace s ++ [Msg m]). apply answered_snoc; auto; discriminate.
    + change (rc_recording sf) with (rc_recording s). rewrite R. rewrite positions_app, G5. cbn. rewrite app_nil_r. auto.
Qed.

End Rec.
