(** Proofs about the ring on files that cannot be used. *)
From Coq Require Import ZArith Lia List Bool.
From Verif Require Import Base.Outcome Base.Util Model.Sink Model.FileSource Model.Ts Model.RingFileSink Model.ServiceRecorder Model.Commands Model.PosixFile
  Spec.FileSpec Spec.StdoutSpec Spec.SourceSpec Spec.RecorderSpec Proofs.RingProofs Proofs.RingMain.
Import ListNotations.
Open Scope Z_scope.

(** ** Every call fails *)

Lemma flush_bad : forall s more s' evs ok, rg_ops s = -1 :: more -> rg_Flush s = Ok (s', evs, ok) -> ok = false /\ evs = [EvWriteFail].
Proof.
  intros s more s' evs ok O F. unfold rg_Flush in F. destruct (zlen (rg_buf s) =? kRingBufferSize) eqn:B; [|discriminate].
  apply Z.eqb_eq in B. cbn [assert] in F. rewrite O in F. destruct (rg_buf s) as [|b l] eqn:Eb; [discriminate|].
  cbn [rg_write] in F. rewrite B in F. change (kRingBufferSize =? 0) with false in F. change (-1 <=? 0) with true in F. cbn in F.
  injection F as <- <- <-. auto.
Qed.

Lemma loop_bad : forall fuel s data more s' evs ok, rg_ops s = -1 :: more -> rg_loop fuel s data = Ok (s', evs, ok) ->
  (ok = true /\ evs = [] /\ rg_ops s' = -1 :: more) \/ (ok = false /\ evs = [EvWriteFail]).
Proof.
  induction fuel as [|fuel IH]; intros s data more s' evs ok O H; [discriminate|]. cbn [rg_loop] in H.
  destruct (rg_FillBuffer s data) as [[s1 n]|] eqn:F; [|discriminate]. cbn [bind] in H.
  assert (O1 : rg_ops s1 = -1 :: more).
  { unfold rg_FillBuffer in F. destruct (_ <? 0); [discriminate|]. apply assert_ok in F. destruct F as [_ F]. apply assert_ok in F.
    destruct F as [_ F]. injection F as <- _. exact O. }
  destruct (rg_NeedFlush s1).
  - destruct (rg_Flush s1) as [[[s2 e2] ok2]|] eqn:Fl; [|discriminate]. cbn [bind] in H.
    destruct (flush_bad _ _ _ _ _ O1 Fl) as [-> ->]. cbn [negb] in H. injection H as <- <- <-. right. auto.
  - cbn [bind negb] in H. destruct (zlen (zdrop n data) =? 0).
    + injection H as <- <- <-. left. auto.
    + destruct (rg_loop fuel s1 (zdrop n data)) as [[[s3 e3] ok3]|] eqn:L; [|discriminate]. cbn [bind app] in H. injection H as <- <- <-.
      exact (IH _ _ _ _ _ _ O1 L).
Qed.

Lemma feed_bad : forall packets s more s' evs ok, rg_ops s = -1 :: more -> rg_feed s packets = Ok (s', evs, ok) ->
  (ok = true /\ evs = []) \/ (ok = false /\ evs = [EvWriteFail]).
Proof.
  induction packets as [|p r IH]; intros s more s' evs ok O H; cbn [rg_feed] in H.
  - injection H as <- <- <-. auto.
  - destruct (rg_HandlePacket s p) as [[[s1 e1] ok1]|] eqn:L; [|discriminate]. cbn [bind] in H.
    destruct (loop_bad _ _ _ _ _ _ _ O L) as [[-> [-> O1]]|[-> ->]].
    + destruct (rg_feed s1 r) as [[[s2 e2] ok2]|] eqn:Fd; [|discriminate]. cbn [bind app] in H. injection H as <- <- <-. exact (IH _ _ _ _ _ O1 Fd).
    + injection H as <- <- <-. auto.
Qed.

Lemma session_bad : forall cs nc start more packets s evs ok, rg_session cs nc start (-1 :: more) packets = Ok (s, evs, ok) ->
  (ok = true /\ evs = [] /\ start = 0) \/ (ok = false /\ evs = [EvWriteFail] /\ start = 0) \/ (ok = false /\ evs = [EvSeekFail] /\ start <> 0).
Proof.
  intros cs nc start more packets s evs ok H. unfold rg_session in H. destruct (rg_open cs nc start (-1 :: more)) as [[[s0 e0] ok0]|] eqn:Op; [|discriminate].
  cbn [bind] in H. unfold rg_open in Op. destruct (rg_new cs nc (-1 :: more)) as [r|] eqn:N; [|discriminate]. cbn [bind] in Op.
  assert (O : rg_ops (rg_SetObserver r) = -1 :: more).
  { unfold rg_new in N. repeat (apply assert_ok in N; destruct N as [_ N]). injection N as <-. reflexivity. }
  destruct (start =? 0) eqn:Z0.
  - apply Z.eqb_eq in Z0. injection Op as <- <- <-. destruct (rg_feed _ packets) as [[[s1 e1] ok1]|] eqn:F; [|discriminate]. cbn [bind app] in H.
    injection H as <- <- <-. destruct (feed_bad _ _ _ _ _ _ O F) as [[A B]|[A B]]; auto.
  - apply Z.eqb_neq in Z0. unfold rg_SetPosition in Op. repeat (apply assert_ok in Op; destruct Op as [_ Op]). rewrite O in Op. cbn in Op.
    injection Op as <- <- <-. injection H as <- <- <-. auto.
Qed.

(** ** Sync before every announcement *)

Lemma flush_sync : forall s s' evs ok, rg_Flush s = Ok (s', evs, ok) -> announced evs <> [] -> In EvSync evs.
Proof.
  intros s s' evs ok F A. unfold rg_Flush in F. apply assert_ok in F. destruct F as [_ F].
  destruct (rg_write (rg_buf s) (rg_ops s)) as [[we ops] okw] eqn:W.
  assert (NW : forall rest o e o1 k, rg_write rest o = (e, o1, k) -> announced e = []).
  { clear. intros rest o. revert rest. induction o as [|r o IH]; intros rest e o1 k H; cbn [rg_write] in H; destruct (zlen rest =? 0);
      try (injection H as <- <- <-; reflexivity).
    destruct (r <=? 0); [injection H as <- <- <-; reflexivity|]. destruct (rg_write (zdrop r rest) o) as [[e1 o2] k2] eqn:E.
    injection H as <- <- <-. cbn. exact (IH _ _ _ _ E). }
  assert (AA : forall a b, announced (a ++ b) = announced a ++ announced b).
  { clear. induction a as [|x a IH]; intros b; [reflexivity|]. cbn. destruct x; cbn; rewrite ?IH; reflexivity. }
  assert (NWr : forall x y e k, rg_wrap x = (y, e, k) -> announced e = []).
  { clear. intros x y e k H. unfold rg_wrap in H. destruct (_ =? _); [|injection H as <- <- <-; reflexivity].
    destruct (rg_next (rg_ops x)) as [a b]. destruct a; cbn [negb] in H; [|injection H as <- <- <-; reflexivity].
    destruct (rg_next b) as [c d]. destruct c; cbn [negb] in H; injection H as <- <- <-; reflexivity. }
  destruct okw; cbn [negb] in F.
  2:{ injection F as <- <- <-. rewrite (NW _ _ _ _ _ W) in A. congruence. }
  cbn zeta in F. apply assert_ok in F. destruct F as [_ F]. destruct (_ =? _).
  - apply assert_ok in F. destruct F as [_ F]. apply assert_ok in F. destruct F as [_ F]. destruct (rg_next ops) as [ok1 ops1].
    destruct ok1; cbn [negb] in F.
    + destruct (rg_wrap _) as [[s1 wevs] ok2]. injection F as <- <- <-. apply in_or_app. right. left. reflexivity.
    + injection F as <- <- <-. rewrite AA, (NW _ _ _ _ _ W) in A. cbn in A. congruence.
  - destruct (rg_wrap _) as [[s1 wevs] ok2] eqn:Wr. injection F as <- <- <-. rewrite AA, (NW _ _ _ _ _ W), (NWr _ _ _ _ Wr) in A. cbn in A. congruence.
Qed.

Lemma announced_app : forall a b, announced (a ++ b) = announced a ++ announced b.
Proof. induction a as [|x a IH]; intros b; [reflexivity|]. cbn. destruct x; cbn; rewrite ?IH; reflexivity. Qed.

Lemma either : forall a b, (announced a <> [] -> In EvSync a) -> (announced b <> [] -> In EvSync b) -> announced (a ++ b) <> [] -> In EvSync (a ++ b).
Proof.
  intros a b A B H. rewrite announced_app in H. apply in_or_app. destruct (announced a) eqn:E; [right; apply B; exact H|left; apply A; discriminate].
Qed.

Lemma loop_sync : forall fuel s data s' evs ok, rg_loop fuel s data = Ok (s', evs, ok) -> announced evs <> [] -> In EvSync evs.
Proof.
  induction fuel as [|fuel IH]; intros s data s' evs ok H; [discriminate|]. cbn [rg_loop] in H.
  destruct (rg_FillBuffer s data) as [[s1 n]|]; [|discriminate]. cbn [bind] in H.
  assert (X : forall s2 e2 ok2, (if rg_NeedFlush s1 then rg_Flush s1 else Ok (s1, [], true)) = Ok (s2, e2, ok2) -> announced e2 <> [] -> In EvSync e2).
  { intros s2 e2 ok2 E. destruct (rg_NeedFlush s1); [exact (flush_sync _ _ _ _ E)|]. injection E as <- <- <-. cbn. congruence. }
  destruct (if rg_NeedFlush s1 then _ else _) as [[[s2 e2] ok2]|] eqn:E; [|discriminate]. specialize (X _ _ _ eq_refl). cbn [bind] in H.
  destruct ok2; cbn [negb] in H; [|injection H as <- <- <-; exact X]. destruct (zlen (zdrop n data) =? 0); [injection H as <- <- <-; exact X|].
  destruct (rg_loop fuel s2 (zdrop n data)) as [[[s3 e3] ok3]|] eqn:L; [|discriminate]. cbn [bind] in H. injection H as <- <- <-.
  apply either; [exact X|exact (IH _ _ _ _ _ L)].
Qed.

Lemma feed_sync : forall packets s s' evs ok, rg_feed s packets = Ok (s', evs, ok) -> announced evs <> [] -> In EvSync evs.
Proof.
  induction packets as [|p r IH]; intros s s' evs ok H; cbn [rg_feed] in H.
  - injection H as <- <- <-. cbn. congruence.
  - destruct (rg_HandlePacket s p) as [[[s1 e1] ok1]|] eqn:L; [|discriminate]. cbn [bind] in H. pose proof (loop_sync _ _ _ _ _ _ L) as X.
    destruct ok1; [|injection H as <- <- <-; exact X]. destruct (rg_feed s1 r) as [[[s2 e2] ok2]|] eqn:Fd; [|discriminate]. cbn [bind] in H.
    injection H as <- <- <-. apply either; [exact X|exact (IH _ _ _ _ Fd)].
Qed.

Lemma session_sync : forall cs nc start ops packets s evs ok, rg_session cs nc start ops packets = Ok (s, evs, ok) ->
  (start <> 0 -> exists e, In e evs /\ px_asserts (mkPosix 1 true) e = true) /\ (announced evs <> [] -> In EvSync evs).
Proof.
  intros cs nc start ops packets s evs ok H. unfold rg_session in H. destruct (rg_open cs nc start ops) as [[[s0 e0] ok0]|] eqn:Op; [|discriminate].
  cbn [bind] in H. unfold rg_open in Op. destruct (rg_new cs nc ops) as [r|]; [|discriminate]. cbn [bind] in Op.
  assert (Y : (start <> 0 -> exists e, In e e0 /\ px_asserts (mkPosix 1 true) e = true) /\ announced e0 = []).
  { destruct (start =? 0) eqn:Z0.
    - apply Z.eqb_eq in Z0. injection Op as <- <- <-. split; [congruence|reflexivity].
    - unfold rg_SetPosition in Op. repeat (apply assert_ok in Op; destruct Op as [_ Op]). destruct (rg_next _) as [k o1].
      destruct k; injection Op as <- <- <-; (split; [intros _; eexists; split; [left; reflexivity|reflexivity]|reflexivity]). }
  destruct Y as [Y1 Y2]. destruct ok0.
  - destruct (rg_feed s0 packets) as [[[s1 e1] ok1]|] eqn:Fd; [|discriminate]. cbn [bind] in H. injection H as <- <- <-. split.
    + intros N. destruct (Y1 N) as [e [I A]]. exists e. split; [apply in_or_app; auto|exact A].
    + apply either; [congruence|exact (feed_sync _ _ _ _ _ Fd)].
  - injection H as <- <- <-. split; [exact Y1|congruence].
Qed.
