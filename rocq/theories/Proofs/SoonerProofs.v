(** Two runs of which the one ends no later than the other. *)
From Coq Require Import ZArith Lia List Bool.
From Verif Require Import Base.Outcome Base.Util Model.Sink Model.FileSource Model.StdoutSink Model.Ts Model.ServiceFilter Model.EitSection Model.EitCollector
  Model.EitpfCollector Model.Commands Spec.SourceSpec Spec.StdoutSpec Spec.TransSpec Spec.PipeSpec Spec.EitSpec Spec.SelectSpec Spec.SoonerSpec
  Proofs.SourceProofs Proofs.PipeProofs Proofs.PipeOptions Proofs.CutProofs Proofs.SelectProofs.
From Verif Require Model.ProgramFilter.
Import ListNotations.
Open Scope Z_scope.

Section Two.
Context {P X Y : Type}.
Variable k k' : sink P.
Variable out : sk_state k -> list X.
Variable out' : sk_state k' -> list Y.
Variable inv' : sk_state k' -> Prop.
Variable f : list Y -> list X.
Variable R : sk_state k -> sk_state k' -> Prop.

(** While the first run goes on, so does the second, and they stay related; where
    the first one stops, its output starts that of the second. *)
Definition ahead : Prop := forall s s' p t b t' b', R s s' -> sk_handle k s p = Ok (t, b) -> sk_handle k' s' p = Ok (t', b') ->
  (b = true -> b' = true /\ R t t') /\ (b = false -> is_prefix (out t) (f (out' t'))).

Hypothesis A : ahead.
Hypothesis O : forall s s', R s s' -> out s = f (out' s').
Hypothesis I : forall s s', R s s' -> inv' s'.
Hypothesis G : grows k' inv' out'.
Hypothesis M : forall a b, is_prefix a b -> is_prefix (f a) (f b).

Lemma hand_ahead : forall ps s s' r r' t b t' b', R s s' -> hand k s ps = (r, Ok (t, b)) -> hand k' s' ps = (r', Ok (t', b')) ->
  is_prefix (out t) (f (out' t')) /\ (b = true -> R t t').
Proof.
  induction ps as [|p ps IH]; intros s s' r r' t b t' b' H E E'; cbn [hand] in E, E'.
  - injection E as <- <- <-. injection E' as <- <- <-. split; [rewrite (O _ _ H); apply pre_refl|auto].
  - destruct (sk_handle k s p) as [[s1 b1]|] eqn:E1; [|discriminate]. destruct (sk_handle k' s' p) as [[s1' b1']|] eqn:E1'; [|discriminate].
    destruct (A s s' p s1 b1 s1' b1' H E1 E1') as [A1 A2]. destruct b1.
    + destruct (A1 eq_refl) as [-> H1]. destruct (hand k s1 ps) as [r1 x] eqn:E2, (hand k' s1' ps) as [r1' x'] eqn:E2'.
      injection E as <- ->. injection E' as <- ->. exact (IH _ _ _ _ _ _ _ _ H1 E2 E2').
    + injection E as <- <- <-. split; [|discriminate]. specialize (A2 eq_refl). destruct (G s' p s1' b1' (I _ _ H) E1') as [I1 _]. destruct b1'.
      * destruct (hand k' s1' ps) as [r1' x'] eqn:E2'. injection E' as <- ->. destruct (hand_grows k' inv' out' G _ _ _ _ _ I1 E2') as [_ Q].
        eapply pre_trans; [exact A2|]. apply M. exact Q.
      * injection E' as <- <- <-. exact A2.
Qed.
End Two.

(** The same for the commands. *)
Lemma run_states : forall P (view : list (list Z) -> list Z -> P) (k : sink P) reads bs d d0 n c h t, Forall read_ok reads -> packets_of (bytes_of reads) bs ->
  (List.length (bytes_of reads) < n)%nat -> sk_start k d = Ok (d0, true) -> run_main view k reads d n = Some (Ok (c, (h, t))) ->
  exists r d1 b, hand k d0 (views view [] bs) = (r, Ok (d1, b)) /\ sk_end k d1 = Ok t /\ sk_exit k t = Ok c.
Proof.
  intros P view k reads bs d d0 n c h t R Pk L S M. pose proof (main_feed view k reads bs d n R Pk L) as F.
  assert (Lv : (List.length (views view [] bs) < n)%nat) by (rewrite views_length; pose proof (packets_length _ _ Pk); lia).
  rewrite (feed_hand _ k _ n d d0 Lv S) in F. destruct (hand k d0 (views view [] bs)) as [r [[d1 b]|f]]; cbn [snd] in F; [|congruence].
  exists r, d1, b. split; [reflexivity|]. unfold finish in F. destruct (sk_end k d1) as [x|f]; cbn [bind] in F; [|congruence].
  destruct (sk_exit k x) as [c'|f] eqn:Ex; cbn [bind] in F; [|congruence]. destruct F as [h' F]. rewrite M in F. injection F as <- <- <-. auto.
Qed.

(** * collect-eits *)
Lemma eits_ahead : forall mjd o o', eo_sids o = eo_sids o' -> eo_xsids o = eo_xsids o' -> eo_actual o = eo_actual o' -> eo_others o = eo_others o' ->
  (eo_streaming o' = true \/ eo_streaming o = false /\ eo_time_limit o <= eo_time_limit o') ->
  ahead (eit_sink mjd o) (eit_sink mjd o') ec_out ec_out (fun l => l) eq.
Proof.
  intros mjd o o' E1 E2 E3 E4 L s s' p t b t' b' <- H H'. cbn [eit_sink sk_handle] in *. unfold ec_HandlePacket in *.
  assert (D : forall s, ec_deliver_all mjd o s p = ec_deliver_all mjd o' s p).
  { clear - E1 E2 E3 E4. induction p as [|d p IH]; intros s; [reflexivity|]. cbn [ec_deliver_all].
    assert (ec_deliver mjd o s d = ec_deliver mjd o' s d) as ->.
    { destruct d; [|reflexivity]. cbn [ec_deliver]. unfold ec_handleSection. rewrite E1, E2, E3, E4. reflexivity. }
    destruct (ec_deliver mjd o' s d); cbn [bind]; [apply IH|reflexivity]. }
  rewrite D in H. destruct (ec_deliver_all mjd o' s p) as [s1|]; cbn [bind] in *; [|discriminate].
  assert (t = s1 /\ t' = s1) as [-> ->].
  { destruct (ec_IsCompleted o s1), (ec_CheckTimeout o s1), (ec_IsCompleted o' s1), (ec_CheckTimeout o' s1); injection H; injection H'; auto. }
  split; [|intros _; apply pre_refl]. intros ->. split; [|reflexivity].
  unfold ec_IsCompleted, ec_CheckTimeout in *. destruct (eo_streaming o'); [injection H'; auto|]. destruct L as [L|[S L]]; [discriminate|]. rewrite S in H.
  destruct (cp_completed (ec_progress s1)); [discriminate|]. destruct (Z.leb_spec (eo_time_limit o) (ec_timestamp s1 - ec_last_updated s1)); [discriminate|].
  rewrite (proj2 (Z.leb_gt _ _)) in H' by lia. injection H'; auto.
Qed.

Lemma filter_prefix : forall A (g : A -> bool) a b, is_prefix a b -> is_prefix (filter g a) (filter g b).
Proof. intros A g a b [c ->]. exists (filter g c). apply filter_app. Qed.

(** A collector of the actual or of the other schedules, where these are about
    different services. *)
Lemma eits_pick : forall mjd o o' K ds, (forall x, In (DSection x) ds -> (schedule o' x <-> schedule o x /\ K (service_of x) = true)) ->
  forall s, ec_deliver_all mjd o' s ds = ec_deliver_all mjd o s (of_services K ds).
Proof.
  intros mjd o o' K ds. induction ds as [|d ds IH]; intros H s; [reflexivity|].
  assert (IH' := IH (fun x I => H x (or_intror I))). destruct d as [x|t]; unfold of_services; cbn [filter]; [|cbn [ec_deliver_all ec_deliver bind]; apply IH'].
  specialize (H x (or_introl eq_refl)).
  destruct (K (service_of x)) eqn:Kx; cbn [ec_deliver_all].
  - assert (ec_deliver mjd o' s (DSection x) = ec_deliver mjd o s (DSection x)) as ->.
    { destruct (schedule_dec o x) as [Sc|N].
      - destruct (scheduled mjd o s x Sc) as (e & He & _ & ->). destruct (scheduled mjd o' s x (proj2 H (conj Sc eq_refl))) as (e' & He' & _ & ->).
        rewrite He in He'. injection He' as <-. reflexivity.
      - rewrite !unscheduled; auto. rewrite H. tauto. }
    destruct (ec_deliver mjd o s (DSection x)); cbn [bind]; [apply IH'|reflexivity].
  - rewrite unscheduled; [cbn [bind]; apply IH'|]. rewrite H. intros [_ E]. discriminate.
Qed.

(** * collect-eitpfs *)
Lemma pf_handle_same : forall mjd o o', po_sids o = po_sids o' -> po_present o = po_present o' -> po_following o = po_following o' ->
  forall xs s, pf_handle_all mjd o s xs = pf_handle_all mjd o' s xs.
Proof.
  intros mjd o o' E1 E2 E3. induction xs as [|x xs IH]; intros s; [reflexivity|]. cbn [pf_handle_all].
  assert (pf_handleSection mjd o s x = pf_handleSection mjd o' s x) as -> by (unfold pf_handleSection; rewrite E1, E2, E3; reflexivity).
  destruct (pf_handleSection mjd o' s x); cbn [bind]; [apply IH|reflexivity].
Qed.

Lemma pf_ahead : forall mjd o o', po_sids o = po_sids o' -> po_present o = po_present o' -> po_following o = po_following o' ->
  (po_streaming o' = true \/ po_streaming o = false) -> ahead (pf_sink mjd o) (pf_sink mjd o') pf_out pf_out (fun l => l) eq.
Proof.
  intros mjd o o' E1 E2 E3 L s s' p t b t' b' <- H H'. cbn [pf_sink sk_handle] in *. unfold pf_HandlePacket in *.
  rewrite (pf_handle_same mjd o o' E1 E2 E3) in H. destruct (pf_handle_all mjd o' s p) as [s1|]; cbn [bind] in *; [|discriminate].
  destruct (pf_Done o s1) as [d|] eqn:D; cbn [bind] in H; [|discriminate]. destruct (pf_Done o' s1) as [d'|] eqn:D'; cbn [bind] in H'; [|discriminate].
  injection H as <- <-. injection H' as <- <-. split; [|intros _; apply pre_refl]. intros N. split; [|reflexivity].
  unfold pf_Done in D, D'. rewrite E1, E2, E3 in D. destruct (po_streaming o'); [injection D' as <-; reflexivity|]. destruct L as [L|L]; [discriminate|].
  rewrite L in D. rewrite D in D'. injection D' as <-. exact N.
Qed.

(** One of the two kinds of section. *)
Definition pf_kind (num : Z) (s s' : pf_state) : Prop :=
  pf_present s = pf_present s' /\ pf_following s = pf_following s' /\ pf_out s = filter (fun d => ed_number d =? num) (pf_out s').

Lemma pf_write_number : forall mjd out e out', pf_write mjd out e true = Ok out' -> exists d, out' = out ++ [d] /\ ed_number d = ei_number e.
Proof.
  intros mjd out e out' H. unfold pf_write in H. destruct (MakeEitJson mjd e) as [d|] eqn:J; cbn [bind] in H; [|discriminate]. injection H as <-.
  exists d. split; [reflexivity|]. unfold MakeEitJson in J. destruct (MakeEventsJsonValue mjd e); cbn [bind] in J; [|discriminate]. injection J as <-. reflexivity.
Qed.

Lemma pf_kind_section : forall mjd o o' num, po_sids o = po_sids o' -> po_present o' = true -> po_following o' = true ->
  po_present o = (num =? 0) -> po_following o = (num =? 1) -> forall s s' x t t', pf_kind num s s' ->
  pf_handleSection mjd o s x = Ok t -> pf_handleSection mjd o' s' x = Ok t' -> pf_kind num t t'.
Proof.
  intros mjd o o' num E1 P' F' Pr Fo s s' x t t' (Ep & Ef & Eo) H H'. unfold pf_handleSection in *. rewrite E1, Ep, Ef in H.
  assert (Same : Ok s = Ok t -> Ok s' = Ok t' -> pf_kind num t t') by (intros [= <-] [= <-]; repeat split; auto).
  destruct (negb (sn_valid x)); [auto|]. destruct (negb (sn_tid x =? 0x4E)); [auto|]. destruct (_ <? _); [auto|]. destruct (sn_next x); [auto|].
  destruct (EitSection x) as [e|]; cbn [bind] in *; [|discriminate]. destruct (_ && _); [auto|].
  assert (W : forall b : bool, ei_number e = (if b then 0 else 1) ->
    forall out out', pf_write mjd (pf_out s) e (if b then po_present o else po_following o) = Ok out -> pf_write mjd (pf_out s') e true = Ok out' ->
    out = filter (fun d => ed_number d =? num) out').
  { intros b En out1 out1' X X'. destruct (pf_write_number _ _ _ _ X') as (d & -> & Nd). rewrite filter_app, <- Eo. cbn [filter]. rewrite Nd, En.
    assert (C : (if b then po_present o else po_following o) = ((if b then 0 else 1) =? num)).
    { destruct b; [rewrite Pr|rewrite Fo]; apply Z.eqb_sym. }
    rewrite C in X. destruct (_ =? num); unfold pf_write in X, X'.
    - destruct (MakeEitJson mjd e); cbn [bind] in *; [|discriminate]. injection X as <-. injection X' as X'. apply app_inv_head in X'. injection X' as ->. reflexivity.
    - injection X as <-. rewrite app_nil_r. reflexivity. }
  destruct (Z.eqb_spec (ei_number e) 0) as [N|_].
  - destruct (pf_IsCollected e (pf_present s')); [auto|]. rewrite P' in H'.
    destruct (pf_write mjd (pf_out s) e (po_present o)) as [out|] eqn:X; cbn [bind] in H; [|discriminate].
    destruct (pf_write mjd (pf_out s') e true) as [out'|] eqn:X'; cbn [bind] in H'; [|discriminate].
    injection H as <-. injection H' as <-. split; [reflexivity|]. split; [reflexivity|]. exact (W true N out out' X eq_refl).
  - destruct (Z.eqb_spec (ei_number e) 1) as [N|_]; [|auto]. destruct (pf_IsCollected e (pf_following s')); [auto|]. rewrite F' in H'.
    destruct (pf_write mjd (pf_out s) e (po_following o)) as [out|] eqn:X; cbn [bind] in H; [|discriminate].
    destruct (pf_write mjd (pf_out s') e true) as [out'|] eqn:X'; cbn [bind] in H'; [|discriminate].
    injection H as <-. injection H' as <-. split; [reflexivity|]. split; [reflexivity|]. exact (W false N out out' X eq_refl).
Qed.

Lemma pf_kind_all : forall mjd o o' num, po_sids o = po_sids o' -> po_present o' = true -> po_following o' = true ->
  po_present o = (num =? 0) -> po_following o = (num =? 1) -> forall xs s s' t t', pf_kind num s s' ->
  pf_handle_all mjd o s xs = Ok t -> pf_handle_all mjd o' s' xs = Ok t' -> pf_kind num t t'.
Proof.
  intros mjd o o' num E1 P' F' Pr Fo. induction xs as [|x xs IH]; intros s s' t t' K H H'; cbn [pf_handle_all] in *.
  - injection H as <-. injection H' as <-. exact K.
  - destruct (pf_handleSection mjd o s x) as [s1|] eqn:X; cbn [bind] in H; [|discriminate].
    destruct (pf_handleSection mjd o' s' x) as [s1'|] eqn:X'; cbn [bind] in H'; [|discriminate].
    exact (IH _ _ _ _ (pf_kind_section mjd o o' num E1 P' F' Pr Fo _ _ _ _ _ K X X') H H').
Qed.

Lemma pf_kind_ahead : forall mjd o o' num, num = 0 \/ num = 1 -> po_sids o = po_sids o' -> po_present o' = true -> po_following o' = true ->
  po_present o = (num =? 0) -> po_following o = (num =? 1) -> po_streaming o = po_streaming o' ->
  ahead (pf_sink mjd o) (pf_sink mjd o') pf_out pf_out (filter (fun d => ed_number d =? num)) (pf_kind num).
Proof.
  intros mjd o o' num Nu E1 P' F' Pr Fo St s s' p t b t' b' K H H'. cbn [pf_sink sk_handle] in *. unfold pf_HandlePacket in *.
  destruct (pf_handle_all mjd o s p) as [s1|] eqn:X; cbn [bind] in H; [|discriminate]. destruct (pf_handle_all mjd o' s' p) as [s1'|] eqn:X'; cbn [bind] in H'; [|discriminate].
  pose proof (pf_kind_all mjd o o' num E1 P' F' Pr Fo _ _ _ _ _ K X X') as K1.
  destruct (pf_Done o s1) as [d|] eqn:D; cbn [bind] in H; [|discriminate]. destruct (pf_Done o' s1') as [d'|] eqn:D'; cbn [bind] in H'; [|discriminate].
  injection H as <- <-. injection H' as <- <-. destruct K1 as (Ep & Ef & Eo). split; [|intros _; rewrite Eo; apply pre_refl].
  intros N. split; [|split; [exact Ep|split; [exact Ef|exact Eo]]].
  unfold pf_Done in D, D'. rewrite St, E1, Ep, Ef, Pr, Fo in D. rewrite P', F' in D'. destruct (po_streaming o'); [injection D' as <-; reflexivity|].
  cbn [andb] in D'. destruct (zlen (pf_present s1') =? zlen (po_sids o')); cbn [negb] in D'; [|injection D' as <-; reflexivity].
  destruct (zlen (pf_following s1') =? zlen (po_sids o')); cbn [negb] in D'; [|injection D' as <-; reflexivity].
  exfalso. destruct Nu as [-> | ->]; cbn in D; injection D as <-; discriminate N.
Qed.

(** * filter-program *)
Section Program.
Variable npackets : pmt -> nat.
Variable o : ProgramFilter.program_filter_option.
Variable w w' : Z.
Hypothesis L : w <= w'.

(** During a packet: the same, but for the request to stop while waiting. *)
Definition waiting (s s' : ProgramFilter.pf_state) : Prop :=
  s = s' \/ ProgramFilter.pf_streaming s' = false /\ s = ProgramFilter.pf_set_stop s'.
Lemma stop_twice : forall s, ProgramFilter.pf_set_stop (ProgramFilter.pf_set_stop s) = ProgramFilter.pf_set_stop s.
Proof. reflexivity. Qed.

Lemma range_stop : forall s, ProgramFilter.pf_UpdatePcrRange (ProgramFilter.pf_set_stop s) = (let* t := ProgramFilter.pf_UpdatePcrRange s in Ok (ProgramFilter.pf_set_stop t)).
Proof.
  intros s. unfold ProgramFilter.pf_UpdatePcrRange, ProgramFilter.pf_ConvertTimeToPcr. cbn [ProgramFilter.pf_set_stop ProgramFilter.pf_win ProgramFilter.pf_clk].
  unfold assert. destruct (ProgramFilter.pw_ready _); [|reflexivity]. destruct (ProgramFilter.pc_pcr_ready _); [|reflexivity]. destruct (ProgramFilter.pc_time_ready _); [|reflexivity].
  match goal with |- (bind ?a _) = _ => destruct a; cbn [bind]; [|reflexivity] end. match goal with |- (bind ?a _) = _ => destruct a; cbn [bind]; reflexivity end.
Qed.
Lemma range_streaming : forall s t, ProgramFilter.pf_UpdatePcrRange s = Ok t -> ProgramFilter.pf_streaming t = ProgramFilter.pf_streaming s.
Proof.
  intros s t H. unfold ProgramFilter.pf_UpdatePcrRange in H. apply assert_ok in H as [_ H]. apply assert_ok in H as [_ H]. apply assert_ok in H as [_ H].
  ib H. ib H. injection H as <-. reflexivity.
Qed.
Lemma event_stop : forall s e, ProgramFilter.pf_UpdateEventTime (until w o) (ProgramFilter.pf_set_stop s) e =
  (let* t := ProgramFilter.pf_UpdateEventTime (until w' o) s e in Ok (ProgramFilter.pf_set_stop t)).
Proof.
  intros s e. unfold ProgramFilter.pf_UpdateEventTime. cbn [until ProgramFilter.pfo_end_margin ProgramFilter.pfo_start_margin].
  do 4 (match goal with |- (bind ?a _) = _ => destruct a; cbn [bind]; [|reflexivity] end).
  cbn [ProgramFilter.pf_set_stop ProgramFilter.pf_set_win ProgramFilter.pf_clk ProgramFilter.pf_win].
  destruct (_ && _); [|reflexivity]. apply (range_stop (ProgramFilter.pf_set_win s _)).
Qed.
Lemma event_streaming : forall x s e t, ProgramFilter.pf_UpdateEventTime x s e = Ok t -> ProgramFilter.pf_streaming t = ProgramFilter.pf_streaming s.
Proof.
  intros x s e t H. unfold ProgramFilter.pf_UpdateEventTime in H. do 4 (ib H). destruct (_ && _); [|injection H as <-; reflexivity]. exact (range_streaming _ _ H).
Qed.

Lemma clock_time_stop : forall s time, ProgramFilter.pf_UpdateClockTime (ProgramFilter.pf_set_stop s) time =
  (let* t := ProgramFilter.pf_UpdateClockTime s time in Ok (ProgramFilter.pf_set_stop t)).
Proof.
  intros s time. unfold ProgramFilter.pf_UpdateClockTime. cbn [ProgramFilter.pf_set_stop ProgramFilter.pf_set_clk ProgramFilter.pf_clk ProgramFilter.pf_win].
  unfold assert. destruct (negb _); [|reflexivity]. destruct (_ && _); [|reflexivity]. apply (range_stop (ProgramFilter.pf_set_clk s _)).
Qed.
Lemma clock_time_streaming : forall s time t, ProgramFilter.pf_UpdateClockTime s time = Ok t -> ProgramFilter.pf_streaming t = ProgramFilter.pf_streaming s.
Proof. intros s time t H. unfold ProgramFilter.pf_UpdateClockTime in H. apply assert_ok in H as [_ H]. destruct (_ && _); [exact (range_streaming _ _ H)|injection H as <-; reflexivity]. Qed.

(** A table for one that is to stop. *)
Lemma table_stop : forall s src t r, ProgramFilter.pf_streaming s = false -> ProgramFilter.pf_handleTable (until w' o) s src t = Ok r ->
  ProgramFilter.pf_streaming r = false /\ ProgramFilter.pf_handleTable (until w o) (ProgramFilter.pf_set_stop s) src t = Ok (ProgramFilter.pf_set_stop r).
Proof.
  intros s src t r St H. unfold ProgramFilter.pf_handleTable in *. destruct (tb_body t) as [b|b|b|b|b|b|b|]; try (injection H as <-; auto; fail).
  - unfold ProgramFilter.pf_HandlePat in *. destruct (negb _); [injection H as <-; auto|]. destruct b as [u|]; [|injection H as <-; auto].
    destruct (_ =? 0); [injection H as <-; auto|]. cbn [until ProgramFilter.pfo_sid] in *. destruct (mfind _ _); [|discriminate]. injection H as <-. auto.
  - unfold ProgramFilter.pf_HandlePmt in *. destruct b as [u|]; [|injection H as <-; auto]. cbn [until ProgramFilter.pfo_sid] in *.
    destruct (negb (pmt_sid u =? _)); [injection H as <-; auto|]. injection H as <-. auto.
  - unfold ProgramFilter.pf_HandleEit in *. destruct b as [u|]; [|injection H as <-; auto].
    cbn [until ProgramFilter.pfo_sid ProgramFilter.pfo_eid ProgramFilter.pfo_wait_until ProgramFilter.pf_streaming ProgramFilter.pf_set_stop] in *. rewrite St in *.
    destruct (negb _); [injection H as <-; auto|]. destruct (eit_events u) as [|p r1]; [injection H as <-; auto|].
    destruct (Ts.ev_id p =? _); [rewrite event_stop, H; cbn [bind]; rewrite (event_streaming _ _ _ _ H); auto|].
    destruct r1 as [|q r2]; [injection H as <-; auto|].
    destruct (Ts.ev_id q =? _); [rewrite event_stop, H; cbn [bind]; rewrite (event_streaming _ _ _ _ H); auto|]. injection H as <-; auto.
  - unfold ProgramFilter.pf_HandleTot in *. destruct b as [time|]; [|injection H as <-; auto]. cbn [ProgramFilter.pf_streaming ProgramFilter.pf_set_stop] in *. rewrite St in *.
    unfold ProgramFilter.pf_CheckTimeLimit in *. cbn [until ProgramFilter.pfo_wait_until] in *.
    set (a := if w' <? time then ProgramFilter.pf_set_stop s else s) in *.
    assert (Ea : ProgramFilter.pf_set_stop a = (if w <? time then ProgramFilter.pf_set_stop (ProgramFilter.pf_set_stop s) else ProgramFilter.pf_set_stop s)).
    { unfold a. destruct (w' <? time), (w <? time); reflexivity. }
    assert (Sa : ProgramFilter.pf_streaming a = false) by (unfold a; destruct (w' <? time); exact St).
    rewrite <- Ea. clearbody a. change (ProgramFilter.pc_time_ready (ProgramFilter.pf_clk (ProgramFilter.pf_set_stop a))) with (ProgramFilter.pc_time_ready (ProgramFilter.pf_clk a)).
    destruct (ProgramFilter.pc_time_ready (ProgramFilter.pf_clk a)); [injection H as <-; auto|]. rewrite clock_time_stop, H. cbn [bind]. rewrite (clock_time_streaming _ _ _ H). auto.
Qed.

Lemma table_waiting : forall s s' src t r r', waiting s s' -> ProgramFilter.pf_handleTable (until w o) s src t = Ok r ->
  ProgramFilter.pf_handleTable (until w' o) s' src t = Ok r' -> waiting r r'.
Proof.
  intros s s' src t r r' W H H'. destruct W as [->|[St ->]].
  2:{ destruct (table_stop s' src t r' St H') as [S1 E]. rewrite E in H. injection H as <-. right. auto. }
  assert (D : ProgramFilter.pf_handleTable (until w o) s' src t = ProgramFilter.pf_handleTable (until w' o) s' src t -> waiting r r') by (intros E; left; congruence).
  destruct (tb_body t) as [b|b|b|b|b|b|b|] eqn:Eb; try (apply D; unfold ProgramFilter.pf_handleTable; rewrite Eb; reflexivity).
  unfold ProgramFilter.pf_handleTable in *. rewrite Eb in *. clear D. unfold ProgramFilter.pf_HandleTot in *. destruct b as [time|]; [|left; congruence].
  destruct (ProgramFilter.pf_streaming s') eqn:St; [left; congruence|]. unfold ProgramFilter.pf_CheckTimeLimit in *. cbn [until ProgramFilter.pfo_wait_until] in *.
  destruct (Z.ltb_spec w time), (Z.ltb_spec w' time); try lia; try (left; congruence). right.
  change (ProgramFilter.pc_time_ready (ProgramFilter.pf_clk (ProgramFilter.pf_set_stop s'))) with (ProgramFilter.pc_time_ready (ProgramFilter.pf_clk s')) in H.
  destruct (ProgramFilter.pc_time_ready (ProgramFilter.pf_clk s')); [injection H as <-; injection H' as <-; auto|].
  rewrite clock_time_stop, H' in H. cbn [bind] in H. injection H as <-. rewrite (clock_time_streaming _ _ _ H'). auto.
Qed.
Lemma tables_waiting : forall ts s s' src r r', waiting s s' -> handle_tables (ProgramFilter.pf_handleTable (until w o)) s src ts = Ok r ->
  handle_tables (ProgramFilter.pf_handleTable (until w' o)) s' src ts = Ok r' -> waiting r r'.
Proof.
  induction ts as [|t ts IH]; intros s s' src r r' W H H'; cbn [handle_tables] in *; [injection H as <-; injection H' as <-; auto|].
  ib H. ib H'. exact (IH _ _ _ _ _ (table_waiting _ _ _ _ _ _ W Hb Hb0) H H').
Qed.

Variable k : sink packet.
Variable X : Type.
Variable inv : sk_state k -> Prop.
Variable out : sk_state k -> list X.
Hypothesis G : grows k inv out.

Lemma program_ahead : forall stage, ahead (ProgramFilter.program_filter npackets (until w o) k stage) (ProgramFilter.program_filter npackets (until w' o) k stage)
  (fun x => out (snd x)) (fun x => out (snd x)) (fun l => l) (fun x y => x = y /\ inv (snd x)).
Proof.
  intros stage [s d] x' p t b t' b' [<- Iv] H H'. pose proof (program_grows X npackets (until w' o) k inv out G stage (s, d) p t' b' Iv H') as [Iv' Pr].
  cbn [ProgramFilter.program_filter sk_handle snd] in *. unfold ProgramFilter.pf_HandlePacket in *. ib H. ib H'. rename v into a, v0 into a'.
  destruct (tables_waiting _ _ _ _ _ _ (or_introl eq_refl) Hb Hb0) as [<-|[St ->]].
  - assert (E : Ok (t, b) = Ok (t', b')).
    { rewrite <- H, <- H'. destruct (ProgramFilter.pf_streaming a); reflexivity. }
    injection E as <- <-. split; [auto|]. intros _. apply pre_refl.
  - cbn [ProgramFilter.pf_streaming ProgramFilter.pf_set_stop] in H. rewrite St in H. unfold ProgramFilter.pf_WaitReady in H. cbn [ProgramFilter.pf_stop ProgramFilter.pf_set_stop] in H.
    injection H as <- <-. split; [discriminate|]. intros _. exact Pr.
Qed.
End Program.

(** Behind a service filter. *)
Lemma behind_filter : forall X Y (opt : service_filter_option) stage k k' (out : sk_state k -> list X) (out' : sk_state k' -> list Y) f R,
  ahead k k' out out' f R -> (forall s s', R s s' -> out s = f (out' s')) ->
  ahead (service_filter stage opt k) (service_filter stage opt k') (fun x => out (snd x)) (fun x => out' (snd x)) f (fun x y => fst x = fst y /\ R (snd x) (snd y)).
Proof.
  intros X Y opt stage k k' out out' f R A O [s d] [s' d'] p [t u] b [t' u'] b' [E Rd] H H'. cbn [fst snd] in *. subst s'.
  cbn [service_filter sk_handle] in *. unfold sf_HandlePacket in *. ib H. ib H'. injection Hb0 as <-.
  assert (Same : Ok ((v, d), b) = Ok ((t, u), b) -> b = b' -> t' = v -> u' = d' -> (b = true -> b' = true /\ t = t' /\ R u u') /\ (b = false -> is_prefix (out u) (f (out' u')))).
  { intros [= <- <-] <- -> ->. split; [auto|]. intros _. rewrite (O _ _ Rd). apply pre_refl. }
  destruct (sf_done v); [injection H as <- <- <-; injection H' as <- <- <-; apply Same; auto|].
  destruct (sf_CheckFilterForDrop v (p_pid p)); [injection H as <- <- <-; injection H' as <- <- <-; apply Same; auto|].
  destruct (p_pid p =? PID_PAT).
  - destruct (sf_pat v) as [u0|]; [|discriminate]. ib H. ib H'. destruct v0 as [d1 ok], v1 as [d1' ok']. injection H as <- <- <-. injection H' as <- <- <-.
    destruct (A _ _ _ _ _ _ _ Rd Hb0 Hb1) as [A1 A2]. split; [|exact A2]. intros B. destruct (A1 B). auto.
  - apply assert_ok in H as [_ H]. apply assert_ok in H' as [_ H']. ib H. ib H'. destruct v0 as [d1 ok], v1 as [d1' ok']. injection H as <- <- <-. injection H' as <- <- <-.
    destruct (A _ _ _ _ _ _ _ Rd Hb0 Hb1) as [A1 A2]. split; [|exact A2]. intros B. destruct (A1 B). auto.
Qed.
