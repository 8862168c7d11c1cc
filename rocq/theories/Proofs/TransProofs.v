From Coq Require Import ZArith Lia List Bool.
From Verif Require Import Base.Outcome Base.Util Model.Sink Spec.FeedSpec Spec.TransSpec Spec.FilterSpec Proofs.FeedProofs Proofs.FilterMain.
Import ListNotations.
Open Scope Z_scope.

Notation AtEnd := TransSpec.AtEnd.
Notation Refused := TransSpec.Refused.
Notation Crashed := TransSpec.Crashed.

Section Trans.
Context {P H : Type}.
Variable step : H -> P -> list P -> verdict -> H -> Prop.

Lemma trans_det : (forall h p q1 v1 h1 q2 v2 h2, step h p q1 v1 h1 -> step h p q2 v2 h2 -> q1 = q2 /\ v1 = v2 /\ h1 = h2) ->
  forall k h d ps o1 e1 h1 d1 o2 e2 h2 d2,
  trans step k h d ps o1 e1 h1 d1 -> trans step k h d ps o2 e2 h2 d2 -> o1 = o2 /\ e1 = e2 /\ h1 = h2 /\ d1 = d2.
Proof.
  intros Det k h d ps o1 e1 h1 d1 o2 e2 h2 d2 F. revert o2 e2 h2 d2.
  induction F as [h d|h d p ps qs h' out d' out' e he de S E F IH|h d p ps qs h' out d' S E|h d p ps qs f h' out d' S E|h d p ps qs v h' out d' S E|h d p ps qs v h' out f S E];
    intros o2 e2 h2 d2 G.
  { inversion G; subst; auto. }
  all: inversion G as [|? ? ? ? qs2 h2' out2 d2' out2' ? ? ? S2 E2 F2|? ? ? ? qs2 h2' out2 d2' S2 E2|? ? ? ? qs2 f2 h2' out2 d2' S2 E2|? ? ? ? qs2 v2 h2' out2 d2' S2 E2|? ? ? ? qs2 v2 h2' out2 f2 S2 E2]; subst;
    destruct (Det _ _ _ _ _ _ _ _ S S2) as [? [? ?]]; subst; try discriminate;
    rewrite E in E2; inversion E2; subst; auto.
  - destruct (IH _ _ _ _ F2) as [-> [-> [-> ->]]]. auto.
  - repeat split. congruence.
Qed.

Lemma hand_split : forall (k : sink P) qs d out x, hand k d qs = (out, x) ->
  exists rest, qs = out ++ rest /\ (forall d', x = Ok (d', true) -> rest = []).
Proof.
  intros k qs. induction qs as [|q qs IH]; intros d out x E; cbn in E.
  - inversion E; subst. exists []. auto.
  - destruct (sk_handle k d q) as [[d1 [|]]|f].
    + destruct (hand k d1 qs) as [o y] eqn:Eh. inversion E; subst. destruct (IH _ _ _ Eh) as [rest [-> R]].
      exists rest. auto.
    + inversion E; subst. exists qs. split; auto. intros; discriminate.
    + inversion E; subst. exists qs. split; auto. intros; discriminate.
Qed.

Lemma hand_ok : forall (k : sink P) qs d out d', hand k d qs = (out, Ok (d', true)) -> out = qs.
Proof.
  intros k qs d out d' E. destruct (hand_split _ _ _ _ _ E) as [rest [-> R]]. rewrite (R _ eq_refl), app_nil_r. auto.
Qed.

Lemma hand_app : forall (k : sink P) a b d, hand k d (a ++ b) =
  match hand k d a with
  | (out, Ok (d1, true)) => let (out2, x) := hand k d1 b in (out ++ out2, x)
  | r => r
  end.
Proof.
  intros k a. induction a as [|q a IH]; intros b d; cbn.
  - destruct (hand k d b); auto.
  - destruct (sk_handle k d q) as [[d1 [|]]|f]; auto. rewrite IH.
    destruct (hand k d1 a) as [o [[d2 [|]]|]]; auto. destruct (hand k d2 b); auto.
Qed.

Lemma hand_never_fails : forall (k : sink P) qs d, never_fails k -> exists out r, hand k d qs = (out, Ok r).
Proof.
  intros k qs d [_ [K _]]. revert d. induction qs as [|q qs IH]; intros d; cbn; [eauto|].
  destruct (K d q) as [[d1 [|]] ->]; [|eauto]. destruct (IH d1) as [o [r ->]]. eauto.
Qed.

Lemma hand_log : forall (k : sink P) qs d log out d' log' b,
  hand (logged k) (d, log) qs = (out, Ok ((d', log'), b)) -> sent log' = sent log ++ out.
Proof.
  intros k qs. induction qs as [|q qs IH]; intros d log out d' log' b E; cbn in E.
  - inversion E; subst. rewrite app_nil_r. auto.
  - destruct (sk_handle k d q) as [[d1 [|]]|f]; cbn in E; [| |discriminate].
    + destruct (hand (logged k) (d1, log ++ [CPacket q true]) qs) as [o y] eqn:Eh. inversion E; subst.
      rewrite (IH _ _ _ _ _ _ Eh), sent_app. cbn. rewrite <- app_assoc. auto.
    + inversion E; subst. rewrite sent_app. auto.
Qed.

Lemma trans_log : forall (k : sink P) h x ps out e h' y,
  trans step (logged k) h x ps out e h' y -> (forall f, e <> Crashed f) -> sent (snd y) = sent (snd x) ++ out.
Proof.
  intros k h x ps out e h' y F.
  induction F as [h d|h d p ps qs h' out d' out' e he de S E F IH|h d p ps qs h' out d' S E|h d p ps qs f h' out d' S E|h d p ps qs v h' out d' S E|h d p ps qs v h' out f S E];
    intros N.
  - rewrite app_nil_r. auto.
  - rewrite (IH N). destruct d, d'. cbn [snd]. rewrite (hand_log _ _ _ _ _ _ _ _ E). rewrite app_assoc. auto.
  - destruct d, d'. apply (hand_log _ _ _ _ _ _ _ _ E).
  - exfalso. eapply N. reflexivity.
  - destruct d, d'. apply (hand_log _ _ _ _ _ _ _ _ E).
  - exfalso. eapply N. reflexivity.
Qed.

(** Composition. *)
Lemma trans_app : forall (k : sink P) h d a b o1 h1 d1 o2 e h2 d2,
  trans step k h d a o1 AtEnd h1 d1 -> trans step k h1 d1 b o2 e h2 d2 -> trans step k h d (a ++ b) (o1 ++ o2) e h2 d2.
Proof.
  intros k h d a b o1 h1 d1 o2 e h2 d2 F. remember AtEnd as e1 eqn:Ee. revert Ee.
  induction F as [h d|h d p ps qs h' out d' out' e1 he de S E F IH|h d p ps qs h' out d' S E|h d p ps qs f h' out d' S E|h d p ps qs v h' out d' S E|h d p ps qs v h' out f S E];
    intros Ee G; try discriminate; cbn [app]; auto.
  rewrite <- app_assoc. eapply X_go; eauto.
Qed.

Lemma trans_stop_app : forall (k : sink P) h d ps out e h' d' more, trans step k h d ps out e h' d' ->
  e <> AtEnd -> trans step k h d (ps ++ more) out e h' d'.
Proof.
  intros k h d ps out e h' d' more F.
  induction F as [h d|h d p ps qs h' out d' out' e he de S E F IH|h d p ps qs h' out d' S E|h d p ps qs f h' out d' S E|h d p ps qs v h' out d' S E|h d p ps qs v h' out f S E];
    intros N; cbn [app]; try congruence.
  - eapply X_go; eauto.
  - eapply X_halt; eauto.
  - eapply X_boom; eauto.
  - eapply X_refused; eauto.
  - eapply X_sink; eauto.
Qed.

(** Splitting: either the run got through the first part or it ended there. *)
Lemma trans_split : forall (k : sink P) a b h d out e h' d', trans step k h d (a ++ b) out e h' d' ->
  (exists o1 h1 d1 o2, trans step k h d a o1 AtEnd h1 d1 /\ trans step k h1 d1 b o2 e h' d' /\ out = o1 ++ o2) \/
  (e <> AtEnd /\ trans step k h d a out e h' d').
Proof.
  intros k a. induction a as [|p a IH]; intros b h d out e h' d' F; cbn [app] in F.
  - left. exists [], h, d, out. split; [constructor|]. auto.
  - inversion F as [|? ? ? ? qs h1 o1 d1 o2 ? ? ? S E F2|? ? ? ? qs h1 o1 d1 S E|? ? ? ? qs f h1 o1 d1 S E|? ? ? ? qs v h1 o1 d1 S E|? ? ? ? qs v h1 o1 f S E]; subst.
    + destruct (IH _ _ _ _ _ _ _ F2) as [[p1 [g1 [c1 [p2 [A [B C]]]]]]|[N A]].
      * left. exists (o1 ++ p1), g1, c1, p2. split; [eapply X_go; eauto|]. split; auto. subst. rewrite app_assoc. auto.
      * right. split; auto. eapply X_go; eauto.
    + right. split; [discriminate|]. eapply X_halt; eauto.
    + right. split; [discriminate|]. eapply X_boom; eauto.
    + right. split; [discriminate|]. eapply X_refused; eauto.
    + right. split; [discriminate|]. eapply X_sink; eauto.
Qed.

(** An invariant of the past. *)
Lemma trans_inv : forall (k : sink P) (I : H -> Prop) (Q : P -> Prop),
  (forall h p qs v h', I h -> Q p -> step h p qs v h' -> I h') ->
  forall h d ps out e h' d', trans step k h d ps out e h' d' -> Forall Q ps -> I h -> I h'.
Proof.
  intros k I Q St h d ps out e h' d' F. induction F; intros HQ HI; auto; inversion HQ; subst; eauto.
Qed.

Lemma trans_no_boom : forall (k : sink P) (I : H -> Prop) (Q : P -> Prop), never_fails k ->
  (forall h p qs v h', I h -> Q p -> step h p qs v h' -> (v = Go -> I h') /\ forall f, v <> Boom f) ->
  forall h d ps out e h' d', trans step k h d ps out e h' d' -> Forall Q ps -> I h -> forall f, e <> Crashed f.
Proof.
  intros k I Q K St h d ps out e h' d' F.
  induction F as [h d|h d p ps qs h' out d' out' e he de S E F IH|h d p ps qs h' out d' S E|h d p ps qs f h' out d' S E|h d p ps qs v h' out d' S E|h d p ps qs v h' out f S E];
    intros HQ HI f0; try discriminate; inversion HQ as [|? ? Hp HQ']; subst.
  - apply IH; auto. apply (St _ _ _ _ _ HI Hp S). reflexivity.
  - exfalso. destruct (St _ _ _ _ _ HI Hp S) as [_ N]. eapply N. reflexivity.
  - exfalso. destruct (hand_never_fails k qs d K) as [o [r Er]]. congruence.
Qed.

(** ** Refinement *)
Variable S : Type.
Variable k : sink P.
Variable handle : S * sk_state k -> P -> res ((S * sk_state k) * bool).
Variable inv fin : H -> S -> Prop.
Variable Q : P -> Prop.

Definition refines_step : Prop := forall h s d p, Q p -> inv h s -> exists qs v h', step h p qs v h' /\
  match hand k d qs with
  | (_, Fail f) => handle (s, d) p = Fail f
  | (_, Ok (d', false)) => exists s', handle (s, d) p = Ok ((s', d'), false) /\ fin h' s'
  | (_, Ok (d', true)) =>
      match v with
      | Go => exists s', handle (s, d) p = Ok ((s', d'), true) /\ inv h' s'
      | Halt => exists s', handle (s, d) p = Ok ((s', d'), false) /\ fin h' s'
      | Boom f => handle (s, d) p = Fail f
      end
  end.

Lemma trans_loop : refines_step -> (forall h s, inv h s -> fin h s) ->
  forall start en ex ps n h s d, (List.length ps < n)%nat -> Forall Q ps -> inv h s ->
  exists out e he de, trans step k h d ps out e he de /\
  match e with
  | Crashed f => feed_loop (list_source P) (mkSink _ start handle en ex) n ps (s, d) = Some (Fail f)
  | _ => exists s', fin he s' /\ feed_loop (list_source P) (mkSink _ start handle en ex) n ps (s, d) = Some (Ok (s', de))
  end.
Proof.
  intros R F start en ex ps. induction ps as [|p ps IH]; intros n h s d Hn HQ I; (destruct n as [|n]; [cbn in Hn; lia|]).
  - exists [], AtEnd, h, d. split; [constructor|]. exists s. cbn. auto.
  - inversion HQ as [|? ? Hp HQ']; subst. cbn [feed_loop list_source sr_next sk_handle].
    destruct (R h s d p Hp I) as [qs [v [h' [St A]]]].
    destruct (hand k d qs) as [out [[d' [|]]|f]] eqn:E.
    + destruct v as [| |f].
      * destruct A as [s' [-> I']]. destruct (IH n h' s' d' ltac:(cbn in Hn; lia) HQ' I') as [o [e [he [de [T X]]]]].
        exists (out ++ o), e, he, de. split; [eapply X_go; eauto|exact X].
      * destruct A as [s' [-> I']]. exists out, Halted, h', d'. split; [eapply X_halt; eauto|]. eauto.
      * rewrite A. exists out, (Crashed f), h', d'. split; [eapply X_boom; eauto|]. auto.
    + destruct A as [s' [-> I']]. exists out, Refused, h', d'. split; [eapply X_refused; eauto|]. eauto.
    + rewrite A. exists out, (Crashed f), h', d. split; [eapply X_sink; eauto|]. auto.
Qed.

End Trans.
