From Coq Require Import ZArith Lia List Bool.
From Verif Require Import Base.Outcome Base.Util Model.Sink Model.Ts Model.ServiceFilter Spec.FeedSpec Spec.FilterSpec
  Proofs.FeedProofs Proofs.FilterProofs.
Import ListNotations.
Open Scope Z_scope.

Section Det.
Variable sid : Z.
Variable limit : option Z.
Variable stage : nat.

Lemma heard_det : forall h p a b, heard sid limit stage h p a -> heard sid limit stage h p b -> a = b.
Proof. intros h p a b [[? ->]|[? ->]] [[? ->]|[? ->]]; tauto. Qed.

Lemma decide_det : forall h p a b, decide sid limit h p a -> decide sid limit h p b -> a = b.
Proof.
  intros h p a b Ha Hb.
  assert (X : limit = None -> (exists x t, In x h /\ a_tot x = Some t) ->
              (limit = None -> forall x, In x h -> a_tot x = None) -> False).
  { intros L [x [t [Hx E]]] S. rewrite (S L x Hx) in E. discriminate. }
  destruct Ha; destruct Hb; auto; try (exfalso; eauto; fail); try tauto; try congruence; try lia.
Qed.

Lemma filtered_det : forall k h d ps o1 e1 h1 d1 o2 e2 h2 d2,
  filtered sid limit stage k h d ps o1 e1 h1 d1 -> filtered sid limit stage k h d ps o2 e2 h2 d2 ->
  o1 = o2 /\ e1 = e2 /\ h1 = h2 /\ d1 = d2.
Proof.
  intros k h d ps o1 e1 h1 d1 o2 e2 h2 d2 F. revert o2 e2 h2 d2.
  induction F; intros o2 e2 h2 d2 G; inversion G; subst; clear G; auto;
  match goal with
  | A : heard _ _ _ ?h ?p ?x, B : heard _ _ _ ?h ?p ?y |- _ =>
      pose proof (heard_det _ _ _ _ A B); subst
  end;
  match goal with
  | A : decide _ _ ?h ?p ?x, B : decide _ _ ?h ?p ?y |- _ =>
      let E := fresh in pose proof (decide_det _ _ _ _ A B) as E; try discriminate E; try (inversion E; subst)
  end; try congruence; auto.
  { assert (d'0 = d') by congruence. subst.
    match goal with G : filtered _ _ _ _ _ _ ps ?o ?e ?h ?d |- _ => destruct (IHF _ _ _ _ G) as [-> [-> [-> ->]]] end. auto. }
  all: repeat split; congruence.
Qed.

Lemma only_single : forall t q, sid <> 0 ->
  filter (fun e => negb (fst e =? 0)) (pat_entries (only_service sid t q)) = [(sid, q)].
Proof.
  intros t q H. cbn. rewrite filter_app. cbn. destruct (Z.eqb_spec sid 0); [lia|]. cbn.
  assert (G : forall l : list (Z * Z), filter (fun e => negb (fst e =? 0)) (filter (fun e => fst e =? 0) l) = []).
  { induction l as [|[a b] l IH]; cbn; auto. destruct (a =? 0) eqn:E; cbn; auto. rewrite E. auto. }
  rewrite G. reflexivity.
Qed.

Lemma latest_listing_sid : forall h t q, latest (listing sid) h = Some (t, q) -> sid <> 0.
Proof.
  intros h t q H. apply latest_some_in in H as [x [_ H]]. unfold listing in H.
  destruct (usable_pat x); [|discriminate]. unfold pmt_pid_of in H. destruct (Z.eqb_spec sid 0); [discriminate|auto].
Qed.

Lemma send_stands : forall h p q, decide sid limit h p (Send q) -> stands_for sid p q.
Proof.
  intros h p q D. inversion D; subst.
  - right. split; auto. do 2 eexists. split; [reflexivity|]. apply only_single. eapply latest_listing_sid; eauto.
  - left. auto.
Qed.

Lemma filtered_thinned : forall k h d ps out e h' d',
  filtered sid limit stage k h d ps out e h' d' -> thinned sid ps out.
Proof.
  induction 1; try (constructor; auto; fail).
  - apply T_keep; auto. eapply send_stands; eauto.
  - apply T_keep; [eapply send_stands; eauto|constructor].
  - apply T_keep; [eapply send_stands; eauto|constructor].
Qed.

Lemma sent_app : forall P (a b : list (call P)), sent (a ++ b) = sent a ++ sent b.
Proof. induction a as [|[] a IH]; intros; cbn; auto. rewrite IH. auto. Qed.

Lemma filtered_log : forall k h d log ps out e h' d' log',
  filtered sid limit stage (logged k) h (d, log) ps out e h' (d', log') ->
  (forall f, e <> Crashed f) -> sent log' = sent log ++ out.
Proof.
  intros k h d log ps out e h' d' log' F.
  remember (d, log) as x eqn:Ex. remember (d', log') as y eqn:Ey.
  assert (G : (forall f, e <> Crashed f) -> sent (snd y) = sent (snd x) ++ out).
  { clear Ex Ey d log d' log'. induction F; intros Hc; auto; try (rewrite app_nil_r; reflexivity).
    - rewrite (IHF Hc). cbn in H1. destruct (sk_handle k (fst d) q) as [[s1 ok]|]; cbn in H1; [|discriminate].
      inversion H1; subst; clear H1. cbn [snd]. rewrite sent_app. cbn [sent]. rewrite <- app_assoc. reflexivity.
    - cbn in H1. destruct (sk_handle k (fst d) q) as [[s1 ok]|]; cbn in H1; [|discriminate].
      inversion H1; subst; clear H1. cbn [snd]. rewrite sent_app. reflexivity.
    - exfalso. eapply Hc. reflexivity. }
  subst. exact G.
Qed.

(** Stopping. *)
Lemma heard_grows : forall h p h', heard sid limit stage h p h' -> forall x, In x h -> In x h'.
Proof. intros h p h' [[_ ->]|[_ ->]] x Hx; auto. apply in_or_app. auto. Qed.

Lemma stopped_over : forall k h d ps out e h' d', filtered sid limit stage k h d ps out e h' d' ->
  ~ over sid limit h -> (e = Stopped <-> over sid limit h' /\ (forall f, e <> Crashed f)).
Proof.
  intros k h d ps out e h' d' F. induction F; intros N.
  - split; [discriminate|tauto].
  - apply IHF. inversion H0; subst; auto.
  - apply IHF. inversion H0; subst; auto.
  - split; [discriminate|]. intros [O _]. inversion H0; subst; tauto.
  - split; [discriminate|]. intros [_ O]. exfalso. eapply O. reflexivity.
  - split; auto. intros _. split; [inversion H0; subst; auto|discriminate].
  - split; [discriminate|]. intros [_ O]. exfalso. eapply O. reflexivity.
Qed.

Lemma filtered_stop_app : forall k h d ps out e h' d' more, filtered sid limit stage k h d ps out e h' d' ->
  e <> Exhausted -> filtered sid limit stage k h d (ps ++ more) out e h' d'.
Proof.
  intros k h d ps out e h' d' more F. induction F; intros N; cbn [app]; try congruence.
  - eapply F_skip; eauto.
  - eapply F_send; eauto.
  - eapply F_refused; eauto.
  - eapply F_sink_crash; eauto.
  - eapply F_stop; eauto.
  - eapply F_crash; eauto.
Qed.

(** No crash on tame tables. *)
Definition tame_hist (h : history) : Prop := forall x, In x h -> tame sid limit x /\ (limit = None -> a_tot x = None).

Lemma tame_no_crash : forall h p f, tame_hist h -> ~ decide sid limit h p (Crash f).
Proof.
  intros h p f T D.
  assert (W : wanted sid h (p_pid p) -> (p_pid p = 0 -> latest (listing sid) h <> None) /\ p_pid p <> 0x1FFF).
  { intros [[t [q [E K]]]|[[m [E K]]|[c [E K]]]].
    - split; [congruence|]. destruct K as [K|K].
      + unfold si_pids in K. cbn [In] in K. lia.
      + destruct (latest_some_in _ _ _ _ _ E) as [x [Hx Ex]]. destruct (T x Hx) as [Tx _].
        unfold listing in Ex. destruct (usable_pat x) as [t'|] eqn:U; [|discriminate].
        destruct (pmt_pid_of sid t') eqn:Ep; [|discriminate]. inversion Ex; subst.
        destruct x as [pp bb]. unfold tame in Tx. cbn in Tx. unfold usable_pat in U. destruct bb as [[t1|]|? |? |? |? |? |? |]; try discriminate.
        destruct ((pp =? 0) && negb (pat_tsid t1 =? 0)); [|discriminate]. inversion U; subst.
        apply Tx in Ep. apply Ep.
    - destruct (latest_some_in _ _ _ _ _ E) as [[pp bb] [Hx Ex]]. destruct (T _ Hx) as [Tx _].
      unfold service_pmt in Ex. cbn in Ex, Tx. unfold tame in Tx. cbn [snd] in Tx. destruct bb as [?|?|[t1|]|?|?|?|?|]; try discriminate.
      destruct (pmt_sid t1 =? sid); [|discriminate]. inversion Ex; subst. apply Tx in K. split; [lia|]. tauto.
    - destruct (latest_some_in _ _ _ _ _ E) as [[pp bb] [Hx Ex]]. destruct (T _ Hx) as [Tx _].
      unfold a_cat in Ex. cbn in Ex. unfold tame in Tx. cbn [snd] in Tx. destruct bb as [?|[t1|]|?|?|?|?|?|]; try discriminate.
      inversion Ex; subst. apply Tx in K. split; [lia|]. tauto. }
  inversion D as [N X| | | |? ? W1 W2|? ? W1 W2|]; subst.
  - destruct X as [x [t [Hx Et]]]. destruct (T x Hx) as [_ Q]. rewrite (Q N) in Et. discriminate.
  - apply W in W1. tauto.
  - apply W in W1. tauto.
Qed.

Lemma tame_heard : forall h p h', tame_hist h -> (forall t, In t (p_tabs p stage) -> tame sid limit (p_pid p, tb_body t)) ->
  heard sid limit stage h p h' -> tame_hist h'.
Proof.
  intros h p h' T Tp [[L ->]|[_ ->]]; auto. intros x Hx. apply in_app_or in Hx as [Hx|Hx]; auto.
  apply in_rev in Hx. apply in_map_iff in Hx as [t [<- Ht]]. split; auto. intros N.
  specialize (Tp t Ht). destruct (a_tot (p_pid p, tb_body t)) eqn:E; auto. exfalso.
  unfold a_tot in E. cbn in E. unfold tame in Tp. cbn [snd fst] in Tp. destruct (tb_body t) as [?|?|?|?|[z0|]|?|?|]; try discriminate.
  destruct Tp as [Tp|Tp]; [tauto|]. rewrite Tp in L.
  destruct L as [[t1 L]|[[L _]|[L _]]]; [|lia || (destruct L as [L|[L|[_ L]]]; [lia|lia|tauto])|lia].
  destruct (latest_some_in _ _ _ _ _ L) as [x [Hx Ex]]. destruct (T x Hx) as [Tx _].
  unfold listing in Ex. destruct (usable_pat x) as [t'|] eqn:U; [|discriminate].
  destruct (pmt_pid_of sid t') eqn:Ep; [|discriminate]. inversion Ex; subst.
  destruct x as [pp bb]. unfold tame in Tx. unfold usable_pat in U. destruct bb as [[t2|]|? |? |? |? |? |? |]; try discriminate.
  destruct ((pp =? 0) && negb (pat_tsid t2 =? 0)); [|discriminate]. inversion U; subst.
  apply Tx in Ep. lia.
Qed.

Lemma filtered_tame : forall k h d ps out e h' d', never_fails k -> filtered sid limit stage k h d ps out e h' d' ->
  tame_hist h -> (forall p t, In p ps -> In t (p_tabs p stage) -> tame sid limit (p_pid p, tb_body t)) ->
  forall f, e <> Crashed f.
Proof.
  intros k h d ps out e h' d' [_ [K _]] F. induction F; intros T Tp f0; try discriminate.
  - apply IHF; [eapply tame_heard; eauto; intros; apply (Tp p); cbn; auto|]. intros q t Hq. apply Tp. right; auto.
  - apply IHF; [eapply tame_heard; eauto; intros; apply (Tp p); cbn; auto|]. intros q0 t Hq. apply Tp. right; auto.
  - destruct (K d q) as [r Er]. congruence.
  - exfalso. eapply (tame_no_crash h' p f); eauto. eapply tame_heard; eauto. intros; apply (Tp p); cbn; auto.
Qed.

End Det.

(** ** Statements about the whole program *)
Lemma exit_code_if : forall sid h c (b : bool), (b = true <-> exists x, In x h /\ missing sid x = true) ->
  exit_code sid h c (if (c =? 0) && b then 1 else c).
Proof.
  intros sid h c b H. unfold exit_code. destruct (Z.eqb_spec c 0); destruct b; cbn.
  - left. intuition.
  - right. split; auto. intros [_ Q]. apply H in Q. discriminate.
  - right. split; auto. lia.
  - right. split; auto. lia.
Qed.

Lemma filter_refines : forall stage opt k ps n d d1, (List.length ps < n)%nat -> sk_start k d = Ok (d1, true) ->
  exists out e h d2, filtered (sfo_sid opt) (sfo_time_limit opt) stage k [] d1 ps out e h d2 /\
  match e with
  | Crashed f => FeedPackets (list_source packet) (service_filter stage opt k) n ps (sf_init opt, d) = Some (Fail f)
  | _ =>
      match sk_end k d2 with
      | Fail f => FeedPackets (list_source packet) (service_filter stage opt k) n ps (sf_init opt, d) = Some (Fail f)
      | Ok d3 =>
          match sk_exit k d3 with
          | Fail f => FeedPackets (list_source packet) (service_filter stage opt k) n ps (sf_init opt, d) = Some (Fail f)
          | Ok c => exists s code, exit_code (sfo_sid opt) h c code /\
              FeedPackets (list_source packet) (service_filter stage opt k) n ps (sf_init opt, d) = Some (Ok (code, (s, d3)))
          end
      end
  end.
Proof.
  intros stage opt k ps n d d1 Hn Es.
  destruct (feed_spec stage opt k ps n d d1 Hn Es) as [out [e [h [d2 [F E]]]]].
  exists out, e, h, d2. split; auto.
  assert (G : (exists s', FeedPackets (list_source packet) (service_filter stage opt k) n ps (sf_init opt, d) =
      Some (let* d2 := sk_end k d2 in let* c := sk_exit k d2 in Ok (if (c =? 0) && sf_error s' then 1 else c, (s', d2))) /\
      (sf_error s' = true <-> exists x, In x h /\ missing (sfo_sid opt) x = true)) ->
      match sk_end k d2 with
      | Fail f => FeedPackets (list_source packet) (service_filter stage opt k) n ps (sf_init opt, d) = Some (Fail f)
      | Ok d3 =>
          match sk_exit k d3 with
          | Fail f => FeedPackets (list_source packet) (service_filter stage opt k) n ps (sf_init opt, d) = Some (Fail f)
          | Ok c => exists s code, exit_code (sfo_sid opt) h c code /\
              FeedPackets (list_source packet) (service_filter stage opt k) n ps (sf_init opt, d) = Some (Ok (code, (s, d3)))
          end
      end).
  { intros [s' [E' Q]]. rewrite E'. destruct (sk_end k d2) as [d3|]; cbn; auto. destruct (sk_exit k d3) as [c|]; cbn; auto.
    exists s'. eexists. split; [apply exit_code_if; exact Q|reflexivity]. }
  destruct e; first [exact (G E)|exact E].
Qed.

Lemma filter_thinned : forall stage opt k ps n d code s d' log, (List.length ps < n)%nat ->
  FeedPackets (list_source packet) (service_filter stage opt (logged k)) n ps (sf_init opt, (d, [])) = Some (Ok (code, (s, (d', log)))) ->
  thinned (sfo_sid opt) ps (sent log).
Proof.
  intros stage opt k ps n d code s d' log Hn H.
  destruct (sk_start (logged k) (d, [])) as [[[d1 l1] [|]]|] eqn:Es.
  - destruct (filter_refines stage opt (logged k) ps n (d, []) (d1, l1) Hn Es) as [out [e [h [[d2 l2] [F E]]]]].
    assert (L1 : sent l1 = []).
    { cbn in Es. destruct (sk_start k d) as [[? ?]|]; cbn in Es; [|discriminate]. inversion Es; subst. reflexivity. }
    destruct e; try (pose proof (eq_trans (eq_sym H) E) as X; discriminate X);
      (destruct (sk_end (logged k) (d2, l2)) as [[d3 l3]|] eqn:Ee; [|pose proof (eq_trans (eq_sym H) E) as X; discriminate X];
       destruct (sk_exit (logged k) (d3, l3)) eqn:Ex; [|pose proof (eq_trans (eq_sym H) E) as X; discriminate X];
       destruct E as [s' [c [_ E]]]; pose proof (eq_trans (eq_sym H) E) as X; inversion X; subst;
       cbn in Ee; destruct (sk_end k d2); cbn in Ee; [|discriminate]; inversion Ee; subst;
       rewrite sent_app; cbn [sent]; rewrite app_nil_r;
       pose proof (filtered_log _ _ _ _ _ _ _ _ _ _ _ _ _ F ltac:(discriminate)) as L;
       rewrite L1 in L; cbn in L; rewrite L; eapply filtered_thinned; eauto).
  - unfold FeedPackets in H. cbn [sk_start service_filter snd fst] in H. rewrite Es in H. cbn in H. inversion H; subst.
    cbn in Es. destruct (sk_start k d) as [[? ?]|]; cbn in Es; [|discriminate]. inversion Es; subst. constructor.
  - unfold FeedPackets in H. cbn [sk_start service_filter snd fst] in H. rewrite Es in H. discriminate.
Qed.

Lemma filter_stop_iff : forall sid limit stage k d ps out e h d',
  filtered sid limit stage k [] d ps out e h d' -> (forall f, e <> Crashed f) -> (e = Stopped <-> over sid limit h).
Proof.
  intros. rewrite (stopped_over _ _ _ _ _ _ _ _ _ _ _ H); [tauto|]. intros [[x [[] _]]|[x [t [l [[] _]]]]].
Qed.

Lemma filter_nothing_after : forall stage opt k ps more n m d code s d1 d', (List.length ps < n)%nat -> (List.length (ps ++ more) < m)%nat ->
  sk_start k d = Ok (d1, true) ->
  FeedPackets (list_source packet) (service_filter stage opt k) n ps (sf_init opt, d) = Some (Ok (code, (s, d'))) ->
  (exists out e h d2, filtered (sfo_sid opt) (sfo_time_limit opt) stage k [] d1 ps out e h d2 /\ e <> Exhausted) ->
  exists s', FeedPackets (list_source packet) (service_filter stage opt k) m (ps ++ more) (sf_init opt, d) = Some (Ok (code, (s', d'))).
Proof.
  intros stage opt k ps more n m d code s d1 d' Hn Hm Es H [out [e [h [d2 [F Ne]]]]].
  destruct (filter_refines stage opt k ps n d d1 Hn Es) as [o1 [e1 [h1 [x1 [F1 E1]]]]].
  destruct (filter_refines stage opt k (ps ++ more) m d d1 Hm Es) as [o2 [e2 [h2 [x2 [F2 E2]]]]].
  destruct (filtered_det _ _ _ _ _ _ _ _ _ _ _ _ _ _ _ F1 F) as [-> [-> [-> ->]]].
  pose proof (filtered_stop_app _ _ _ _ _ _ _ _ _ _ _ more F Ne) as F'.
  destruct (filtered_det _ _ _ _ _ _ _ _ _ _ _ _ _ _ _ F2 F') as [-> [-> [-> ->]]].
  rewrite H in E1.
  destruct e; try congruence;
   (destruct (sk_end k d2) as [d3|]; [|discriminate]; destruct (sk_exit k d3) as [c|]; [|discriminate];
    destruct E1 as [s1 [c1 [X1 E1]]]; destruct E2 as [s2 [c2 [X2 E2]]]; inversion E1; subst;
    exists s2; rewrite E2; repeat f_equal; unfold exit_code in X1, X2; intuition congruence).
Qed.

Lemma filter_survives : forall stage opt k ps n d, (List.length ps < n)%nat -> never_fails k ->
  (forall p t, In p ps -> In t (p_tabs p stage) -> tame (sfo_sid opt) (sfo_time_limit opt) (p_pid p, tb_body t)) ->
  exists code s, FeedPackets (list_source packet) (service_filter stage opt k) n ps (sf_init opt, d) = Some (Ok (code, s)).
Proof.
  intros stage opt k ps n d Hn K T. pose proof K as [K1 [K2 [K3 K4]]].
  destruct (K1 d) as [[d1 [|]] Es].
  - destruct (filter_refines stage opt k ps n d d1 Hn Es) as [out [e [h [d2 [F E]]]]].
    assert (N : forall f, e <> Crashed f).
    { eapply filtered_tame; eauto. intros x []. }
    destruct e; try (exfalso; eapply N; reflexivity);
      (destruct (K3 d2) as [d3 E3]; rewrite E3 in E; destruct (K4 d3) as [c E4]; rewrite E4 in E;
       destruct E as [s [code [_ E]]]; eauto).
  - unfold FeedPackets. cbn [sk_start service_filter snd fst]. rewrite Es. cbn. eauto.
Qed.

(** When it fails, exactly. *)
Lemma listened_grows : forall sid limit stage h ps h', listened sid limit stage h ps h' -> forall x, In x h -> In x h'.
Proof. induction 1; intros x Hx; auto. apply IHlistened. eapply heard_grows; eauto. Qed.

Lemma over_grows : forall sid limit h h', (forall x, In x h -> In x h') -> over sid limit h -> over sid limit h'.
Proof. intros sid limit h h' G [[x [Hx E]]|[x [t [l [Hx E]]]]]; [left|right]; eauto 8. Qed.

Lemma upset_decide : forall sid limit h p a, decide sid limit h p a -> upset sid limit h p -> exists f, a = Crash f.
Proof.
  intros sid limit h p a D U. inversion D; subst; eauto; exfalso; unfold upset in U;
    (destruct U as [[L [x [tt [Hx Et]]]]|[U1 [U2 U3]]]; [rewrite (H L x Hx) in Et; discriminate|]); intuition congruence.
Qed.

Lemma decide_upset : forall sid limit h p f, decide sid limit h p (Crash f) -> upset sid limit h p.
Proof. intros sid limit h p f D. inversion D; subst; unfold upset; intuition. Qed.

Lemma decide_on : forall sid limit h p a, decide sid limit h p a -> (forall f, a <> Crash f) -> a <> Stop -> ~ over sid limit h.
Proof. intros sid limit h p a D N S. inversion D; subst; auto; try congruence; exfalso; eapply N; reflexivity. Qed.

Lemma filtered_crash_iff : forall sid limit stage k h d ps out e h' d', never_fails k -> never_refuses k ->
  filtered sid limit stage k h d ps out e h' d' -> ~ over sid limit h ->
  (exists f, e = Crashed f) <->
  exists pre p post h1 h2, ps = pre ++ p :: post /\ listened sid limit stage h pre h1 /\ ~ over sid limit h1 /\
    heard sid limit stage h1 p h2 /\ upset sid limit h2 p.
Proof.
  intros sid limit stage k h d ps out e h' d' [_ [K _]] [_ R] F.
  assert (G : forall h p h' a ps e, heard sid limit stage h p h' -> decide sid limit h' p a -> (forall f, a <> Crash f) -> a <> Stop ->
     (~ over sid limit h' -> (exists f, e = Crashed f) <->
        exists pre p post h1 h2, ps = pre ++ p :: post /\ listened sid limit stage h' pre h1 /\ ~ over sid limit h1 /\
          heard sid limit stage h1 p h2 /\ upset sid limit h2 p) ->
     ((exists f, e = Crashed f) <->
        exists pre p0 post h1 h2, p :: ps = pre ++ p0 :: post /\ listened sid limit stage h pre h1 /\ ~ over sid limit h1 /\
          heard sid limit stage h1 p0 h2 /\ upset sid limit h2 p0)).
  { clear. intros h p h' a ps e Hh D N S IH. pose proof (decide_on _ _ _ _ _ D N S) as O. rewrite (IH O). split.
    - intros [pre [p0 [post [h1 [h2 [-> [L Q]]]]]]]. exists (p :: pre), p0, post, h1, h2. split; auto. split; auto.
      econstructor; eauto.
    - intros [pre [p0 [post [h1 [h2 [E [L [O1 [H2 U]]]]]]]]]. destruct pre as [|q pre]; cbn in E; inversion E; subst.
      + inversion L; subst. rewrite (heard_det _ _ _ _ _ _ _ H2 Hh) in U. destruct (upset_decide _ _ _ _ _ D U) as [f Ef].
        exfalso. eapply N; eauto.
      + inversion L as [|? ? ha ? ? Ha Lb]; subst. rewrite (heard_det _ _ _ _ _ _ _ Ha Hh) in Lb. exists pre, p0, post, h1, h2. auto. }
  induction F; intros O.
  - split; [intros [f E]; discriminate|]. intros [[|? ?] [p0 [post [? [? [E _]]]]]]; discriminate E.
  - eapply G; eauto; discriminate.
  - eapply G; eauto; discriminate.
  - exfalso. specialize (R _ _ _ _ H1). discriminate.
  - exfalso. destruct (K d q) as [r Er]. congruence.
  - split; [intros [f E]; discriminate|]. intros [pre [p0 [post [h1 [h2 [E [L [O1 [H2 U]]]]]]]]].
    exfalso. assert (Oh : over sid limit h') by (inversion H0; subst; auto).
    destruct pre as [|q pre]; cbn in E; inversion E; subst.
    + inversion L; subst. rewrite (heard_det _ _ _ _ _ _ _ H2 H) in U. destruct (upset_decide _ _ _ _ _ H0 U) as [f Ef]. discriminate.
    + inversion L as [|? ? ha ? ? Ha Lb]; subst. rewrite (heard_det _ _ _ _ _ _ _ Ha H) in Lb. apply O1.
      eapply over_grows; [|exact Oh]. eapply listened_grows; eauto.
  - split; [intros _|eauto]. exists [], p, ps, h, h'. split; [reflexivity|]. split; [constructor|]. split; auto. split; auto.
    eapply decide_upset; eauto.
Qed.

Lemma filter_fails_iff : forall stage opt k ps n d, (List.length ps < n)%nat -> never_fails k -> never_refuses k ->
  (exists f, FeedPackets (list_source packet) (service_filter stage opt k) n ps (sf_init opt, d) = Some (Fail f)) <->
  exists pre p post h1 h2, ps = pre ++ p :: post /\
    listened (sfo_sid opt) (sfo_time_limit opt) stage [] pre h1 /\ ~ over (sfo_sid opt) (sfo_time_limit opt) h1 /\
    heard (sfo_sid opt) (sfo_time_limit opt) stage h1 p h2 /\ upset (sfo_sid opt) (sfo_time_limit opt) h2 p.
Proof.
  intros stage opt k ps n d Hn K R. pose proof K as [K1 [K2 [K3 K4]]]. pose proof R as [R1 _].
  destruct (K1 d) as [[d1 b] Es]. pose proof (R1 _ _ _ Es) as ->.
  destruct (filter_refines stage opt k ps n d d1 Hn Es) as [out [e [h [d2 [F E]]]]].
  rewrite <- (filtered_crash_iff _ _ _ _ _ _ _ _ _ _ _ K R F).
  2:{ intros [[x [[] _]]|[x [t [l [[] _]]]]]. }
  destruct e; [| | |split; [eauto|intros _; rewrite E; eauto]];
    (destruct (K3 d2) as [d3 E3]; rewrite E3 in E; destruct (K4 d3) as [c E4]; rewrite E4 in E;
     destruct E as [s [code [_ E]]]; rewrite E; split; intros [f X]; discriminate).
Qed.
