From Coq Require Import ZArith Lia List Bool ZifyBool.
From Verif Require Import Base.Outcome Base.Util Model.Sink Model.FileSource Model.StdoutSink Spec.SourceSpec Spec.StdoutSpec Proofs.SourceProofs.
Import ListNotations.
Open Scope Z_scope.

Ltac szs := change kStdoutBufferSize with 16384 in *; change PKT_SIZE with 188 in *.

Lemma flush_ok : forall writes buf rest out, Forall no_error writes ->
  exists w, so_flush buf rest writes out = (mkStdout [] w (out ++ rest), true) /\ Forall no_error w.
Proof.
  induction writes as [|w writes IH]; intros buf rest out H; cbn [so_flush].
  - destruct (Z.eqb_spec (zlen rest) 0) as [E|E].
    + assert (rest = []) by (destruct rest; auto; rewrite zlen_cons in E; pose proof (zlen_nonneg _ rest); lia).
      subst. rewrite app_nil_r. eauto.
    + eauto.
  - destruct (Z.eqb_spec (zlen rest) 0) as [E|E].
    + assert (rest = []) by (destruct rest; auto; rewrite zlen_cons in E; pose proof (zlen_nonneg _ rest); lia).
      subst. rewrite app_nil_r. eauto.
    + inversion H; subst. destruct w as [n|]; [|contradiction].
      destruct (IH buf (zdrop n rest) (out ++ ztake n rest) H3) as [w' [-> Hw]].
      exists w'. rewrite <- app_assoc, ztake_zdrop. auto.
Qed.

(** General behaviour: what is written is [out] plus a prefix of [rest]; a
    failure leaves the buffer untouched. *)
Lemma flush_gen : forall writes buf rest out s ok, so_flush buf rest writes out = (s, ok) ->
  exists done, is_prefix done rest /\ so_out s = out ++ done /\
    (ok = true -> done = rest /\ so_buf s = []) /\ (ok = false -> so_buf s = buf).
Proof.
  induction writes as [|w writes IH]; intros buf rest out s ok H; cbn [so_flush] in H;
    destruct (Z.eqb_spec (zlen rest) 0) as [E|E];
    try (assert (rest = []) by (destruct rest; auto; rewrite zlen_cons in E; pose proof (zlen_nonneg _ rest); lia));
    subst.
  - inversion H; subst. exists []. cbn. rewrite app_nil_r. repeat split; auto; try discriminate. exists []; auto.
  - inversion H; subst. exists rest. cbn. repeat split; auto; try discriminate. exists []; rewrite app_nil_r; auto.
  - inversion H; subst. exists []. cbn. rewrite app_nil_r. repeat split; auto; try discriminate. exists []; auto.
  - destruct w as [n|].
    + apply IH in H as [d [[c Hc] [H1 [H2 H3]]]]. exists (ztake n rest ++ d). split.
      { exists c. rewrite <- app_assoc, <- Hc. symmetry. apply ztake_zdrop. }
      split; [rewrite H1, app_assoc; reflexivity|]. split; [|auto].
      intros Hok. destruct (H2 Hok) as [-> ->]. rewrite ztake_zdrop. auto.
    + inversion H; subst. exists []. cbn. rewrite app_nil_r. repeat split; auto; try discriminate. exists rest; auto.
Qed.

(** One packet without a failing write. *)
Lemma handle_ok : forall s p, zlen (so_buf s) < 16384 -> is_packet p -> Forall no_error (so_writes s) ->
  exists s', so_HandlePacket s p = Ok (s', true) /\ zlen (so_buf s') < 16384 /\ Forall no_error (so_writes s') /\
    so_out s' ++ so_buf s' = so_out s ++ so_buf s ++ p.
Proof.
  intros s p Hb Hp Hw. unfold so_HandlePacket, is_packet in *. szs. pose proof (zlen_nonneg _ (so_buf s)) as Hb0.
  destruct (Z.ltb_spec (zlen (so_buf s) + 188) 16384) as [H|H].
  - eexists; split; [reflexivity|]. cbn. rewrite zlen_app. split; [lia|]. split; [auto|]. reflexivity.
  - destruct (Z.ltb_spec (16384 - zlen (so_buf s)) 0); [lia|]. cbn [so_buf].
    set (r := 16384 - zlen (so_buf s)).
    assert (Hl : zlen (so_buf s ++ ztake r p) = 16384) by (rewrite zlen_app, zlen_ztake; unfold r; lia).
    rewrite Hl. cbn [assert Z.eqb Pos.eqb]. unfold so_Flush. cbn [so_buf so_writes so_out].
    destruct (flush_ok (so_writes s) (so_buf s ++ ztake r p) (so_buf s ++ ztake r p) (so_out s) Hw) as [w [-> Hw']].
    cbn [negb so_buf so_writes so_out].
    destruct (Z.ltb_spec r 188).
    + eexists; split; [reflexivity|]. cbn. split; [rewrite zlen_zdrop; unfold r in *; pose proof (zlen_nonneg _ (so_buf s)); lia|].
      split; [auto|]. rewrite <- !app_assoc, ztake_zdrop. reflexivity.
    + eexists; split; [reflexivity|]. cbn. split; [rewrite zlen_nil; lia|]. split; [auto|].
      rewrite app_nil_r, ztake_all by lia. reflexivity.
Qed.

Lemma run_ok : forall ps s, zlen (so_buf s) < 16384 -> Forall is_packet ps -> Forall no_error (so_writes s) ->
  exists s', so_run s ps = Ok (s', true) /\ zlen (so_buf s') < 16384 /\ Forall no_error (so_writes s') /\
    so_out s' ++ so_buf s' = so_out s ++ so_buf s ++ concat ps.
Proof.
  induction ps as [|p ps IH]; intros s Hb Hp Hw; cbn [so_run concat].
  - exists s. rewrite app_nil_r. auto.
  - inversion Hp; subst. destruct (handle_ok s p Hb H1 Hw) as [s1 [-> [B1 [W1 O1]]]]. cbn [bind].
    destruct (IH s1 B1 H2 W1) as [s2 [E2 [B2 [W2 O2]]]]. exists s2. repeat split; auto.
    rewrite O2, !app_assoc, O1, !app_assoc. reflexivity.
Qed.

Lemma end_ok : forall s, Forall no_error (so_writes s) -> so_out (so_End s) = so_out s ++ so_buf s.
Proof.
  intros s H. unfold so_End, so_Flush.
  destruct (flush_ok (so_writes s) (so_buf s) (so_buf s) (so_out s) H) as [w [-> _]]. reflexivity.
Qed.

Lemma stdout_feed_loop : forall ps s n, (List.length ps < n)%nat ->
  feed_loop (list_source (list Z)) stdout_sink n ps s = Some (let* (s', _) := so_run s ps in Ok s').
Proof.
  induction ps as [|p ps IH]; intros s n Hn; (destruct n as [|n]; [cbn in Hn; lia|]); cbn; auto.
  destruct (so_HandlePacket s p) as [[s1 [|]]|]; cbn; auto. apply IH. cbn in Hn. lia.
Qed.

Lemma stdout_feed : forall ps writes n, (List.length ps < n)%nat ->
  FeedPackets (list_source (list Z)) stdout_sink n ps (so_init writes) =
  Some (let* (s, _) := so_run (so_init writes) ps in Ok (0, so_End s)).
Proof.
  intros. unfold FeedPackets. cbn [sk_start stdout_sink]. rewrite stdout_feed_loop by auto. f_equal.
  destruct (so_run (so_init writes) ps) as [[s b]|]; reflexivity.
Qed.

Lemma stdout_exact : forall ps writes n, (List.length ps < n)%nat -> Forall is_packet ps -> Forall no_error writes ->
  exists s, FeedPackets (list_source (list Z)) stdout_sink n ps (so_init writes) = Some (Ok (0, s)) /\
    so_out s = concat ps.
Proof.
  intros ps writes n Hn Hp Hw. rewrite stdout_feed by auto.
  destruct (run_ok ps (so_init writes)) as [s [-> [_ [W O]]]]; auto.
  { cbn. rewrite zlen_nil. lia. }
  cbn. exists (so_End s). split; [reflexivity|]. rewrite end_ok by auto. auto.
Qed.

(** * With failing writes *)

Lemma handle_any : forall s p, zlen (so_buf s) < 16384 -> is_packet p ->
  exists s' ok, so_HandlePacket s p = Ok (s', ok) /\
    (ok = true -> zlen (so_buf s') < 16384 /\ so_out s' ++ so_buf s' = so_out s ++ so_buf s ++ p) /\
    (ok = false -> exists q, is_prefix (so_buf s') (so_buf s ++ p) /\ zlen (so_buf s') = 16384 /\ is_prefix q (so_buf s') /\ so_out s' = so_out s ++ q).
Proof.
  intros s p Hb Hp. unfold so_HandlePacket, is_packet in *. szs. pose proof (zlen_nonneg _ (so_buf s)) as Hb0.
  destruct (Z.ltb_spec (zlen (so_buf s) + 188) 16384) as [H|H].
  - do 2 eexists; split; [reflexivity|]. cbn. rewrite zlen_app. split; [|discriminate]. intros _. split; [lia|reflexivity].
  - destruct (Z.ltb_spec (16384 - zlen (so_buf s)) 0); [lia|]. cbn [so_buf].
    set (r := 16384 - zlen (so_buf s)).
    assert (Hl : zlen (so_buf s ++ ztake r p) = 16384) by (rewrite zlen_app, zlen_ztake; unfold r; lia).
    rewrite Hl. cbn [assert Z.eqb Pos.eqb]. unfold so_Flush. cbn [so_buf so_writes so_out].
    destruct (so_flush (so_buf s ++ ztake r p) (so_buf s ++ ztake r p) (so_writes s) (so_out s)) as [s2 ok] eqn:E.
    apply flush_gen in E as [d [Hd [Ho [Ht Hf]]]]. destruct ok; cbn [negb].
    + destruct (Ht eq_refl) as [-> Hbuf]. rewrite Hbuf.
      destruct (Z.ltb_spec r 188).
      * do 2 eexists; split; [reflexivity|]. cbn. split; [|discriminate]. intros _.
        split; [rewrite zlen_zdrop; unfold r in *; pose proof (zlen_nonneg _ (so_buf s)); lia|].
        rewrite Ho, <- !app_assoc, ztake_zdrop. reflexivity.
      * do 2 eexists; split; [reflexivity|]. split; [|discriminate]. intros _. rewrite Hbuf. split; [rewrite zlen_nil; lia|].
        rewrite app_nil_r, Ho, ztake_all by lia. reflexivity.
    + do 2 eexists; split; [reflexivity|]. split; [discriminate|]. intros _. exists d. rewrite (Hf eq_refl).
      split; [exists (zdrop r p); rewrite <- app_assoc, ztake_zdrop; reflexivity|]. auto.
Qed.

Lemma prefix_app : forall A (a b c : list A), is_prefix b c -> is_prefix (a ++ b) (a ++ c).
Proof. intros A a b c [d ->]. exists d. apply app_assoc. Qed.
Lemma prefix_trans : forall A (a b c : list A), is_prefix a b -> is_prefix b c -> is_prefix a c.
Proof. intros A a b c [d ->] [e ->]. exists (d ++ e). rewrite app_assoc. reflexivity. Qed.
Lemma prefix_l : forall A (a b : list A), is_prefix a (a ++ b).
Proof. intros. exists b. reflexivity. Qed.

(** Any prefix of the run, any schedule: until a packet is refused, written and
    buffered bytes are the stream; a refused packet leaves the written bytes a
    prefix of the stream and a full buffer. *)
Lemma run_any : forall ps s, zlen (so_buf s) < 16384 -> Forall is_packet ps ->
  exists s' ok, so_run s ps = Ok (s', ok) /\
    (ok = true -> zlen (so_buf s') < 16384 /\ so_out s' ++ so_buf s' = so_out s ++ so_buf s ++ concat ps) /\
    (ok = false -> exists base q, so_out s' = base ++ q /\ is_prefix q (so_buf s') /\
        zlen (so_buf s') = 16384 /\ is_prefix (base ++ so_buf s') (so_out s ++ so_buf s ++ concat ps)).
Proof.
  induction ps as [|p ps IH]; intros s Hb Hp; cbn [so_run concat].
  - exists s, true. rewrite app_nil_r. split; auto. split; [auto|discriminate].
  - inversion Hp; subst. destruct (handle_any s p Hb H1) as [s1 [ok [-> [Ht Hf]]]]. cbn [bind].
    destruct ok.
    + destruct (Ht eq_refl) as [B1 O1].
      destruct (IH s1 B1 H2) as [s2 [ok2 [E2 [T2 F2]]]]. exists s2, ok2. split; auto. split.
      * intros Hok. destruct (T2 Hok) as [B2 O2]. split; auto.
        rewrite O2, !app_assoc, O1, !app_assoc. reflexivity.
      * intros Hok. destruct (F2 Hok) as [base [q [Q1 [Q2 [Q3 Q4]]]]]. exists base, q. repeat split; auto.
        replace (so_out s ++ so_buf s ++ p ++ concat ps) with (so_out s1 ++ so_buf s1 ++ concat ps); auto.
        rewrite !app_assoc, O1, !app_assoc. reflexivity.
    + exists s1, false. split; auto. split; [discriminate|]. intros _.
      destruct (Hf eq_refl) as [q [P1 [L1 [P2 O1]]]]. exists (so_out s), q. repeat split; auto.
      apply prefix_app. eapply prefix_trans; [exact P1|]. rewrite app_assoc. apply prefix_l.
Qed.

(** The written bytes before End are always a prefix of the stream. *)
Lemma before_end_prefix : forall ps writes s ok, Forall is_packet ps ->
  so_run (so_init writes) ps = Ok (s, ok) -> is_prefix (so_out s) (concat ps).
Proof.
  intros ps writes s ok Hp E.
  destruct (run_any ps (so_init writes)) as [s' [ok' [E' [T F]]]]; auto.
  { cbn. rewrite zlen_nil. lia. }
  rewrite E in E'. inversion E'; subst. destruct ok'.
  - destruct (T eq_refl) as [_ O]. cbn in O. rewrite <- O. apply prefix_l.
  - destruct (F eq_refl) as [b [q [O [Q [_ P]]]]]. cbn in P. rewrite O.
    eapply prefix_trans; [|exact P]. apply prefix_app; auto.
Qed.

(** After End: at most the buffered part is repeated. *)
Lemma end_shape : forall ps writes n code s, (List.length ps < n)%nat -> Forall is_packet ps ->
  FeedPackets (list_source (list Z)) stdout_sink n ps (so_init writes) = Some (Ok (code, s)) ->
  code = 0 /\ exists base q r buf, so_out s = base ++ q ++ r /\ is_prefix q buf /\ is_prefix r buf /\
    zlen buf <= 16384 /\ is_prefix (base ++ buf) (concat ps).
Proof.
  intros ps writes n code s Hn Hp H. rewrite stdout_feed in H by auto.
  destruct (run_any ps (so_init writes)) as [s' [ok [E [T F]]]]; auto.
  { cbn. rewrite zlen_nil. lia. }
  rewrite E in H. cbn in H. inversion H; subst. split; auto.
  unfold so_End, so_Flush. destruct (so_flush (so_buf s') (so_buf s') (so_writes s') (so_out s')) as [s2 ok2] eqn:E2.
  cbn [fst]. apply flush_gen in E2 as [d [D [O _]]].
  destruct ok.
  - destruct (T eq_refl) as [B O1]. cbn in O1. exists (so_out s'), [], d, (so_buf s').
    split; [rewrite O; reflexivity|]. split; [exists (so_buf s'); reflexivity|]. split; [auto|]. split; [lia|].
    rewrite O1. exists []. rewrite app_nil_r. reflexivity.
  - destruct (F eq_refl) as [b [q [O1 [Q [L P]]]]]. exists b, q, d, (so_buf s').
    split; [rewrite O, O1, app_assoc; reflexivity|]. repeat split; auto; lia.
Qed.

(** * All-or-nothing writes *)

Lemma flush_atomic : forall writes buf out, zlen buf <= 16384 -> Forall all_or_nothing writes ->
  exists w (ok : bool), so_flush buf buf writes out = (mkStdout (if ok then [] else buf) w (if ok then out ++ buf else out), ok) /\ Forall all_or_nothing w.
Proof.
  intros writes buf out Hl H. destruct writes as [|w writes]; cbn [so_flush];
    destruct (Z.eqb_spec (zlen buf) 0) as [E|E];
    try (assert (buf = []) by (destruct buf; auto; rewrite zlen_cons in E; pose proof (zlen_nonneg _ buf); lia); subst);
    try (eexists _, true; rewrite ?app_nil_r; split; [reflexivity|auto]; fail).
  inversion H; subst. destruct w as [n|].
  - cbn in H2. rewrite zdrop_all by lia. rewrite ztake_all by lia.
    destruct writes; cbn [so_flush]; rewrite zlen_nil; cbn; eexists; exists true; split; eauto.
  - exists writes, false. auto.
Qed.

Lemma handle_atomic : forall s p s' ok, zlen (so_buf s) < 16384 -> is_packet p -> Forall all_or_nothing (so_writes s) ->
  so_HandlePacket s p = Ok (s', ok) ->
  Forall all_or_nothing (so_writes s') /\
  (ok = true -> zlen (so_buf s') < 16384 /\ so_out s' ++ so_buf s' = so_out s ++ so_buf s ++ p) /\
  (ok = false -> zlen (so_buf s') <= 16384 /\ is_prefix (so_out s' ++ so_buf s') (so_out s ++ so_buf s ++ p)).
Proof.
  intros s p s' ok Hb Hp Hw H. unfold so_HandlePacket, is_packet in *. szs. pose proof (zlen_nonneg _ (so_buf s)) as Hb0.
  destruct (Z.ltb_spec (zlen (so_buf s) + 188) 16384) as [H1|H1].
  - inversion H; subst. cbn. rewrite zlen_app. split; auto. split; [|discriminate]. intros _. split; [lia|reflexivity].
  - destruct (Z.ltb_spec (16384 - zlen (so_buf s)) 0); [lia|]. cbn [so_buf] in H.
    set (r := 16384 - zlen (so_buf s)) in *.
    assert (Hl : zlen (so_buf s ++ ztake r p) = 16384) by (rewrite zlen_app, zlen_ztake; unfold r; lia).
    rewrite Hl in H. cbn [assert Z.eqb Pos.eqb] in H. unfold so_Flush in H. cbn [so_buf so_writes so_out] in H.
    destruct (flush_atomic (so_writes s) (so_buf s ++ ztake r p) (so_out s)) as [w [b [E W]]]; [lia|auto|].
    rewrite E in H. destruct b; cbn [negb] in H.
    + cbn [so_buf so_writes so_out] in H. rewrite zlen_nil in H. cbn in H.
      destruct (Z.ltb_spec r 188); inversion H; subst; cbn; (split; [auto|]); (split; [|discriminate]); intros _.
      * split; [rewrite zlen_zdrop; lia|]. rewrite <- !app_assoc, ztake_zdrop. reflexivity.
      * split; [rewrite zlen_nil; lia|]. rewrite app_nil_r, ztake_all by lia. reflexivity.
    + inversion H; subst. cbn. split; auto. split; [discriminate|]. intros _. split; [lia|].
      exists (zdrop r p). rewrite <- !app_assoc, ztake_zdrop. reflexivity.
Qed.

Lemma run_atomic : forall ps s s' ok, zlen (so_buf s) < 16384 -> Forall is_packet ps -> Forall all_or_nothing (so_writes s) ->
  so_run s ps = Ok (s', ok) ->
  Forall all_or_nothing (so_writes s') /\ zlen (so_buf s') <= 16384 /\
  is_prefix (so_out s' ++ so_buf s') (so_out s ++ so_buf s ++ concat ps).
Proof.
  induction ps as [|p ps IH]; intros s s' ok Hb Hp Hw H; cbn [so_run concat] in *.
  - inversion H; subst. split; auto. split; [lia|]. rewrite app_nil_r. exists []. rewrite app_nil_r. auto.
  - apply bind_ok in H as [[s1 ok1] [E1 E2]]. inversion Hp; subst.
    destruct (handle_atomic _ _ _ _ Hb H1 Hw E1) as [W1 [T1 F1]]. destruct ok1.
    + destruct (T1 eq_refl) as [B1 O1]. destruct (IH _ _ _ B1 H2 W1 E2) as [W2 [B2 P2]].
      split; auto. split; auto. replace (so_out s ++ so_buf s ++ p ++ concat ps) with (so_out s1 ++ so_buf s1 ++ concat ps); auto.
      rewrite !app_assoc, O1, !app_assoc. reflexivity.
    + inversion E2; subst. destruct (F1 eq_refl) as [B1 P1]. split; auto. split; auto.
      eapply prefix_trans; [exact P1|]. rewrite !app_assoc. apply prefix_l.
Qed.

Lemma atomic_prefix : forall ps writes n code s, (List.length ps < n)%nat -> Forall is_packet ps ->
  Forall all_or_nothing writes ->
  FeedPackets (list_source (list Z)) stdout_sink n ps (so_init writes) = Some (Ok (code, s)) ->
  is_prefix (so_out s) (concat ps).
Proof.
  intros ps writes n code s Hn Hp Hw H. rewrite stdout_feed in H by auto. inversion H as [H1]. clear H.
  apply bind_ok in H1 as [[s1 ok] [E1 E2]]. inversion E2; subst.
  destruct (run_atomic ps (so_init writes) s1 ok) as [W [B P]]; auto.
  { cbn. rewrite zlen_nil. lia. }
  unfold so_End, so_Flush. destruct (flush_atomic (so_writes s1) (so_buf s1) (so_out s1) B W) as [w [b [-> _]]].
  cbn [fst so_out]. cbn in P. destruct b; auto. eapply prefix_trans; [apply prefix_l|exact P].
Qed.

(** * Where feeding stops *)

Lemma consumed_nil : forall w, consumed w w true.
Proof. intros w. exists []. split; [reflexivity|]. intros []. Qed.

Lemma consumed_trans : forall a b c ok, consumed a b true -> consumed b c ok -> consumed a c ok.
Proof.
  intros a b c ok (u & -> & Hu) (v & -> & Hv). exists (u ++ v). split; [apply app_assoc|]. destruct ok.
  - intros X. apply in_app_or in X as [X|X]; auto.
  - destruct Hv as (z & -> & Hz). exists (u ++ z). split; [apply app_assoc|].
    intros X. apply in_app_or in X as [X|X]; auto.
Qed.

Lemma flush_consumed : forall writes buf rest out s ok,
  so_flush buf rest writes out = (s, ok) -> consumed writes (so_writes s) ok.
Proof.
  induction writes as [|w writes IH]; intros buf rest out s ok H; cbn [so_flush] in H;
    destruct (zlen rest =? 0); try (injection H as <- <-; apply consumed_nil).
  destruct w as [n|].
  - apply IH in H. apply consumed_trans with writes; [|exact H].
    exists [Wrote n]. split; [reflexivity|]. intros [X|[]]. discriminate.
  - injection H as <- <-. exists [WriteError]. split; [reflexivity|]. exists []. split; [reflexivity|]. intros [].
Qed.

Lemma handle_consumed : forall s p s' ok, so_HandlePacket s p = Ok (s', ok) -> consumed (so_writes s) (so_writes s') ok.
Proof.
  intros s p s' ok H. unfold so_HandlePacket in H.
  destruct (_ <? _); [injection H as <- <-; apply consumed_nil|].
  destruct (_ <? 0); [discriminate|]. apply assert_ok in H as [_ H].
  destruct (so_Flush _) as [s2 ok2] eqn:F. unfold so_Flush in F. apply flush_consumed in F. cbn [so_writes] in F.
  destruct ok2; cbn [negb] in H.
  - destruct (_ <? PKT_SIZE).
    + apply assert_ok in H as [_ H]. injection H as <- <-. exact F.
    + injection H as <- <-. exact F.
  - injection H as <- <-. exact F.
Qed.

Lemma run_stops : forall ps s s' ok, so_run s ps = Ok (s', ok) ->
  consumed (so_writes s) (so_writes s') ok /\
  (ok = false -> exists before p after s0, ps = before ++ p :: after /\
     so_run s before = Ok (s0, true) /\ so_HandlePacket s0 p = Ok (s', false)).
Proof.
  induction ps as [|p ps IH]; intros s s' ok H; cbn [so_run] in H.
  - injection H as <- <-. split; [apply consumed_nil|discriminate].
  - apply bind_ok in H as ([s1 ok1] & H1 & H2). pose proof (handle_consumed _ _ _ _ H1) as C1. destruct ok1.
    + destruct (IH _ _ _ H2) as [C2 R]. split; [exact (consumed_trans _ _ _ _ C1 C2)|].
      intros E. destruct (R E) as (before & q & after & s0 & -> & R1 & R2).
      exists (p :: before), q, after, s0. split; [reflexivity|]. split; [|exact R2].
      cbn [so_run]. rewrite H1. exact R1.
    + injection H2 as <- <-. split; [exact C1|]. intros _. exists [], p, ps, s. split; [reflexivity|]. split; [reflexivity|exact H1].
Qed.

Lemma file_copy : forall reads ps tail writes n,
  Forall read_ok reads -> bytes_of reads = concat ps ++ tail ->
  Forall (fun p => zlen p = 188 /\ sync_at p 0) ps -> zlen tail < 188 -> Forall no_error writes ->
  (List.length (bytes_of reads) < n)%nat ->
  exists s, FeedPackets file_source stdout_sink n (fs_init reads) (so_init writes) = Some (Ok (0, s)) /\
    so_out s = concat ps.
Proof.
  intros reads ps tail writes n H E Hp Ht Hw Hn.
  rewrite (aligned_feed stdout_sink reads ps tail (so_init writes) n H E Hp Ht Hn).
  apply stdout_exact; auto.
  - rewrite E, app_length in Hn.
    assert (L : (List.length ps <= List.length (concat ps))%nat).
    { clear - Hp. induction Hp as [|p ps [Hz _] Hp IH]; cbn [concat List.length]; [lia|].
      rewrite app_length. destruct p; [discriminate|]. cbn [List.length]. lia. }
    lia.
  - revert Hp. apply Forall_impl. intros p [Hz _]. exact Hz.
Qed.
