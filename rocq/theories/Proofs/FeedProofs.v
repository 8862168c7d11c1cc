From Coq Require Import ZArith Lia List Bool.
From Verif Require Import Base.Outcome Base.Util Model.Sink Spec.FeedSpec.
Import ListNotations.
Open Scope Z_scope.

Lemma feed_loop_total : forall P (snk : sink P) ps n s, (List.length ps < n)%nat ->
  exists r, feed_loop (list_source P) snk n ps s = Some r.
Proof.
  intros P snk ps. induction ps as [|p ps IH]; intros n s Hn; (destruct n as [|n]; [cbn in Hn; lia|]); cbn.
  - eauto.
  - destruct (sk_handle snk s p) as [[s1 [|]]|]; eauto. apply IH. cbn in Hn. lia.
Qed.

Lemma feed_total : forall P (snk : sink P) ps n s, (List.length ps < n)%nat ->
  exists r, FeedPackets (list_source P) snk n ps s = Some r.
Proof.
  intros. unfold FeedPackets. destruct (sk_start snk s) as [[s1 [|]]|]; eauto.
  destruct (feed_loop_total P snk ps n s1 H) as [r ->]. eauto.
Qed.

Lemma loop_log : forall P (k : sink P) ps n s log s' log',
  feed_loop (list_source P) (logged k) n ps (s, log) = Some (Ok (s', log')) ->
  log' = log ++ map (fun p => CPacket p true) ps \/
  exists before p after, ps = before ++ p :: after /\
    log' = log ++ map (fun p => CPacket p true) before ++ [CPacket p false].
Proof.
  intros P k ps. induction ps as [|p ps IH]; intros n s log s' log' H; (destruct n as [|n]; [discriminate|]); cbn in H.
  - inversion H; subst. left. cbn. rewrite app_nil_r. reflexivity.
  - destruct (sk_handle k s p) as [[s1 ok]|]; cbn in H; [|discriminate]. destruct ok.
    + apply IH in H as [->|[b [q [a [-> ->]]]]].
      * left. cbn. rewrite <- app_assoc. reflexivity.
      * right. exists (p :: b), q, a. split; [reflexivity|]. cbn. rewrite <- app_assoc. reflexivity.
    + inversion H; subst. right. exists [], p, ps. split; reflexivity.
Qed.

(** If FeedPackets returns, the recorded calls follow the protocol; the exit
    code is 1 when Start failed and the sink's own otherwise. *)
Lemma feed_protocol : forall P (k : sink P) ps n s code s' log,
  FeedPackets (list_source P) (logged k) n ps (s, []) = Some (Ok (code, (s', log))) ->
  protocol ps log /\
  (log = [CStart false] -> code = 1) /\
  (log <> [CStart false] -> sk_exit k s' = Ok code).
Proof.
  intros P k ps n s code s' log H. unfold FeedPackets in H. cbn in H.
  destruct (sk_start k s) as [[s1 ok]|]; cbn in H; [|discriminate]. destruct ok.
  - destruct (feed_loop (list_source P) (logged k) n ps (s1, [CStart true])) as [[[s2 log2]|]|] eqn:E; cbn in H; try discriminate.
    destruct (sk_end k s2) as [s3|] eqn:Ee; cbn in H; [|discriminate].
    destruct (sk_exit k s3) as [c|] eqn:Ex; cbn in H; [|discriminate].
    inversion H; subst; clear H. apply loop_log in E as [->|[b [q [a [-> ->]]]]].
    + split; [apply Proto_all|]. split; [|auto]. intros Q. exfalso. apply (f_equal (@List.length _)) in Q. rewrite !app_length in Q. cbn in Q. lia.
    + split.
      * cbn. rewrite <- app_assoc. cbn. apply Proto_refused with a. reflexivity.
      * split; [|auto]. intros Q. exfalso. apply (f_equal (@List.length _)) in Q. rewrite !app_length in Q. cbn in Q. lia.
  - inversion H; subst. split; [apply Proto_nostart|]. split; [auto|]. congruence.
Qed.

Lemma feed_loop_ok : forall P (k : sink P) ps n s, never_fails k -> (List.length ps < n)%nat ->
  exists s', feed_loop (list_source P) k n ps s = Some (Ok s').
Proof.
  intros P k ps n s [_ [H _]]. revert n s. induction ps as [|p ps IH]; intros n s Hn; (destruct n as [|n]; [cbn in Hn; lia|]); cbn.
  - eauto.
  - destruct (H s p) as [[s1 ok] E]. rewrite E. destruct ok; eauto. apply IH. cbn in Hn. lia.
Qed.

Lemma feed_ok : forall P (k : sink P) ps n s, never_fails k -> (List.length ps < n)%nat ->
  exists code s', FeedPackets (list_source P) k n ps s = Some (Ok (code, s')).
Proof.
  intros P k ps n s H Hn. pose proof H as [H1 [H2 [H3 H4]]]. unfold FeedPackets.
  destruct (H1 s) as [[s1 ok] E]. rewrite E. destruct ok; eauto.
  destruct (feed_loop_ok P k ps n s1 H Hn) as [s2 E2]. rewrite E2. cbn.
  destruct (H3 s2) as [s3 E3]. rewrite E3. cbn. destruct (H4 s3) as [c E4]. rewrite E4. cbn. eauto.
Qed.

Lemma logged_never_fails : forall P (k : sink P), never_fails k -> never_fails (logged k).
Proof.
  intros P k [H1 [H2 [H3 H4]]]. repeat split; cbn.
  - intros [s l]. destruct (H1 s) as [[s1 ok] E]. cbn. rewrite E. cbn. eauto.
  - intros [s l] p. destruct (H2 s p) as [[s1 ok] E]. cbn. rewrite E. cbn. eauto.
  - intros [s l]. destruct (H3 s) as [s1 E]. cbn. rewrite E. cbn. eauto.
  - intros [s l]. apply H4.
Qed.

(** The sink accepts all packets of a list. *)
Inductive handles {P} (k : sink P) : sk_state k -> list P -> sk_state k -> Prop :=
| handles_nil : forall s, handles k s [] s
| handles_cons : forall s p s1 ps s2, sk_handle k s p = Ok (s1, true) -> handles k s1 ps s2 -> handles k s (p :: ps) s2.

Lemma handles_app : forall P (k : sink P) xs s s1 ys s2, handles k s xs s1 -> handles k s1 ys s2 -> handles k s (xs ++ ys) s2.
Proof. intros P k xs s s1 ys s2 H. induction H; intros G; cbn; [auto|econstructor; eauto]. Qed.

Lemma handles_snoc : forall P (k : sink P) xs s p s2, handles k s (xs ++ [p]) s2 ->
  exists s1, handles k s xs s1 /\ sk_handle k s1 p = Ok (s2, true).
Proof.
  intros P k xs. induction xs as [|x xs IH]; intros s p s2 H; cbn in H; inversion H; subst.
  - inversion H5; subst. eexists. split; [constructor|eassumption].
  - apply IH in H5 as (s3 & G1 & G2). exists s3. split; [econstructor; eauto|assumption].
Qed.

Lemma feed_loop_run : forall P (k : sink P) ps n s s2,
  feed_loop (list_source P) k n ps s = Some (Ok s2) ->
  handles k s ps s2 \/
  exists before p after s1, ps = before ++ p :: after /\ handles k s before s1 /\ sk_handle k s1 p = Ok (s2, false).
Proof.
  intros P k ps. induction ps as [|p ps IH]; intros n s s2 H; (destruct n as [|n]; [discriminate|]); cbn in H.
  - inversion H; subst. left. constructor.
  - destruct (sk_handle k s p) as [[s1 ok]|] eqn:E; [|discriminate]. destruct ok.
    + apply IH in H as [H|(b & q & a & s3 & -> & H1 & H2)].
      * left. econstructor; eauto.
      * right. exists (p :: b), q, a, s3. split; [reflexivity|]. split; [econstructor; eauto|assumption].
    + inversion H; subst. right. exists [], p, ps, s. split; [reflexivity|]. split; [constructor|assumption].
Qed.

Lemma feed_run : forall P (k : sink P) ps n s s0 code s', sk_start k s = Ok (s0, true) ->
  FeedPackets (list_source P) k n ps s = Some (Ok (code, s')) ->
  exists s2, sk_end k s2 = Ok s' /\ sk_exit k s' = Ok code /\
  (handles k s0 ps s2 \/
   exists before p after s1, ps = before ++ p :: after /\ handles k s0 before s1 /\ sk_handle k s1 p = Ok (s2, false)).
Proof.
  intros P k ps n s s0 code s' St H. unfold FeedPackets in H. rewrite St in H.
  destruct (feed_loop (list_source P) k n ps s0) as [[s2|]|] eqn:E; cbn in H; try discriminate.
  destruct (sk_end k s2) as [s3|] eqn:Ee; cbn in H; [|discriminate].
  destruct (sk_exit k s3) as [c|] eqn:Ex; cbn in H; [|discriminate].
  inversion H; subst. exists s2. split; [assumption|]. split; [assumption|]. apply feed_loop_run with n. exact E.
Qed.
