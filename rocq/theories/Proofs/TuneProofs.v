From Coq Require Import ZArith Lia List Bool.
From Verif Require Import Base.Outcome Base.Util Model.Ts Spec.FilterSpec Spec.TuneSpec Proofs.FilterProofs.
Import ListNotations.
Open Scope Z_scope.

Lemma tuned_nil : forall base sid pid, tuned base sid [] pid <-> In pid base.
Proof.
  intros. unfold tuned. cbn. split.
  - intros [[t H]|[[H _]|[_ [x [t [[] _]]]]]]; [discriminate|auto].
  - intros H. right. left. split; auto. intros [x [t [[] _]]].
Qed.

Lemma tuned_mute : forall base sid h x pid, listing sid x = None -> (tuned base sid (x :: h) pid <-> tuned base sid h pid).
Proof.
  intros base sid h x pid L. unfold tuned. cbn [latest In]. rewrite L.
  assert (Q : (exists y t, (x = y \/ In y h) /\ listing sid y = Some (t, pid)) <-> (exists y t, In y h /\ listing sid y = Some (t, pid))).
  { split; [intros [y [t [[<-|Hy] E]]]; [congruence|eauto]|intros [y [t [Hy E]]]; eauto]. }
  rewrite Q. reflexivity.
Qed.

(** The PMT PID as the programs keep it, PID_NULL when there is none. *)
Definition pmt_pid_now (sid : Z) (h : history) : Z :=
  match latest (listing sid) h with Some (_, pid) => pid | None => PID_NULL end.

Lemma tuned_listing : forall base sid h x t np demux, listing sid x = Some (t, np) ->
  (forall pid, In pid demux <-> tuned base sid h pid) ->
  forall pid, In pid (zadd np (if negb (pmt_pid_now sid h =? PID_NULL) then zrem (pmt_pid_now sid h) demux else demux))
    <-> tuned base sid (x :: h) pid.
Proof.
  intros base sid h x t np demux L H1 p. rewrite In_zadd.
  assert (A : In p (if negb (pmt_pid_now sid h =? PID_NULL) then zrem (pmt_pid_now sid h) demux else demux) <->
              ((pmt_pid_now sid h <> PID_NULL -> p <> pmt_pid_now sid h) /\ tuned base sid h p)).
  { destruct (Z.eqb_spec (pmt_pid_now sid h) PID_NULL); cbn [negb]; rewrite ?In_zrem, H1; tauto. }
  rewrite A. clear A. unfold tuned at 2. cbn [latest In]. rewrite L.
  assert (Q : (exists y t', (x = y \/ In y h) /\ listing sid y = Some (t', p)) <->
              (p = np \/ exists y t', In y h /\ listing sid y = Some (t', p))).
  { split.
    - intros [y [t' [[<-|Hx] Ex]]]; [left; congruence|right; eauto].
    - intros [->|[y [t' [Hx Ex]]]]; eauto. }
  rewrite Q. clear Q. unfold tuned, pmt_pid_now, PID_NULL.
  destruct (Z.eq_dec p np) as [->|Hnp].
  { split; [intros _; left; eauto|auto]. }
  assert (N : (exists t0, Some (t, np) = Some (t0, p)) <-> False) by (split; [intros [? ?]; congruence|tauto]).
  rewrite N. clear N.
  destruct (latest (listing sid) h) as [[t0 p0]|] eqn:El.
  - destruct (latest_some_in _ _ _ _ _ El) as [x0 [Hx0 Ex0]].
    split.
    + intros [?|[K [[t' K1]|[K1|K1]]]]; try lia; [|tauto|tauto].
      assert (Ep : p = p0) by congruence. destruct (Z.eq_dec p0 0x1FFF) as [Ez|Ez]; [|tauto].
      right; right. split; [lia|]. right. rewrite Ep. eauto.
    + intros [[]|[[K1 K2]|[K1 K2]]]; right.
      * split; [|tauto]. intros _ ->. apply K2. right. eauto.
      * split; [intros Q ->; lia|]. right. right. split; auto. destruct K2; [lia|auto].
  - assert (Nn : ~ exists y t', In y h /\ listing sid y = Some (t', p)).
    { intros [y [t' [Hx Ex]]]. rewrite (proj1 (latest_none _ _ _ _) El y Hx) in Ex. discriminate. }
    split.
    + intros [?|[K [[t' K1]|[K1|K1]]]]; try lia; try discriminate; tauto.
    + intros [[]|[[K1 K2]|[K1 K2]]]; right; (split; [intros K; exfalso; apply K; reflexivity|]); tauto.
Qed.

Lemma delivered_feed : forall base sid stage h demux p, (forall pid, In pid demux <-> tuned base sid h pid) ->
  delivered base sid stage h p (demux_feed demux stage p).
Proof.
  intros base sid stage h demux p H. unfold delivered, demux_feed. destruct (zmem (p_pid p) demux) eqn:E.
  - left. split; auto. apply H, zmem_In, E.
  - right. split; auto. rewrite <- H. apply zmem_false, E.
Qed.

Lemma delivered_det : forall base sid stage h p a b,
  delivered base sid stage h p a -> delivered base sid stage h p b -> a = b.
Proof. intros base sid stage h p a b [[? ->]|[? ->]] [[? ->]|[? ->]]; tauto. Qed.
