(** The glitch counter of the clock. *)
From Coq Require Import ZArith Lia List Bool.
From Verif Require Import Base.Outcome Base.Util Model.Pcr Model.Clock Spec.PcrSpec Spec.ClockSpec Proofs.PcrProofs Proofs.ClockProofs.
Import ListNotations.
Open Scope Z_scope.

Lemma burst_state : forall h l n, burst h l n -> Forall valid_op h ->
  exists c, ck_run clock_init h = Ok c /\ clock_inv c /\ 0 <= n /\ ck_gap_count c = n mod 256 /\ (ck_ready c = true -> ck_last_pcr c = l).
Proof.
  assert (Acc : forall h c p g, ck_run clock_init h = Ok c -> clock_inv c -> valid_op (OpPcr p) -> ck_step c (OpPcr p) = ck_accept c p g ->
     exists c', ck_run clock_init (h ++ [OpPcr p]) = Ok c' /\ clock_inv c' /\ ck_gap_count c' = g /\ ck_last_pcr c' = p).
  { intros h c p g R I V E. destruct (step_inv c (OpPcr p) I (op_valid_valid _ V)) as [c' [E' I']]. exists c'.
    split; [rewrite run_snoc, R; exact E'|]. split; [exact I'|]. rewrite E in E'. unfold ck_accept in E'. cbn [ck_baseline] in E'.
    destruct (bl_IsReady (ck_baseline c)); [injection E' as <-; auto|]. rewrite sync_ok in E' by (cbn [ck_last_pcr]; apply valid_iff; exact V).
    injection E' as <-. auto. }
  induction 1 as [|h l n pid B IH|h l n time local B IH|h l n p B IH Nr|h l n p B IH Rd Gp|h l n p B IH Rd Gp]; intros V.
  - exists clock_init. split; [reflexivity|]. split; [apply clock_inv_init|]. split; [lia|]. split; [reflexivity|]. reflexivity.
  - apply Forall_app in V as [V1 V2]. destruct (IH V1) as [c [R [I [N [G L]]]]].
    destruct (step_inv c (OpSetPid pid) I Logic.I) as [c' [E I']]. exists c'. split; [rewrite run_snoc, R; exact E|]. split; [exact I'|].
    split; [exact N|]. injection E as <-. split; [exact G|discriminate].
  - apply Forall_app in V as [V1 V2]. destruct (IH V1) as [c [R [I [N [G L]]]]].
    destruct (step_inv c (OpTime time local) I Logic.I) as [c' [E I']]. exists c'. split; [rewrite run_snoc, R; exact E|]. split; [exact I'|].
    split; [exact N|]. cbn [ck_step] in E. unfold ck_UpdateTime in E. cbn [ck_ready] in E. destruct (ck_ready c) eqn:Er.
    + rewrite sync_ok in E by (cbn; apply I). injection E as <-. split; [exact G|]. intros _. apply L. reflexivity.
    + injection E as <-. split; [exact G|]. cbn. congruence.
  - apply Forall_app in V as [V1 V2]. inversion V2 as [|? ? Vp _]; subst. destruct (IH V1) as [c [R [I [N [G L]]]]].
    unfold ready_after in Nr. rewrite R in Nr.
    destruct (Acc h c p (ck_gap_count c) R I Vp) as [c' [R' [I' [G' L']]]].
    { cbn [ck_step]. unfold ck_UpdatePcr, assert. rewrite (proj2 (valid_iff p) Vp), Nr. reflexivity. }
    exists c'. split; [exact R'|]. split; [exact I'|]. split; [exact N|]. split; [congruence|auto].
  - apply Forall_app in V as [V1 V2]. inversion V2 as [|? ? Vp _]; subst. destruct (IH V1) as [c [R [I [N [G L]]]]].
    unfold ready_after in Rd. rewrite R in Rd.
    assert (Rc : ck_ready c = true) by (unfold ck_IsReady in Rd; apply andb_prop in Rd; tauto).
    destruct (Acc h c p 0 R I Vp) as [c' [R' [I' [G' L']]]].
    { cbn [ck_step]. unfold ck_UpdatePcr, assert. rewrite (proj2 (valid_iff p) Vp), Rd.
      rewrite ComputeDelta_ahead by (try exact Vp; apply valid_iff; apply I). rewrite (L Rc).
      assert (Hg : 0 <= pcr_ahead l p) by (unfold pcr_ahead; apply Z.mod_pos_bound; reflexivity).
      rewrite (proj2 (Z.leb_le _ _) Hg). change kPcrTicksPerSec with ticks_per_s. rewrite (proj2 (Z.leb_gt _ _) Gp). reflexivity. }
    exists c'. split; [exact R'|]. split; [exact I'|]. split; [lia|]. split; [rewrite G'; reflexivity|auto].
  - apply Forall_app in V as [V1 V2]. inversion V2 as [|? ? Vp _]; subst. destruct (IH V1) as [c [R [I [N [G L]]]]].
    unfold ready_after in Rd. rewrite R in Rd.
    assert (Rc : ck_ready c = true) by (unfold ck_IsReady in Rd; apply andb_prop in Rd; tauto).
    destruct (step_inv c (OpPcr p) I (op_valid_valid _ Vp)) as [c' [E I']]. exists c'. split; [rewrite run_snoc, R; exact E|]. split; [exact I'|].
    split; [lia|]. cbn [ck_step] in E. unfold ck_UpdatePcr, assert in E. rewrite (proj2 (valid_iff p) Vp), Rd in E.
    rewrite ComputeDelta_ahead in E by (try exact Vp; apply valid_iff; apply I). rewrite (L Rc) in E.
    assert (Hg : 0 <= pcr_ahead l p) by (unfold pcr_ahead; apply Z.mod_pos_bound; reflexivity).
    rewrite (proj2 (Z.leb_le _ _) Hg) in E. change kPcrTicksPerSec with ticks_per_s in E. rewrite (proj2 (Z.leb_le _ _) Gp) in E.
    assert (U : u8 (ck_gap_count c + 1) = (n + 1) mod 256) by (unfold u8; rewrite G; change (2 ^ 8) with 256; apply Z.add_mod_idemp_l; lia).
    destruct (u8 (ck_gap_count c + 1) <=? kPcrGapCountThreshold); injection E as <-; cbn; rewrite U; auto. split; [reflexivity|discriminate].
Qed.

(** Every history has its burst, and one only. *)
Lemma burst_total : forall h, exists l n, burst h l n.
Proof.
  induction h as [|op h [l [n IH]]] using rev_ind; [exists 0, 0; constructor|].
  destruct op as [pid|time local|p].
  - exists l, n. constructor. exact IH.
  - exists l, n. constructor. exact IH.
  - destruct (ready_after h) eqn:R; [|exists p, n; econstructor; eauto].
    destruct (Z_lt_le_dec (pcr_ahead l p) ticks_per_s) as [G|G]; [exists p, 0; eapply burst_genuine; eauto|exists l, (n + 1); apply burst_glitch; auto].
Qed.
Lemma burst_unique : forall h l n, burst h l n -> forall l' n', burst h l' n' -> l' = l /\ n' = n.
Proof.
  induction 1; intros l' n' B'; inversion B' as [He|h' l1 n1 pid' B1 He|h' l1 n1 tm lc B1 He|h' l1 n1 p' B1 R1 He|h' l1 n1 p' B1 R1 G1 He|h' l1 n1 p' B1 R1 G1 He]; subst; auto;
    try (exfalso; match goal with X : _ ++ [_] = [] |- _ => apply app_eq_nil in X as [_ X]; discriminate
                  | X : [] = _ ++ [_] |- _ => symmetry in X; apply app_eq_nil in X as [_ X]; discriminate end);
    apply app_inj_tail in He as [E1 E2]; try discriminate E2; subst; try (injection E2 as <-); try congruence;
    destruct (IHburst _ _ B1) as [-> ->]; auto; try lia.
Qed.

Lemma glitch_exact : forall h p l n, Forall valid_op (h ++ [OpPcr p]) -> burst h l n -> ready_after h = true ->
  (ready_after (h ++ [OpPcr p]) = false <-> ticks_per_s <= pcr_ahead l p /\ 4 < (n + 1) mod 256) /\
  (ticks_per_s <= pcr_ahead l p -> (n + 1) mod 256 <= 4 -> forall local, now_after (h ++ [OpPcr p]) local = now_after h local).
Proof.
  intros h p l n V B Rd. apply Forall_app in V as [V1 V2]. inversion V2 as [|? ? Vp _]; subst.
  destruct (burst_state _ _ _ B V1) as [c [R [I [N [G L]]]]].
  assert (Rd' := Rd). unfold ready_after in Rd'. rewrite R in Rd'.
  assert (Rc : ck_ready c = true) by (unfold ck_IsReady in Rd'; apply andb_prop in Rd'; tauto).
  assert (Bl : bl_IsReady (ck_baseline c) = true) by (unfold ck_IsReady in Rd'; apply andb_prop in Rd'; tauto).
  unfold ready_after, now_after. rewrite run_snoc, R. cbn [bind ck_step]. unfold ck_UpdatePcr, assert. rewrite (proj2 (valid_iff p) Vp), Rd'.
  rewrite ComputeDelta_ahead by (try exact Vp; apply valid_iff; apply I). rewrite (L Rc).
  assert (Hg : 0 <= pcr_ahead l p) by (unfold pcr_ahead; apply Z.mod_pos_bound; reflexivity).
  rewrite (proj2 (Z.leb_le _ _) Hg). change kPcrTicksPerSec with ticks_per_s.
  assert (U : u8 (ck_gap_count c + 1) = (n + 1) mod 256) by (unfold u8; rewrite G; change (2 ^ 8) with 256; apply Z.add_mod_idemp_l; lia).
  rewrite U. unfold kPcrGapCountThreshold. set (m := (n + 1) mod 256) in *. clearbody m.
  destruct (Z.leb_spec ticks_per_s (pcr_ahead l p)) as [Q|Q].
  - destruct (Z.leb_spec m 4) as [M|M].
    + split; [|intros _ _ local; unfold ck_Now, ck_IsReady; cbn [ck_ready ck_baseline ck_wrap ck_last_pcr ck_local]; rewrite ?(L Rc); reflexivity].
      unfold ck_IsReady. cbn [ck_ready ck_baseline]. rewrite Rc, Bl. split; [discriminate|lia].
    + split; [|lia]. split; [auto|]. intros _. reflexivity.
  - split; [|lia]. unfold ck_accept. cbn [ck_baseline]. rewrite Bl. unfold ck_IsReady. cbn [ck_ready ck_baseline]. rewrite Bl. split; [discriminate|lia].
Qed.
