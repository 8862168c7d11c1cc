From Coq Require Import ZArith Lia List Bool ZifyBool.
From Verif Require Import Base.Outcome Base.Util Model.Pcr Model.Clock Spec.PcrSpec Spec.ClockSpec Proofs.PcrProofs.
Import ListNotations.
Open Scope Z_scope.
Ltac Zify.zify_post_hook ::= Z.div_mod_to_equations.

Local Opaque pcr_cycle.

Lemma pcr_at_range : forall t, 0 <= pcr_at t < pcr_cycle.
Proof. intros. unfold pcr_at. apply Z.mod_pos_bound. rewrite cycle_val. lia. Qed.

Lemma ComputeDelta_ahead : forall p q, 0 <= p < pcr_cycle -> 0 <= q < pcr_cycle ->
  ComputeDelta p q = pcr_ahead q p.
Proof.
  intros p q Hp Hq. unfold ComputeDelta, pcr_ahead. rewrite <- cycle_eq.
  rewrite cycle_val in *. destruct (Z.ltb_spec p q).
  - apply Z.mod_unique with (q := -1); lia.
  - symmetry. apply Z.mod_small. lia.
Qed.

(** Reachable clocks keep a valid last PCR. *)
Definition clock_inv (c : clock) : Prop :=
  IsValidPcr (ck_last_pcr c) = true /\ 0 <= ck_gap_count c < 256 /\
  (bl_pcr_ready (ck_baseline c) = true -> ck_ready c = true) /\
  (ck_ready c = true -> bl_pcr_ready (ck_baseline c) = true).

Lemma clock_inv_init : clock_inv clock_init.
Proof. repeat split; cbn; try lia; discriminate. Qed.

Definition op_valid (op : clock_op) : Prop :=
  match op with OpPcr p => 0 <= p < pcr_cycle | _ => True end.

Lemma sync_ok : forall c, IsValidPcr (ck_last_pcr c) = true ->
  ck_SyncPcr c = Ok (mkClock (mkBaseline (bl_time (ck_baseline c)) (ck_last_pcr c) (bl_pid (ck_baseline c)) true (bl_time_ready (ck_baseline c)))
                     (ck_local c) (ck_last_pcr c) (ck_gap_count c) (ck_ready c) false).
Proof. intros c H. unfold ck_SyncPcr, bl_SetPcr, assert. rewrite H. reflexivity. Qed.

Lemma step_inv : forall c op, clock_inv c -> op_valid op ->
  exists c', ck_step c op = Ok c' /\ clock_inv c'.
Proof.
  intros c op [H1 [H2 [H3 H4]]] Hop. destruct op as [pid|t l|p]; cbn [ck_step].
  - eexists; split; [reflexivity|]. repeat split; cbn -[IsValidPcr]; auto; try lia; discriminate.
  - unfold ck_UpdateTime. cbn [ck_ready].
    destruct (ck_ready c) eqn:Er.
    + rewrite sync_ok by auto. eexists; split; [reflexivity|]. repeat split; cbn -[IsValidPcr]; auto; lia.
    + eexists; split; [reflexivity|]. repeat split; cbn -[IsValidPcr]; auto; try lia.
  - cbn in Hop. unfold ck_UpdatePcr, assert.
    assert (Hv : IsValidPcr p = true) by (apply valid_iff; auto). rewrite Hv.
    assert (Hacc : forall g, 0 <= g < 256 -> exists c', ck_accept c p g = Ok c' /\ clock_inv c').
    { intros g Hg. unfold ck_accept. cbn [ck_baseline].
      destruct (bl_IsReady (ck_baseline c)) eqn:Eb.
      - eexists; split; [reflexivity|]. unfold bl_IsReady in Eb. apply andb_true_iff in Eb as [Eb1 Eb2].
        repeat split; cbn -[IsValidPcr]; auto; lia.
      - rewrite sync_ok by (cbn; auto). eexists; split; [reflexivity|]. repeat split; cbn -[IsValidPcr]; auto; lia. }
    destruct (ck_IsReady c) eqn:Er; [|apply Hacc; auto].
    rewrite ComputeDelta_ahead by (auto; apply valid_iff; auto).
    assert (Hg : 0 <= pcr_ahead (ck_last_pcr c) p) by (unfold pcr_ahead; apply Z.mod_pos_bound; rewrite cycle_val; lia).
    rewrite (proj2 (Z.leb_le _ _) Hg).
    destruct (kPcrTicksPerSec <=? pcr_ahead (ck_last_pcr c) p); [|apply Hacc; lia].
    assert (Hn : 0 <= u8 (ck_gap_count c + 1) < 256) by (unfold u8; apply Z.mod_pos_bound; lia).
    destruct (u8 (ck_gap_count c + 1) <=? kPcrGapCountThreshold).
    + eexists; split; [reflexivity|]. repeat split; cbn -[IsValidPcr]; auto; lia.
    + eexists; split; [reflexivity|]. repeat split; cbn -[IsValidPcr]; auto; try lia; discriminate.
Qed.

Lemma run_inv : forall ops c, clock_inv c -> Forall op_valid ops ->
  exists c', ck_run c ops = Ok c' /\ clock_inv c'.
Proof.
  induction ops as [|op ops IH]; intros c Hc Hops; cbn [ck_run].
  - eauto.
  - inversion Hops; subst. destruct (step_inv c op Hc H1) as [c1 [E H]]. rewrite E. cbn [bind]. auto.
Qed.

Lemma run_app : forall a b c, ck_run c (a ++ b) = let* c1 := ck_run c a in ck_run c1 b.
Proof.
  induction a as [|op a IH]; intros b c; cbn [ck_run app bind]; [reflexivity|].
  destruct (ck_step c op); cbn [bind]; auto.
Qed.

Lemma IsReady_inv : forall c, clock_inv c -> ck_IsReady c = ck_ready c && bl_time_ready (ck_baseline c).
Proof.
  intros c [_ [_ [H1 H2]]]. unfold ck_IsReady, bl_IsReady.
  destruct (ck_ready c); cbn; auto. rewrite H2; auto.
Qed.

(** * The clock follows an admissible stream *)

(** Relation between the clock and the ideal stream at real tick [x], with
    reference [ref] (TOT time, real tick of the TOT). *)
Definition track (c : clock) (x : Z) (ref : option (Z * Z)) (n : Z) : Prop :=
  clock_inv c /\ ck_ready c = true /\ ck_last_pcr c = pcr_at x /\
  0 <= n /\
  match ref with
  | None => bl_time_ready (ck_baseline c) = false /\ bl_pcr (ck_baseline c) = pcr_at x /\ ck_wrap c = false
  | Some (t, xr) =>
      bl_time_ready (ck_baseline c) = true /\ bl_time (ck_baseline c) = t /\
      bl_pcr (ck_baseline c) = pcr_at xr /\ xr <= x /\
      (pcr_at xr + (x - xr) < pcr_cycle -> ck_wrap c = false) /\
      (pcr_cycle <= pcr_at xr + (x - xr) -> ck_wrap c = true) /\
      (ck_gap_count c <= n \/ 4 <= n)
  end.

Lemma pcr_at_add : forall x d, 0 <= d < ticks_per_s ->
  pcr_at (x + d) = if pcr_at x + d <? pcr_cycle then pcr_at x + d else pcr_at x + d - pcr_cycle.
Proof.
  intros x d Hd. pose proof (pcr_at_range x) as Hr. unfold pcr_at in *. unfold ticks_per_s in Hd.
  rewrite <- Z.add_mod_idemp_l by (rewrite cycle_val; lia).
  set (a := x mod pcr_cycle) in *. clearbody a. rewrite cycle_val in *.
  destruct (Z.ltb_spec (a + d) 2576980377600).
  - apply Z.mod_small. lia.
  - symmetry. apply Z.mod_unique with (q := 1); lia.
Qed.

Lemma ahead_add : forall x d, 0 <= d < ticks_per_s -> pcr_ahead (pcr_at x) (pcr_at (x + d)) = d.
Proof.
  intros x d Hd. unfold pcr_ahead, pcr_at. rewrite <- Zminus_mod.
  replace (x + d - x) with d by lia. apply Z.mod_small. unfold ticks_per_s in Hd. rewrite cycle_val. lia.
Qed.

(** Position of [x] on the circle relative to the reference. *)
Lemma wrap_step : forall xr x d, xr <= x -> 0 <= d < ticks_per_s ->
  (pcr_at (x + d) < pcr_at x -> pcr_cycle <= pcr_at xr + (x + d - xr)) /\
  (pcr_at x <= pcr_at (x + d) -> pcr_at xr + (x - xr) < pcr_cycle -> pcr_at xr + (x + d - xr) < pcr_cycle).
Proof.
  intros xr x d Hx Hd.
  pose proof (pcr_at_range x) as H1. pose proof (pcr_at_range (x + d)) as H2. pose proof (pcr_at_range xr) as H3.
  assert (E : pcr_at (x + d) = if pcr_at x + d <? pcr_cycle then pcr_at x + d else pcr_at x + d - pcr_cycle) by (apply pcr_at_add; auto).
  unfold ticks_per_s in Hd.
  assert (Hmod : pcr_at x = (pcr_at xr + (x - xr)) mod pcr_cycle).
  { unfold pcr_at. rewrite Z.add_mod_idemp_l by (rewrite cycle_val; lia). f_equal. lia. }
  set (u := pcr_at xr) in *. set (v := pcr_at x) in *. set (w := pcr_at (x + d)) in *. clearbody u v w.
  rewrite cycle_val in *.
  destruct (Z.ltb_spec (v + d) 2576980377600); split; intros; try lia.
Qed.

Lemma track_tick : forall c x ref n d, track c x ref n -> 0 <= d < ticks_per_s ->
  exists c', ck_step c (OpPcr (pcr_at (x + d))) = Ok c' /\
    track c' (x + d) ref (match ref with Some _ => 0 | None => n end).
Proof.
  intros c x ref n d [Hi [Hr [Hl [Hn Href]]]] Hd.
  cbn [ck_step]. unfold ck_UpdatePcr, assert. rewrite pcr_at_valid.
  pose proof Hi as [Hv [Hg [Hp1 Hp2]]].
  rewrite IsReady_inv by auto. rewrite Hr. cbn [andb].
  destruct ref as [[t xr]|].
  - destruct Href as [Ht [Htt [Hb [Hx [Hw1 [Hw2 Hgc]]]]]]. rewrite Ht.
    rewrite Hl. rewrite ComputeDelta_ahead by apply pcr_at_range. rewrite ahead_add by auto.
    unfold ticks_per_s in Hd.
    destruct (Z.leb_spec 0 d); [|lia]. rewrite tickss_val. destruct (Z.leb_spec 27000000 d); [lia|].
    unfold ck_accept. cbn [ck_baseline]. unfold bl_IsReady. rewrite Hp2, Ht by auto. cbn [andb].
    eexists; split; [reflexivity|].
    assert (Hd' : 0 <= d < ticks_per_s) by (unfold ticks_per_s; lia).
    pose proof (wrap_step xr x d Hx Hd') as [W1 W2].
    pose proof (pcr_at_range (x + d)).
    split; [repeat split; cbn -[IsValidPcr]; auto; try lia; apply pcr_at_valid|].
    split; [reflexivity|]. split; [reflexivity|]. split; [lia|]. cbn.
    rewrite Hl. split; [auto|]. split; [auto|]. split; [auto|]. split; [lia|].
    destruct (Z.ltb_spec (pcr_at (x + d)) (pcr_at x)).
    + specialize (W1 H2). clear Hw1 Hw2 Hgc W2. repeat split; auto; intros; lia.
    + specialize (W2 H2). repeat split; auto.
      * intros. apply Hw1. clear Hw1 Hw2 Hgc W2 W1. lia.
      * intros. destruct (Z_lt_le_dec (pcr_at xr + (x - xr)) pcr_cycle); [exfalso; specialize (W2 l); clear Hw1 Hw2 Hgc W1; lia|auto].
      * left; lia.
  - destruct Href as [Ht [Hb Hw]]. rewrite Ht. unfold ck_accept. cbn [ck_baseline]. unfold bl_IsReady.
    rewrite Ht, andb_false_r. rewrite sync_ok by (cbn; apply pcr_at_valid). cbn.
    eexists; split; [reflexivity|].
    split; [repeat split; cbn -[IsValidPcr]; auto; try lia; apply pcr_at_valid|].
    repeat split; cbn -[IsValidPcr]; auto.
Qed.

Lemma track_tot : forall c x ref n t l, track c x ref n -> (ref = None -> n = 4) ->
  exists c', ck_step c (OpTime t l) = Ok c' /\ track c' x (Some (t, x)) n.
Proof.
  intros c x ref n t l [Hi [Hr [Hl [Hn Href]]]] H4. pose proof Hi as [Hv [Hg [Hp1 Hp2]]].
  cbn [ck_step]. unfold ck_UpdateTime. cbn [ck_ready]. rewrite Hr.
  rewrite sync_ok by (cbn; auto). cbn. eexists; split; [reflexivity|].
  split; [repeat split; cbn -[IsValidPcr]; auto; lia|]. split; [auto|]. split; [auto|]. split; [auto|]. cbn.
  pose proof (pcr_at_range x).
  split; [auto|]. split; [auto|]. split; [auto|]. split; [lia|]. split; [auto|]. split; [lia|].
  destruct ref as [[t' xr]|]; [|specialize (H4 eq_refl); lia].
  destruct Href as [? [? [? [? [? [? Hgc]]]]]]. auto.
Qed.

Lemma track_glitch : forall c x t xr n p, track c x (Some (t, xr)) n -> n < 4 ->
  0 <= p < pcr_cycle -> ticks_per_s <= pcr_ahead (pcr_at x) p ->
  exists c', ck_step c (OpPcr p) = Ok c' /\ track c' x (Some (t, xr)) (n + 1).
Proof.
  intros c x t xr n p [Hi [Hr [Hl [Hn Href]]]] H4 Hp Hf. pose proof Hi as [Hv [Hg [Hp1 Hp2]]].
  destruct Href as [Ht [Htt [Hb [Hx [Hw1 [Hw2 Hgc]]]]]].
  assert (Hgn : ck_gap_count c <= n) by (destruct Hgc; lia).
  cbn [ck_step]. unfold ck_UpdatePcr, assert.
  assert (Hvp : IsValidPcr p = true) by (apply valid_iff; auto). rewrite Hvp.
  rewrite IsReady_inv by auto. rewrite Hr, Ht. cbn [andb].
  rewrite Hl, ComputeDelta_ahead by (auto; apply pcr_at_range). unfold ticks_per_s in Hf.
  destruct (Z.leb_spec 0 (pcr_ahead (pcr_at x) p)); [|lia].
  rewrite tickss_val. destruct (Z.leb_spec 27000000 (pcr_ahead (pcr_at x) p)); [|lia].
  assert (Hu : u8 (ck_gap_count c + 1) = ck_gap_count c + 1).
  { unfold u8. apply Z.mod_small. lia. }
  rewrite Hu. unfold kPcrGapCountThreshold. destruct (Z.leb_spec (ck_gap_count c + 1) 4); [|lia].
  eexists; split; [reflexivity|].
  split; [split; [exact (pcr_at_valid x)|]; split; [cbn [ck_gap_count]; lia|]; split; auto|].
  split; [auto|]. split; [reflexivity|]. split; [lia|]. cbn [ck_baseline ck_wrap ck_gap_count].
  repeat split; auto. lia.
Qed.

Lemma track_run : forall items c x ref n,
  track c x ref n -> (ref = None -> n = 4) ->
  admissible x (match ref with Some _ => true | None => false end) n items ->
  exists c' n', ck_run c (ops_of x items) = Ok c' /\
    track c' (ticks_after x items) (last_tot x items ref) n'.
Proof.
  induction items as [|it items IH]; intros c x ref n Ht H4 Ha; cbn [ops_of ck_run ticks_after last_tot].
  - eauto.
  - destruct it as [d|t l|p]; cbn [admissible] in Ha; cbn [ck_run].
    + destruct Ha as [Hd Ha]. destruct (track_tick c x ref n d Ht Hd) as [c1 [E1 T1]].
      rewrite E1. cbn [bind]. eapply IH; [exact T1| |].
      * intros ->. auto.
      * destruct ref; auto.
    + destruct (track_tot c x ref n t l Ht H4) as [c1 [E1 T1]]. rewrite E1. cbn [bind].
      eapply IH; [exact T1|congruence|exact Ha].
    + destruct Ha as [Hs [Hn [Hp [Hf Ha]]]]. destruct ref as [[t xr]|]; [|discriminate].
      destruct (track_glitch c x t xr n p Ht Hn Hp Hf) as [c1 [E1 T1]]. rewrite E1. cbn [bind].
      eapply IH; [exact T1|congruence|exact Ha].
Qed.

(** Clock just after a PID change and a first PCR. *)
Lemma track_start : forall c pid x, clock_inv c ->
  exists c', ck_run c [OpSetPid pid; OpPcr (pcr_at x)] = Ok c' /\ track c' x None 4.
Proof.
  intros c pid x [Hv [Hg [Hp1 Hp2]]]. cbn [ck_run ck_step bind].
  unfold ck_UpdatePcr, assert. rewrite pcr_at_valid. cbn [ck_IsReady ck_SetPid ck_ready andb].
  unfold ck_accept. cbn. rewrite sync_ok by (cbn; apply pcr_at_valid). cbn.
  eexists; split; [reflexivity|]. repeat split; cbn -[IsValidPcr]; auto; try lia; apply pcr_at_valid.
Qed.

Lemma track_now : forall c x t xr n local, track c x (Some (t, xr)) n ->
  pcr_at xr + (x - xr) < 2 * pcr_cycle ->
  int64_min <= t <= 2 ^ 62 ->
  ck_IsReady c = true /\ ck_Now c local = Ok (t + (x - xr) / ticks_per_ms).
Proof.
  intros c x t xr n local [Hi [Hr [Hl [Hn Href]]]] H2 Ht64.
  pose proof Hi as [Hv [Hg [Hp1 Hp2]]]. destruct Href as [Ht [Htt [Hb [Hx [Hw1 [Hw2 Hgc]]]]]].
  assert (Hready : ck_IsReady c = true) by (rewrite IsReady_inv by auto; rewrite Hr, Ht; reflexivity).
  split; [auto|]. unfold ck_Now. rewrite Hready.
  assert (Hbr : bl_IsReady (ck_baseline c) = true) by (unfold bl_IsReady; rewrite Hp2, Ht; auto).
  assert (Hmod : pcr_at x = (pcr_at xr + (x - xr)) mod pcr_cycle).
  { unfold pcr_at. rewrite Z.add_mod_idemp_l by (rewrite cycle_val; lia). f_equal. lia. }
  pose proof (pcr_at_range xr) as Hr1. pose proof (pcr_at_range x) as Hr2.
  unfold bl_PcrToTime, assert. rewrite Hbr, Htt, Hb, Hl, ticks_val. unfold ticks_per_ms.
  set (u := pcr_at xr) in *. set (v := pcr_at x) in *. clearbody u v.
  destruct (Z_lt_le_dec (u + (x - xr)) pcr_cycle) as [Hc|Hc].
  - rewrite Hw1 by auto. rewrite Z.mod_small in Hmod by lia.
    replace (v - u) with (x - xr) by lia. rewrite Z.quot_div_nonneg by lia.
    apply i64_ok. rewrite cycle_val in *. unfold int64_min, int64_max in *. lia.
  - rewrite Hw2 by auto. rewrite <- cycle_eq.
    assert (Hv' : v = u + (x - xr) - pcr_cycle).
    { rewrite Hmod. symmetry. apply Z.mod_unique with (q := 1); rewrite cycle_val in *; lia. }
    destruct (Z.ltb_spec 0 (v + pcr_cycle)); [|rewrite cycle_val in *; lia].
    replace (v + pcr_cycle - u) with (x - xr) by lia. rewrite Z.quot_div_nonneg by lia.
    apply i64_ok. rewrite cycle_val in *. unfold int64_min, int64_max in *. lia.
Qed.

(** With any number of wraps since the TOT: only one of them is counted. *)
Lemma track_now_exact : forall c x t xr n local, track c x (Some (t, xr)) n ->
  int64_min <= t <= 2 ^ 62 ->
  ck_IsReady c = true /\
  ck_Now c local = Ok (t + (x - xr - pcr_cycle * Z.max 0 ((pcr_at xr + (x - xr)) / pcr_cycle - 1)) / ticks_per_ms).
Proof.
  intros c x t xr n local T Ht64. destruct (Z_lt_le_dec (pcr_at xr + (x - xr)) (2 * pcr_cycle)) as [L|L].
  - assert (E : Z.max 0 ((pcr_at xr + (x - xr)) / pcr_cycle - 1) = 0).
    { assert ((pcr_at xr + (x - xr)) / pcr_cycle < 2) by (apply Z.div_lt_upper_bound; rewrite cycle_val in *; lia). lia. }
    rewrite E, Z.mul_0_r, Z.sub_0_r. eapply track_now; eauto.
  - destruct T as [Hi [Hr [Hl [Hn Href]]]].
    pose proof Hi as [Hv [Hg [Hp1 Hp2]]]. destruct Href as [Ht [Htt [Hb [Hx [Hw1 [Hw2 Hgc]]]]]].
    assert (Hready : ck_IsReady c = true) by (rewrite IsReady_inv by auto; rewrite Hr, Ht; reflexivity).
    split; [auto|]. unfold ck_Now. rewrite Hready.
    assert (Hbr : bl_IsReady (ck_baseline c) = true) by (unfold bl_IsReady; rewrite Hp2, Ht; auto).
    assert (Hmod : pcr_at x = (pcr_at xr + (x - xr)) mod pcr_cycle).
    { unfold pcr_at. rewrite Z.add_mod_idemp_l by (rewrite cycle_val; lia). f_equal. lia. }
    pose proof (pcr_at_range xr) as Hr1. pose proof (pcr_at_range x) as Hr2.
    unfold bl_PcrToTime, assert. rewrite Hbr, Htt, Hb, Hl, ticks_val. unfold ticks_per_ms.
    set (u := pcr_at xr) in *. set (v := pcr_at x) in *. clearbody u v.
    assert (Hc : pcr_cycle <= u + (x - xr)) by (rewrite cycle_val in *; lia).
    rewrite Hw2 by auto. rewrite <- cycle_eq. set (q := (u + (x - xr)) / pcr_cycle).
    assert (Hq : u + (x - xr) = pcr_cycle * q + v) by (rewrite Hmod; apply Z.div_mod; rewrite cycle_val; lia).
    assert (Q2 : 2 <= q) by (apply Z.div_le_lower_bound; rewrite cycle_val in *; lia).
    clearbody q. clear Hmod Hw1 Hw2 Hgc. rewrite Z.max_r by lia.
    rewrite cycle_val in *.
    destruct (Z.ltb_spec 0 (v + 2576980377600)); [|lia].
    replace (x - xr - 2576980377600 * (q - 1)) with (v + 2576980377600 - u) by lia. rewrite Z.quot_div_nonneg by lia.
    apply i64_ok. unfold int64_min, int64_max in *.
    assert (0 <= (v + 2576980377600 - u) / 27000 <= 2 ^ 40) by (split; [apply Z.div_pos; lia|apply Z.div_le_upper_bound; lia]). lia.
Qed.

(** * Readiness *)

Lemma op_valid_valid : forall op, valid_op op -> op_valid op.
Proof. intros [ | | ]; auto. Qed.

Lemma run_snoc : forall h op c, ck_run c (h ++ [op]) = let* c1 := ck_run c h in ck_step c1 op.
Proof.
  intros. rewrite run_app. destruct (ck_run c h); cbn; auto. destruct (ck_step a op); auto.
Qed.

Definition pcr_seen (c : clock) : bool := ck_ready c.
Definition tot_seen (c : clock) : bool := bl_time_ready (ck_baseline c).

Lemma readiness : forall h, Forall valid_op h ->
  exists c p t, ck_run clock_init h = Ok c /\ clock_inv c /\ seen h p t /\
    pcr_seen c = p /\ tot_seen c = t /\ ck_IsReady c = p && t.
Proof.
  intros h. induction h as [|op h IH] using rev_ind; intros Hv.
  - exists clock_init, false, false. repeat split; cbn; try lia; auto; try discriminate. constructor.
  - apply Forall_app in Hv as [Hv1 Hv2]. inversion Hv2; subst.
    destruct (IH Hv1) as [c [p [t [Hr [Hi [Hs [Hp [Ht HR]]]]]]]].
    destruct (step_inv c op Hi (op_valid_valid _ H1)) as [c' [E Hi']].
    assert (Hr' : ck_run clock_init (h ++ [op]) = Ok c') by (rewrite run_snoc, Hr; exact E).
    exists c'.
    assert (HR' : ck_IsReady c' = pcr_seen c' && tot_seen c') by (apply IsReady_inv; auto).
    destruct op as [pid|time local|pcr].
    + exists false, false. cbn in E. inversion E; subst c'.
      repeat split; try apply Hi'; auto. eapply seen_pid; eauto.
    + exists p, true. cbn in E. unfold ck_UpdateTime in E. cbn [ck_ready] in E.
      assert (Hq : pcr_seen c' = p /\ tot_seen c' = true).
      { destruct (ck_ready c) eqn:Er.
        - rewrite sync_ok in E by (cbn; apply Hi). inversion E; subst c'. cbn. unfold pcr_seen in Hp. rewrite Er in Hp. split; auto.
        - inversion E; subst c'. cbn. unfold pcr_seen in Hp. rewrite Er in Hp. auto. }
      destruct Hq as [Hq1 Hq2]. repeat split; try apply Hi'; auto.
      * eapply seen_tot; eauto.
      * rewrite HR', Hq1, Hq2. reflexivity.
    + assert (Rh : ready_after h = ck_IsReady c) by (unfold ready_after; rewrite Hr; reflexivity).
      assert (Rh' : ready_after (h ++ [OpPcr pcr]) = ck_IsReady c') by (unfold ready_after; rewrite Hr'; reflexivity).
      cbn in E. unfold ck_UpdatePcr, assert in E.
      cbn in H1. rewrite (proj2 (valid_iff pcr) H1) in E.
      assert (Hacc : forall g, ck_accept c pcr g = Ok c' -> pcr_seen c' = true /\ tot_seen c' = t).
      { intros g Ha. unfold ck_accept in Ha. cbn [ck_baseline] in Ha.
        destruct (bl_IsReady (ck_baseline c)).
        - inversion Ha; subst c'. cbn. auto.
        - rewrite sync_ok in Ha by (cbn; apply valid_iff; auto). inversion Ha; subst c'. cbn. auto. }
      destruct (ck_IsReady c) eqn:Er.
      * symmetry in HR. apply andb_true_iff in HR as [Hpt Htt].
        destruct (0 <=? ComputeDelta pcr (ck_last_pcr c)); [|discriminate].
        destruct (kPcrTicksPerSec <=? ComputeDelta pcr (ck_last_pcr c)).
        -- destruct (u8 (ck_gap_count c + 1) <=? kPcrGapCountThreshold).
           ++ inversion E; subst c'. exists true, t.
              assert (Hs' : seen (h ++ [OpPcr pcr]) true t).
              { eapply seen_pcr; eauto. }
              split; [exact Hr'|]. split; [exact Hi'|]. split; [exact Hs'|].
              assert (Q1 : ck_ready c = true) by (unfold pcr_seen in Hp; congruence).
              split; [exact Q1|]. split; [exact Ht|]. rewrite HR'. unfold pcr_seen, tot_seen. cbn [ck_ready ck_baseline]. unfold tot_seen in Ht. rewrite Q1, Ht. reflexivity.
           ++ inversion E; subst c'. exists false, false.
              repeat split; try apply Hi'; auto. eapply seen_lost; eauto.
        -- destruct (Hacc _ E) as [A1 A2]. exists true, t.
           split; [exact Hr'|]. split; [exact Hi'|].
           split; [eapply seen_pcr; [exact Hs|]; intros _; rewrite Rh', HR', A1, A2; exact Htt|].
           split; [exact A1|]. split; [exact A2|]. rewrite HR', A1, A2. reflexivity.
      * destruct (Hacc _ E) as [A1 A2]. exists true, t.
        split; [exact Hr'|]. split; [exact Hi'|].
        split; [eapply seen_pcr; [exact Hs|]; congruence|].
        split; [exact A1|]. split; [exact A2|]. rewrite HR', A1, A2. reflexivity.
Qed.

(** * Five glitches in a row *)

Lemma glitch_step_exact : forall c x t xr n p, track c x (Some (t, xr)) n ->
  0 <= p < pcr_cycle -> ticks_per_s <= pcr_ahead (pcr_at x) p ->
  ck_gap_count c < 255 ->
  ck_step c (OpPcr p) = Ok (
    let c1 := mkClock (ck_baseline c) (ck_local c) (ck_last_pcr c) (ck_gap_count c + 1) (ck_ready c) (ck_wrap c) in
    if ck_gap_count c + 1 <=? 4 then c1 else ck_Invalidate c1).
Proof.
  intros c x t xr n p [Hi [Hr [Hl [Hn Href]]]] Hp Hf Hc. pose proof Hi as [Hv [Hg [Hp1 Hp2]]].
  destruct Href as [Ht [Htt [Hb [Hx [Hw1 [Hw2 Hgc]]]]]].
  cbn [ck_step]. unfold ck_UpdatePcr, assert.
  assert (Hvp : IsValidPcr p = true) by (apply valid_iff; auto). rewrite Hvp.
  rewrite IsReady_inv by auto. rewrite Hr, Ht. cbn [andb].
  rewrite Hl, ComputeDelta_ahead by (auto; apply pcr_at_range). unfold ticks_per_s in Hf.
  destruct (Z.leb_spec 0 (pcr_ahead (pcr_at x) p)); [|lia].
  rewrite tickss_val. destruct (Z.leb_spec 27000000 (pcr_ahead (pcr_at x) p)); [|lia].
  assert (Hu : u8 (ck_gap_count c + 1) = ck_gap_count c + 1).
  { unfold u8. apply Z.mod_small. lia. }
  rewrite Hu. unfold kPcrGapCountThreshold. cbn zeta. destruct (ck_gap_count c + 1 <=? 4); reflexivity.
Qed.

Lemma tick_gap_zero : forall c x t xr n d c', track c x (Some (t, xr)) n -> 0 <= d < ticks_per_s ->
  ck_step c (OpPcr (pcr_at (x + d))) = Ok c' -> ck_gap_count c' = 0.
Proof.
  intros c x t xr n d c' [Hi [Hr [Hl [Hn Href]]]] Hd E. pose proof Hi as [Hv [Hg [Hp1 Hp2]]].
  destruct Href as [Ht _].
  cbn [ck_step] in E. unfold ck_UpdatePcr, assert in E. rewrite pcr_at_valid in E.
  rewrite IsReady_inv in E by auto. rewrite Hr, Ht in E. cbn [andb] in E.
  rewrite Hl, ComputeDelta_ahead in E by apply pcr_at_range. rewrite ahead_add in E by auto.
  unfold ticks_per_s in Hd. destruct (Z.leb_spec 0 d); [|lia].
  rewrite tickss_val in E. destruct (Z.leb_spec 27000000 d); [lia|].
  unfold ck_accept in E. cbn [ck_baseline] in E. unfold bl_IsReady in E. rewrite Hp2, Ht in E by auto.
  inversion E; reflexivity.
Qed.

Lemma five_glitches : forall c x t xr n g1 g2 g3 g4 g5,
  track c x (Some (t, xr)) n -> ck_gap_count c = 0 ->
  Forall (fun p => 0 <= p < pcr_cycle /\ ticks_per_s <= pcr_ahead (pcr_at x) p) [g1; g2; g3; g4; g5] ->
  exists c', ck_run c (map OpPcr [g1; g2; g3; g4; g5]) = Ok c' /\ ck_IsReady c' = false.
Proof.
  intros c x t xr n g1 g2 g3 g4 g5 T H0 F.
  inversion F as [|? ? [V1 F1] R1]; subst. inversion R1 as [|? ? [V2 F2] R2]; subst.
  inversion R2 as [|? ? [V3 F3] R3]; subst. inversion R3 as [|? ? [V4 F4] R4]; subst.
  inversion R4 as [|? ? [V5 F5] R5]; subst. clear F R1 R2 R3 R4 R5.
  destruct T as [Hi [Hr [Hl [Hn Href]]]].
  assert (T0 : track c x (Some (t, xr)) 4).
  { split; auto. split; auto. split; auto. split; [lia|]. destruct Href as [? [? [? [? [? [? ?]]]]]]. repeat split; auto; lia. }
  assert (Step : forall c, track c x (Some (t, xr)) 4 -> ck_gap_count c <= 3 -> forall p, 0 <= p < pcr_cycle -> ticks_per_s <= pcr_ahead (pcr_at x) p ->
    exists c', ck_step c (OpPcr p) = Ok c' /\ track c' x (Some (t, xr)) 4 /\ ck_gap_count c' = ck_gap_count c + 1).
  { intros c0 Tc Hg p Hp Hf. eexists. split; [eapply glitch_step_exact; eauto; lia|].
    cbn zeta. destruct (Z.leb_spec (ck_gap_count c0 + 1) 4); [|lia].
    destruct Tc as [Hi0 [Hr0 [Hl0 [Hn0 Href0]]]]. pose proof Hi0 as [Hv0 [Hg0 [Hp10 Hp20]]].
    split; [|reflexivity]. split; [repeat split; cbn -[IsValidPcr]; auto; lia|].
    destruct Href0 as [? [? [? [? [? [? ?]]]]]].
    repeat split; cbn -[IsValidPcr]; auto. }
  destruct (Step c T0 ltac:(lia) g1 V1 F1) as [c1 [E1 [T1 G1]]].
  destruct (Step c1 T1 ltac:(lia) g2 V2 F2) as [c2 [E2 [T2 G2]]].
  destruct (Step c2 T2 ltac:(lia) g3 V3 F3) as [c3 [E3 [T3 G3]]].
  destruct (Step c3 T3 ltac:(lia) g4 V4 F4) as [c4 [E4 [T4 G4]]].
  cbn [map ck_run]. rewrite E1. cbn [bind]. rewrite E2. cbn [bind]. rewrite E3. cbn [bind]. rewrite E4. cbn [bind].
  rewrite (glitch_step_exact c4 x t xr 4 g5 T4 V5 F5) by lia. cbn [bind].
  eexists; split; [reflexivity|]. cbn zeta.
  destruct (Z.leb_spec (ck_gap_count c4 + 1) 4); [lia|]. reflexivity.
Qed.

(** * Falling back to the wall clock *)


Lemma step_keeps_time : forall c op c', is_time op = false -> ck_step c op = Ok c' ->
  bl_time (ck_baseline c') = bl_time (ck_baseline c) /\ ck_local c' = ck_local c.
Proof.
  intros c op c' Hop E. destruct op as [pid|t l|p]; [|discriminate|]; cbn [ck_step] in E.
  - inversion E; subst; auto.
  - unfold ck_UpdatePcr in E. apply assert_ok in E as [Hv E].
    assert (Hacc : forall g, ck_accept c p g = Ok c' -> bl_time (ck_baseline c') = bl_time (ck_baseline c) /\ ck_local c' = ck_local c).
    { intros g Ha. unfold ck_accept in Ha. cbn [ck_baseline] in Ha.
      destruct (bl_IsReady (ck_baseline c)); [inversion Ha; auto|].
      rewrite sync_ok in Ha by (cbn; auto). inversion Ha; auto. }
    destruct (ck_IsReady c); [|eauto].
    apply assert_ok in E as [_ E]. destruct (kPcrTicksPerSec <=? _); [|eauto].
    destruct (u8 _ <=? _); inversion E; auto.
Qed.

Lemma run_keeps_time : forall ops c c', forallb (fun op => negb (is_time op)) ops = true -> ck_run c ops = Ok c' ->
  bl_time (ck_baseline c') = bl_time (ck_baseline c) /\ ck_local c' = ck_local c.
Proof.
  induction ops as [|op ops IH]; intros c c' Hf E; cbn in *.
  - inversion E; auto.
  - apply andb_true_iff in Hf as [H1 H2]. apply bind_ok in E as [c1 [E1 E2]].
    apply negb_true_iff in H1. destruct (step_keeps_time _ _ _ H1 E1). destruct (IH _ _ H2 E2). split; congruence.
Qed.

Lemma wall_clock : forall h1 T l h2 local,
  Forall valid_op (h1 ++ OpTime T l :: h2) ->
  forallb (fun op => negb (is_time op)) h2 = true ->
  - 2 ^ 61 <= T <= 2 ^ 61 -> - 2 ^ 61 <= l <= 2 ^ 61 -> - 2 ^ 61 <= local <= 2 ^ 61 ->
  exists c, ck_run clock_init (h1 ++ OpTime T l :: h2) = Ok c /\
    (ck_IsReady c = false -> ck_Now c local = Ok (T + (local - l))).
Proof.
  intros h1 T l h2 local Hv Hf HT Hl Hlocal.
  apply Forall_app in Hv as [Hv1 Hv2]. inversion Hv2 as [|? ? _ Hv3]; subst.
  destruct (run_inv h1 clock_init clock_inv_init) as [c1 [E1 I1]].
  { eapply Forall_impl; [apply op_valid_valid|auto]. }
  destruct (step_inv c1 (OpTime T l) I1 I) as [c2 [E2 I2]].
  destruct (run_inv h2 c2 I2) as [c3 [E3 I3]].
  { eapply Forall_impl; [apply op_valid_valid|auto]. }
  exists c3. split.
  { rewrite run_app, E1. cbn [bind ck_run]. rewrite E2. cbn [bind]. exact E3. }
  intros Hnr. unfold ck_Now. rewrite Hnr.
  destruct (run_keeps_time _ _ _ Hf E3) as [K1 K2].
  assert (bl_time (ck_baseline c2) = T /\ ck_local c2 = l) as [K3 K4].
  { cbn in E2. unfold ck_UpdateTime in E2. cbn [ck_ready] in E2. destruct (ck_ready c1).
    - rewrite sync_ok in E2 by (cbn; apply I1). inversion E2; auto.
    - inversion E2; auto. }
  rewrite K1, K2, K3, K4. rewrite i64_ok by (unfold int64_min, int64_max; lia). cbn [bind].
  apply i64_ok. unfold int64_min, int64_max. lia.
Qed.


Lemma never_ready : forall h c c', forallb (fun op => negb (is_time op)) h = true ->
  bl_time_ready (ck_baseline c) = false -> ck_run c h = Ok c' -> bl_time_ready (ck_baseline c') = false.
Proof.
  induction h as [|op h IH]; intros c c' Hf Hr E; cbn in *.
  - inversion E; subst; auto.
  - apply andb_true_iff in Hf as [H1 H2]. apply bind_ok in E as [c1 [E1 E2]].
    apply (IH c1); auto. clear IH E2.
    assert (NR : ck_IsReady c = false) by (unfold ck_IsReady, bl_IsReady; rewrite Hr; destruct (ck_ready c), (bl_pcr_ready (ck_baseline c)); auto).
    destruct op as [pid|t l|p]; cbn [ck_step] in E1; [inversion E1; subst; auto|discriminate|].
    unfold ck_UpdatePcr in E1. apply assert_ok in E1 as [Hv E1]. rewrite NR in E1.
    unfold ck_accept in E1. cbn [ck_baseline] in E1. unfold bl_IsReady in E1. rewrite Hr, andb_false_r in E1.
    rewrite sync_ok in E1 by (cbn; auto). inversion E1; subst; cbn. auto.
Qed.

Lemma before_tot : forall h local, Forall valid_op h ->
  forallb (fun op => negb (is_time op)) h = true -> - 2 ^ 61 <= local <= 2 ^ 61 ->
  exists c, ck_run clock_init h = Ok c /\ ck_IsReady c = false /\ ck_Now c local = Ok local.
Proof.
  intros h local Hv Hf Hl.
  destruct (run_inv h clock_init clock_inv_init) as [c [E _]].
  { eapply Forall_impl; [apply op_valid_valid|auto]. }
  exists c. split; [exact E|].
  pose proof (never_ready h clock_init c Hf eq_refl E) as N.
  assert (NR : ck_IsReady c = false) by (unfold ck_IsReady, bl_IsReady; rewrite N; destruct (ck_ready c), (bl_pcr_ready (ck_baseline c)); auto).
  split; [exact NR|]. unfold ck_Now. rewrite NR.
  destruct (run_keeps_time _ _ _ Hf E) as [K1 K2]. rewrite K1, K2. cbn [clock_init ck_local ck_baseline baseline_init bl_time].
  rewrite Z.sub_0_r, i64_ok by (unfold int64_min, int64_max; lia). cbn [bind].
  apply i64_ok. unfold int64_min, int64_max. lia.
Qed.

(** * Statements used by Props/ClockProps.v *)

(** The calls of a session: anything before, then a PID change, a first PCR at
    real tick [x0], then the stream. *)
Lemma tracks : forall h pid x0 items t xr local,
  Forall valid_op h -> admissible x0 false 4 items ->
  last_tot x0 items None = Some (t, xr) ->
  pcr_at xr + (ticks_after x0 items - xr) < 2 * pcr_cycle ->
  int64_min <= t <= 2 ^ 62 ->
  exists c, ck_run clock_init (h ++ OpSetPid pid :: OpPcr (pcr_at x0) :: ops_of x0 items) = Ok c /\
    ck_IsReady c = true /\ ck_Now c local = Ok (t + (ticks_after x0 items - xr) / ticks_per_ms).
Proof.
  intros h pid x0 items t xr local Hv Ha Hl Hw Ht.
  destruct (run_inv h clock_init clock_inv_init) as [c1 [E1 I1]].
  { eapply Forall_impl; [apply op_valid_valid|auto]. }
  destruct (track_start c1 pid x0 I1) as [c2 [E2 T2]].
  destruct (track_run items c2 x0 None 4 T2 (fun _ => eq_refl) Ha) as [c3 [n' [E3 T3]]].
  exists c3. rewrite Hl in T3. split; [|eapply track_now; eauto].
  rewrite run_app, E1. cbn [bind].
  change (OpSetPid pid :: OpPcr (pcr_at x0) :: ops_of x0 items) with ([OpSetPid pid; OpPcr (pcr_at x0)] ++ ops_of x0 items).
  rewrite run_app, E2. exact E3.
Qed.

Lemma tracks_exact : forall h pid x0 items t xr local,
  Forall valid_op h -> admissible x0 false 4 items ->
  last_tot x0 items None = Some (t, xr) ->
  int64_min <= t <= 2 ^ 62 ->
  let elapsed := ticks_after x0 items - xr in
  let wraps := (pcr_at xr + elapsed) / pcr_cycle in
  exists c, ck_run clock_init (h ++ OpSetPid pid :: OpPcr (pcr_at x0) :: ops_of x0 items) = Ok c /\
    ck_IsReady c = true /\ ck_Now c local = Ok (t + (elapsed - pcr_cycle * Z.max 0 (wraps - 1)) / ticks_per_ms).
Proof.
  intros h pid x0 items t xr local Hv Ha Hl Ht.
  destruct (run_inv h clock_init clock_inv_init) as [c1 [E1 I1]].
  { eapply Forall_impl; [apply op_valid_valid|auto]. }
  destruct (track_start c1 pid x0 I1) as [c2 [E2 T2]].
  destruct (track_run items c2 x0 None 4 T2 (fun _ => eq_refl) Ha) as [c3 [n' [E3 T3]]].
  exists c3. rewrite Hl in T3. split; [|eapply track_now_exact; eauto].
  rewrite run_app, E1. cbn [bind].
  change (OpSetPid pid :: OpPcr (pcr_at x0) :: ops_of x0 items) with ([OpSetPid pid; OpPcr (pcr_at x0)] ++ ops_of x0 items).
  rewrite run_app, E2. exact E3.
Qed.

Lemma ops_of_app : forall a b x, ops_of x (a ++ b) = ops_of x a ++ ops_of (ticks_after x a) b.
Proof.
  induction a as [|[d|t l|p] a IH]; intros b x; cbn [ops_of app ticks_after]; auto; rewrite IH; reflexivity.
Qed.

Lemma fifth_glitch : forall h pid x0 items t xr d gs,
  Forall valid_op h -> admissible x0 false 4 items ->
  last_tot x0 items None = Some (t, xr) ->
  0 <= d < ticks_per_s -> List.length gs = 5%nat ->
  Forall (fun p => 0 <= p < pcr_cycle /\ ticks_per_s <= pcr_ahead (pcr_at (ticks_after x0 items + d)) p) gs ->
  exists c, ck_run clock_init (h ++ OpSetPid pid :: OpPcr (pcr_at x0) ::
      ops_of x0 items ++ OpPcr (pcr_at (ticks_after x0 items + d)) :: map OpPcr gs) = Ok c /\
    ck_IsReady c = false.
Proof.
  intros h pid x0 items t xr d gs Hv Ha Hl Hd Hn Hg.
  destruct (run_inv h clock_init clock_inv_init) as [c1 [E1 I1]].
  { eapply Forall_impl; [apply op_valid_valid|auto]. }
  destruct (track_start c1 pid x0 I1) as [c2 [E2 T2]].
  destruct (track_run items c2 x0 None 4 T2 (fun _ => eq_refl) Ha) as [c3 [n' [E3 T3]]].
  rewrite Hl in T3. destruct (track_tick c3 _ _ n' d T3 Hd) as [c4 [E4 T4]].
  pose proof (tick_gap_zero c3 _ _ _ _ d c4 T3 Hd E4) as G4.
  destruct gs as [|g1 [|g2 [|g3 [|g4 [|g5 [|? ?]]]]]]; try discriminate Hn.
  destruct (five_glitches c4 _ t xr _ g1 g2 g3 g4 g5 T4 G4 Hg) as [c5 [E5 R5]].
  exists c5. split; [|exact R5].
  rewrite run_app, E1. cbn [bind].
  change (OpSetPid pid :: OpPcr (pcr_at x0) :: ops_of x0 items ++ OpPcr (pcr_at (ticks_after x0 items + d)) :: map OpPcr [g1; g2; g3; g4; g5])
    with ([OpSetPid pid; OpPcr (pcr_at x0)] ++ ops_of x0 items ++ [OpPcr (pcr_at (ticks_after x0 items + d))] ++ map OpPcr [g1; g2; g3; g4; g5]).
  rewrite run_app, E2. cbn [bind]. rewrite run_app, E3. cbn [bind].
  rewrite run_app. cbn [ck_run]. rewrite E4. cbn [bind]. exact E5.
Qed.

(** Once not ready, PCRs alone or TOTs alone do not make the clock ready again. *)
Lemma seen_stays : forall more h p t, seen (h ++ more) p t ->
  (forall q s, seen h q s -> q = false /\ s = false) ->
  (p = true -> exists pcr, In (OpPcr pcr) more) /\ (t = true -> exists time local, In (OpTime time local) more).
Proof.
  intros more. induction more as [|op more IH] using rev_ind; intros h p t Hs H0.
  - rewrite app_nil_r in Hs. destruct (H0 _ _ Hs) as [-> ->]. split; discriminate.
  - rewrite app_assoc in Hs.
    inversion Hs as [He|h' p' t' pid Hs' He|h' p' t' tm lc Hs' He|h' p' t' pc Hs' Hr He|h' p' t' pc Hs' Hr Hr' He]; subst.
    + exfalso. symmetry in He. apply app_eq_nil in He as [_ He]. discriminate.
    + split; discriminate.
    + apply app_inj_tail in He as [-> <-]. destruct (IH _ _ _ Hs' H0) as [A B]. split; intros E.
      * destruct (A E) as [x Hx]. exists x. apply in_or_app; auto.
      * exists tm, lc. apply in_or_app; cbn; auto.
    + apply app_inj_tail in He as [-> <-]. destruct (IH _ _ _ Hs' H0) as [A B]. split; intros E.
      * exists pc. apply in_or_app; cbn; auto.
      * destruct (B E) as [x [y Hx]]. exists x, y. apply in_or_app; auto.
    + split; discriminate.
Qed.

Lemma seen_fun : forall h p t, seen h p t -> forall p' t', seen h p' t' -> p' = p /\ t' = t.
Proof.
  induction 1; intros p' t' H'; inversion H' as [He|h' p1 t1 pid' Hs' He|h' p1 t1 tm lc Hs' He|h' p1 t1 pc Hs' Hr He|h' p1 t1 pc Hs' Hr Hr' He]; subst; auto;
    try (exfalso; match goal with X : _ ++ [_] = [] |- _ => apply app_eq_nil in X as [_ X]; discriminate
                  | X : [] = _ ++ [_] |- _ => symmetry in X; apply app_eq_nil in X as [_ X]; discriminate end);
    apply app_inj_tail in He as [E1 E2]; try discriminate E2; subst; auto.
  - destruct (IHseen _ _ Hs'); subst; auto.
  - inversion E2; subst. destruct (IHseen _ _ Hs'); subst; auto.
  - inversion E2; subst. exfalso. rewrite H0 in Hr' by auto. discriminate.
  - inversion E2; subst. exfalso. rewrite Hr in H1 by auto. discriminate.
Qed.

(** A clock that lost its synchronisation needs a fresh PCR and a fresh TOT. *)
Lemma fresh_needed : forall h pcr more,
  Forall valid_op (h ++ OpPcr pcr :: more) ->
  ready_after h = true -> ready_after (h ++ [OpPcr pcr]) = false ->
  ready_after (h ++ OpPcr pcr :: more) = true ->
  (exists p, In (OpPcr p) more) /\ (exists time local, In (OpTime time local) more).
Proof.
  intros h pcr more Hv Hr Hr' Hra.
  replace (h ++ OpPcr pcr :: more) with ((h ++ [OpPcr pcr]) ++ more) in * by (rewrite <- app_assoc; reflexivity).
  destruct (readiness _ Hv) as [c [p [t [Hrun [_ [Hs [_ [_ HR]]]]]]]].
  unfold ready_after in Hra. rewrite Hrun in Hra. rewrite Hra in HR.
  symmetry in HR. apply andb_true_iff in HR as [-> ->].
  apply Forall_app in Hv as [Hv1 _]. apply Forall_app in Hv1 as [Hv1 _].
  destruct (readiness _ Hv1) as [c1 [p1 [t1 [_ [_ [Hs1 _]]]]]].
  assert (Hl : seen (h ++ [OpPcr pcr]) false false) by (eapply seen_lost; eauto).
  destruct (seen_stays more _ _ _ Hs) as [A B].
  { intros q s Hq. exact (seen_fun _ _ _ Hl _ _ Hq). }
  auto.
Qed.
