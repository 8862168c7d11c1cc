From Coq Require Import ZArith Lia List Bool Ascii String ZifyBool.
From Verif Require Import Base.Outcome Base.Util Model.Pcr Model.Clock Spec.PcrSpec.
Import ListNotations.
Open Scope Z_scope.
Ltac Zify.zify_post_hook ::= Z.div_mod_to_equations.

Lemma cycle_eq : pcr_cycle = kPcrUpperBound. Proof. reflexivity. Qed.
Lemma cycle_val : pcr_cycle = 2576980377600. Proof. reflexivity. Qed.
Lemma upper_val : kPcrUpperBound = 2576980377600. Proof. reflexivity. Qed.
Lemma maxpcr_val : kMaxPcr = 2576980377599. Proof. reflexivity. Qed.
Lemma ticks_val : kPcrTicksPerMs = 27000. Proof. reflexivity. Qed.
Lemma tickss_val : kPcrTicksPerSec = 27000000. Proof. reflexivity. Qed.

Lemma valid_iff : forall p, IsValidPcr p = true <-> 0 <= p < pcr_cycle.
Proof.
  intros. unfold IsValidPcr. rewrite cycle_val, maxpcr_val. lia.
Qed.

Lemma pcr_at_valid : forall t, IsValidPcr (pcr_at t) = true.
Proof. intros. apply valid_iff. unfold pcr_at. apply Z.mod_pos_bound. rewrite cycle_val. lia. Qed.

Lemma compare_total : forall l r, IsValidPcr l = true -> IsValidPcr r = true ->
  ComparePcr l r = Ok (if Z.abs (l - r) <? Z.abs (l - (pcr_cycle + r)) then l - r else l - r - pcr_cycle).
Proof.
  intros l r Hl Hr. unfold ComparePcr, assert. rewrite Hl, Hr. rewrite <- cycle_eq.
  destruct (Z.abs (l - r) <? Z.abs (l - (pcr_cycle + r))); f_equal. lia.
Qed.

(** Exact value of the comparison of two close instants. *)
Lemma compare_close : forall t1 t2, close t1 t2 ->
  ComparePcr (pcr_at t1) (pcr_at t2) =
    Ok (if (t2 <? t1) && (pcr_at t1 <? pcr_at t2) then t1 - t2 - pcr_cycle else t1 - t2).
Proof.
  intros t1 t2 H. rewrite compare_total by apply pcr_at_valid.
  unfold close in H. rewrite cycle_val in *. f_equal.
  unfold pcr_at. rewrite !cycle_val.
  assert (Hm : t1 mod 2576980377600 - t2 mod 2576980377600 = t1 - t2
          \/ t1 mod 2576980377600 - t2 mod 2576980377600 = t1 - t2 + 2576980377600
          \/ t1 mod 2576980377600 - t2 mod 2576980377600 = t1 - t2 - 2576980377600).
  { pose proof (Z.div_mod t1 2576980377600 ltac:(lia)). pose proof (Z.div_mod t2 2576980377600 ltac:(lia)).
    pose proof (Z.mod_pos_bound t1 2576980377600 ltac:(lia)). pose proof (Z.mod_pos_bound t2 2576980377600 ltac:(lia)).
    generalize dependent (t1 / 2576980377600). generalize dependent (t2 / 2576980377600).
    generalize dependent (t1 mod 2576980377600). generalize dependent (t2 mod 2576980377600).
    intros b Hb a Ha q2 H2 q1 H1.
    assert (q1 - q2 = -1 \/ q1 - q2 = 0 \/ q1 - q2 = 1) as [E|[E|E]] by lia.
    - right; left; lia.
    - left; lia.
    - right; right; lia. }
  pose proof (Z.mod_pos_bound t1 2576980377600 ltac:(lia)).
  pose proof (Z.mod_pos_bound t2 2576980377600 ltac:(lia)).
  set (a := t1 mod 2576980377600) in *. set (b := t2 mod 2576980377600) in *.
  clearbody a b.
  destruct (Z.ltb_spec t2 t1); destruct (Z.ltb_spec a b); cbn [andb];
  destruct (Z.ltb_spec (Z.abs (a - b)) (Z.abs (a - (2576980377600 + b)))); lia.
Qed.

Lemma unix_jst_roundtrip : forall u j, int64_min <= u <= int64_max ->
  ConvertUnixTimeToJstTime u = Ok j -> ConvertJstTimeToUnixTime j = Ok u.
Proof.
  intros u j Hu H. unfold ConvertUnixTimeToJstTime, ConvertJstTimeToUnixTime in *.
  apply bind_ok in H as [s [H1 H2]]. apply i64_inv in H1 as [-> H1]. apply i64_inv in H2 as [-> H2].
  rewrite i64_ok by (unfold UnixEpoch in *; lia). cbn [bind].
  replace (UnixEpoch + (kJstTzOffset + u) - UnixEpoch - kJstTzOffset) with u by lia.
  apply i64_ok. exact Hu.
Qed.

Lemma unix_jst_value : forall u,
  - 2 ^ 62 <= u <= 2 ^ 62 ->
  ConvertUnixTimeToJstTime u = Ok (40587 * 86400000 + 9 * 3600000 + u).
Proof.
  intros u H. unfold ConvertUnixTimeToJstTime.
  rewrite i64_ok; cbn [bind]; [rewrite i64_ok|];
  unfold kJstTzOffset, MilliSecPerHour, UnixEpoch, int64_min, int64_max; try lia.
  all: f_equal; lia.
Qed.

Lemma jst_unix_value : forall j,
  - 2 ^ 62 <= j <= 2 ^ 62 ->
  ConvertJstTimeToUnixTime j = Ok (j - 40587 * 86400000 - 9 * 3600000).
Proof.
  intros u H. unfold ConvertJstTimeToUnixTime.
  rewrite i64_ok; cbn [bind]; [rewrite i64_ok|];
  unfold kJstTzOffset, MilliSecPerHour, UnixEpoch, int64_min, int64_max; try lia.
  all: f_equal; lia.
Qed.

(** * The normalisation loop *)

Definition neg_body (p : Z) : Z := if p <? 0 then p + kPcrUpperBound else p.

Lemma iter_succ_r : forall A n (f : A -> A) x, Nat.iter (S n) f x = Nat.iter n f (f x).
Proof. induction n as [|n IH]; intros f x; [reflexivity|]. change (f (Nat.iter (S n) f x) = f (Nat.iter n f (f x))). f_equal. apply IH. Qed.

Lemma iter_neg : forall n p,
  let r := Nat.iter n neg_body p in
  (0 <= p -> r = p) /\
  (p < 0 -> (r < 0 -> r = p + Z.of_nat n * kPcrUpperBound) /\
            (0 <= r -> r = p mod kPcrUpperBound)).
Proof.
  induction n as [|n IH]; intros p; cbn zeta.
  - cbn. split; auto. intros. split; [lia|]. lia.
  - rewrite iter_succ_r. specialize (IH (neg_body p)). cbn zeta in IH.
    set (r := Nat.iter n neg_body (neg_body p)) in *. clearbody r.
    destruct IH as [IH1 IH2]. unfold neg_body in *. rewrite upper_val in *.
    destruct (Z.ltb_spec p 0) as [Hp|Hp].
    + split; [lia|]. intros _.
      destruct (Z_lt_le_dec (p + 2576980377600) 0) as [Hn|Hn].
      * destruct (IH2 Hn) as [A B]. split; intros Hr; [specialize (A Hr); lia|].
        specialize (B Hr). subst r. replace (p + 2576980377600) with (p + 1 * 2576980377600) by lia. apply Z.mod_add. lia.
      * specialize (IH1 Hn). split; [lia|]. intros _. subst r.
        apply Z.mod_unique with (q := -1); lia.
    + split; [|lia]. intros _. auto.
Qed.

Lemma while_neg_spec : forall p,
  while_neg p = Some (if p <? 0 then p mod pcr_cycle else p).
Proof.
  intros p. unfold while_neg.
  set (fuel := Z.to_pos (Z.abs p / kPcrUpperBound + 1)).
  assert (Hf : Z.pos fuel = Z.abs p / kPcrUpperBound + 1).
  { unfold fuel. rewrite upper_val. apply Z2Pos.id. lia. }
  assert (E : Pos.iter (fun p => if p <? 0 then p + kPcrUpperBound else p) p fuel
              = Nat.iter (Pos.to_nat fuel) neg_body p).
  { rewrite Pos2Nat.inj_iter. reflexivity. }
  rewrite E. destruct (iter_neg (Pos.to_nat fuel) p) as [A B].
  set (r := Nat.iter (Pos.to_nat fuel) neg_body p) in *. clearbody r fuel. clear E.
  rewrite positive_nat_Z, Hf in B. rewrite cycle_eq.
  destruct (Z.ltb_spec p 0) as [Hp|Hp].
  - destruct (B Hp) as [B1 B2]. destruct (Z.ltb_spec r 0) as [Hr|Hr].
    + exfalso. specialize (B1 Hr). rewrite upper_val in B1. clear B2 A B Hf. lia.
    + f_equal. auto.
  - rewrite (A Hp). destruct (Z.ltb_spec p 0); [lia|]. reflexivity.
Qed.

Lemma while_neg_rem : forall p,
  exists q, while_neg p = Some q /\ 0 <= q /\ Z.rem q kPcrUpperBound = p mod pcr_cycle.
Proof.
  intros p. eexists. split; [apply while_neg_spec|].
  pose proof (Z.mod_pos_bound p pcr_cycle ltac:(rewrite cycle_val; lia)).
  destruct (Z.ltb_spec p 0); (split; [lia|]).
  - rewrite Z.rem_mod_nonneg by (rewrite ?upper_val; lia). rewrite <- cycle_eq. apply Z.mod_small. lia.
  - rewrite Z.rem_mod_nonneg by (rewrite ?upper_val; lia). reflexivity.
Qed.

Lemma TimeToPcr_ok : forall b time,
  bl_IsReady b = true -> IsValidPcr (bl_pcr b) = true ->
  27000 * Z.abs (time - bl_time b) <= 2 ^ 63 - pcr_cycle ->
  bl_TimeToPcr b time = Ok ((bl_pcr b + ticks_per_ms * (time - bl_time b)) mod pcr_cycle).
Proof.
  intros b time Hr Hv Hd. unfold bl_TimeToPcr, assert. rewrite Hr.
  apply valid_iff in Hv. rewrite cycle_val in Hd.
  rewrite i64_ok by (unfold int64_min, int64_max; lia). cbn [bind].
  rewrite ticks_val. rewrite i64_ok by (unfold int64_min, int64_max; lia). cbn [bind].
  rewrite cycle_val in Hv.
  assert (Hi : int64_min <= bl_pcr b + (time - bl_time b) * 27000 <= int64_max) by (unfold int64_min, int64_max; lia).
  rewrite i64_ok by exact Hi. cbn [bind].
  destruct (while_neg_rem (bl_pcr b + (time - bl_time b) * 27000)) as [q [Hq [Hq0 Hq1]]]. rewrite Hq.
  rewrite (proj2 (Z.leb_le 0 q) Hq0). rewrite Hq1. unfold ticks_per_ms. f_equal. f_equal. ring.
Qed.

Lemma TimeToPcr_overflow : forall b time,
  bl_IsReady b = true -> 2 ^ 63 < 27000 * Z.abs (time - bl_time b) ->
  bl_TimeToPcr b time = Fail Undefined.
Proof.
  intros b time Hr Hd. unfold bl_TimeToPcr, assert. rewrite Hr.
  unfold i64 at 1. destruct (in_i64 (time - bl_time b)); cbn [bind]; auto.
  unfold i64 at 1. rewrite ticks_val.
  assert (in_i64 ((time - bl_time b) * 27000) = false) as ->.
  { unfold in_i64, int64_min, int64_max. lia. }
  reflexivity.
Qed.

(** * PCR text *)

Lemma dec_digits_range : forall f n, 0 <= n -> Forall (fun d => 0 <= d < 10) (dec_digits f n).
Proof.
  induction f as [|f IH]; intros n Hn; cbn; [constructor|].
  destruct (Z.ltb_spec n 10); constructor; auto; lia || (apply IH; lia).
Qed.

Fixpoint value_rev (ds : list Z) : Z :=
  match ds with [] => 0 | d :: r => d + 10 * value_rev r end.

Lemma value_rev_app_zeros : forall ds k, value_rev (ds ++ repeat 0 k) = value_rev ds.
Proof.
  induction ds as [|d ds IH]; intros k; cbn.
  - induction k as [|k IHk]; cbn; auto. rewrite IHk. reflexivity.
  - rewrite IH. reflexivity.
Qed.

Lemma dec_digits_value : forall f n, 0 <= n < 10 ^ Z.of_nat f -> value_rev (dec_digits f n) = n.
Proof.
  induction f as [|f IH]; intros n Hn.
  - cbn in *. lia.
  - cbn [dec_digits]. destruct (Z.ltb_spec n 10); cbn [value_rev]; [lia|].
    rewrite IH; [lia|]. rewrite Nat2Z.inj_succ, Z.pow_succ_r in Hn by lia. lia.
Qed.

Lemma dec_digits_length : forall f n k, 0 <= n < 10 ^ Z.of_nat k -> (1 <= k)%nat -> (List.length (dec_digits f n) <= k)%nat.
Proof.
  induction f as [|f IH]; intros n k Hn Hk; cbn [dec_digits].
  - cbn. lia.
  - destruct (Z.ltb_spec n 10); cbn [List.length]; [lia|].
    destruct k as [|k]; [lia|]. rewrite Nat2Z.inj_succ, Z.pow_succ_r in Hn by lia.
    destruct k as [|k]; [cbn in Hn; lia|].
    specialize (IH (n / 10) (S k) ltac:(lia) ltac:(lia)). lia.
Qed.

Lemma jst_unix_roundtrip : forall j u, int64_min <= j <= int64_max ->
  ConvertJstTimeToUnixTime j = Ok u -> ConvertUnixTimeToJstTime u = Ok j.
Proof.
  intros j u Hj H. unfold ConvertUnixTimeToJstTime, ConvertJstTimeToUnixTime in *.
  apply bind_ok in H as [s [H1 H2]]. apply i64_inv in H1 as [-> H1]. apply i64_inv in H2 as [-> H2].
  replace (kJstTzOffset + (j - UnixEpoch - kJstTzOffset)) with (j - UnixEpoch) by lia.
  rewrite i64_ok by auto. cbn [bind]. replace (UnixEpoch + (j - UnixEpoch)) with j by lia. apply i64_ok; auto.
Qed.
