(** The text form of a PCR. *)
From Coq Require Import ZArith Lia List Bool Ascii String ZifyBool.
From Verif Require Import Base.Outcome Base.Util Model.Pcr Spec.PcrSpec Proofs.PcrProofs.
Import ListNotations.
Open Scope Z_scope.
Ltac Zify.zify_post_hook ::= Z.div_mod_to_equations.

Fixpoint fixedR (w : nat) (n : Z) : list Z :=
  match w with O => [] | S w => n mod 10 :: fixedR w (n / 10) end.

Fixpoint fixedM (w : nat) (n : Z) : string :=
  match w with
  | O => EmptyString
  | S w => String (digit_char (n / 10 ^ Z.of_nat w)) (fixedM w (n mod 10 ^ Z.of_nat w))
  end.

Lemma fixedR_zero : forall w, fixedR w 0 = repeat 0 w.
Proof. induction w; cbn; [auto|]. f_equal. exact IHw. Qed.

Lemma dec_fixedR : forall f n w, 0 <= n < 10 ^ Z.of_nat w -> n < 10 ^ Z.of_nat f -> (1 <= w)%nat -> (1 <= f)%nat ->
  dec_digits f n ++ repeat 0 (w - List.length (dec_digits f n)) = fixedR w n.
Proof.
  induction f as [|f IH]; intros n w Hn Hf Hw Hf1; [lia|]. cbn [dec_digits].
  destruct w as [|w]; [lia|]. cbn [fixedR].
  destruct (Z.ltb_spec n 10) as [H|H].
  - cbn [List.length app]. replace (S w - 1)%nat with w by lia.
    rewrite Z.mod_small by lia. rewrite Z.div_small by lia. rewrite fixedR_zero. reflexivity.
  - cbn [List.length app]. f_equal.
    rewrite Nat2Z.inj_succ, Z.pow_succ_r in Hn by lia. rewrite Nat2Z.inj_succ, Z.pow_succ_r in Hf by lia.
    destruct w as [|w]; [cbn in Hn; lia|]. destruct f as [|f]; [cbn in Hf; lia|].
    rewrite <- (IH (n / 10) (S w)); try lia. f_equal.
Qed.

Lemma str_app_nil : forall s, (s ++ "")%string = s.
Proof. induction s; cbn; congruence. Qed.
Lemma str_app_assoc : forall a b c, ((a ++ b) ++ c)%string = (a ++ (b ++ c))%string.
Proof. induction a; intros; cbn; congruence. Qed.

Lemma fixedM_snoc : forall w n, 0 <= n < 10 ^ Z.of_nat (S w) ->
  fixedM (S w) n = (fixedM w (n / 10) ++ String (digit_char (n mod 10)) "")%string.
Proof.
  induction w as [|w IH]; intros n Hn.
  - cbn. rewrite Z.div_1_r. rewrite Z.mod_small; [reflexivity|]. cbn in Hn. lia.
  - change (fixedM (S (S w)) n) with
      (String (digit_char (n / 10 ^ Z.of_nat (S w))) (fixedM (S w) (n mod 10 ^ Z.of_nat (S w)))).
    rewrite IH by (apply Z.mod_pos_bound; lia).
    change (fixedM (S w) (n / 10)) with
      (String (digit_char (n / 10 / 10 ^ Z.of_nat w)) (fixedM w ((n / 10) mod 10 ^ Z.of_nat w))).
    cbn [append].
    assert (Hp : 10 ^ Z.of_nat (S w) = 10 * 10 ^ Z.of_nat w) by (rewrite Nat2Z.inj_succ, Z.pow_succ_r by lia; reflexivity).
    assert (Hpos : 0 < 10 ^ Z.of_nat w) by lia.
    rewrite Hp. rewrite Z.div_div by lia. f_equal.
    assert (E : n mod (10 * 10 ^ Z.of_nat w) = n mod 10 + 10 * ((n / 10) mod 10 ^ Z.of_nat w)) by (apply Z.rem_mul_r; lia).
    rewrite E. f_equal.
    + f_equal. rewrite Z.add_comm, Z.mul_comm, Z.div_add_l by lia. rewrite (Z.div_small (n mod 10)) by (apply Z.mod_pos_bound; lia). lia.
    + f_equal. f_equal. rewrite Z.add_comm, Z.mul_comm. rewrite Z.add_comm, Z.mod_add by lia. apply Z.mod_mod. lia.
Qed.

Lemma string_of_rev_fixed : forall w n acc, 0 <= n < 10 ^ Z.of_nat w ->
  string_of_rev (fixedR w n) acc = (fixedM w n ++ acc)%string.
Proof.
  induction w as [|w IH]; intros n acc Hn; [reflexivity|].
  cbn [fixedR string_of_rev]. rewrite Nat2Z.inj_succ, Z.pow_succ_r in Hn by lia.
  rewrite IH by lia. rewrite fixedM_snoc by (rewrite Nat2Z.inj_succ, Z.pow_succ_r by lia; lia).
  rewrite str_app_assoc. reflexivity.
Qed.

Lemma fmt_dec_fixed : forall w n, (1 <= w <= 20)%nat -> 0 <= n < 10 ^ Z.of_nat w -> fmt_dec w n = fixedM w n.
Proof.
  intros w n Hw Hn. unfold fmt_dec.
  rewrite (dec_fixedR 20 n w); try lia.
  - rewrite string_of_rev_fixed by lia. apply str_app_nil.
  - assert (10 ^ Z.of_nat w <= 10 ^ 20) by (apply Z.pow_le_mono_r; lia). lia.
Qed.

Lemma fixedM_length : forall w n, String.length (fixedM w n) = w.
Proof. induction w; intros; cbn; auto. Qed.

Lemma char_val_digit : forall d, 0 <= d <= 9 -> char_val (digit_char d) = d.
Proof.
  intros d H. unfold char_val, digit_char. rewrite nat_ascii_embedding; lia.
Qed.

Lemma digit_compare : forall a b, 0 <= a <= 9 -> 0 <= b <= 9 ->
  Ascii.compare (digit_char a) (digit_char b) = Z.compare a b.
Proof.
  intros a b Ha Hb.
  assert (a = 0 \/ a = 1 \/ a = 2 \/ a = 3 \/ a = 4 \/ a = 5 \/ a = 6 \/ a = 7 \/ a = 8 \/ a = 9) as HA by lia.
  assert (b = 0 \/ b = 1 \/ b = 2 \/ b = 3 \/ b = 4 \/ b = 5 \/ b = 6 \/ b = 7 \/ b = 8 \/ b = 9) as HB by lia.
  repeat (destruct HA as [->|HA]; [repeat (destruct HB as [->|HB]; [reflexivity|]); subst b; reflexivity|]).
  subst a. repeat (destruct HB as [->|HB]; [reflexivity|]); subst b; reflexivity.
Qed.

Lemma div_digit : forall w n, 0 <= n < 10 ^ Z.of_nat (S w) -> 0 <= n / 10 ^ Z.of_nat w <= 9.
Proof.
  intros w n H. rewrite Nat2Z.inj_succ, Z.pow_succ_r in H by lia.
  assert (0 < 10 ^ Z.of_nat w) by lia. split; [apply Z.div_pos; lia|].
  assert (n / 10 ^ Z.of_nat w < 10) by (apply Z.div_lt_upper_bound; lia). lia.
Qed.

Lemma fixedM_compare : forall w a b s t, 0 <= a < 10 ^ Z.of_nat w -> 0 <= b < 10 ^ Z.of_nat w ->
  String.compare (fixedM w a ++ s) (fixedM w b ++ t) =
    match Z.compare a b with Eq => String.compare s t | c => c end.
Proof.
  induction w as [|w IH]; intros a b s t Ha Hb.
  - cbn in Ha, Hb. replace a with 0 by lia. replace b with 0 by lia. reflexivity.
  - cbn [fixedM append String.compare].
    rewrite digit_compare by (apply div_digit; auto).
    assert (Hpos : 0 < 10 ^ Z.of_nat w) by lia.
    rewrite IH by (apply Z.mod_pos_bound; lia).
    pose proof (Z.div_mod a _ (Z.neq_sym _ _ (Z.lt_neq _ _ Hpos))).
    pose proof (Z.div_mod b _ (Z.neq_sym _ _ (Z.lt_neq _ _ Hpos))).
    pose proof (Z.mod_pos_bound a _ Hpos). pose proof (Z.mod_pos_bound b _ Hpos).
    set (P := 10 ^ Z.of_nat w) in *. clearbody P.
    set (qa := a / P) in *. set (qb := b / P) in *. set (ra := a mod P) in *. set (rb := b mod P) in *.
    clearbody qa qb ra rb. subst a b.
    destruct (Z.compare_spec qa qb).
    + subst qb. destruct (Z.compare_spec ra rb); destruct (Z.compare_spec (P * qa + ra) (P * qa + rb)); auto; lia.
    + destruct (Z.compare_spec (P * qa + ra) (P * qb + rb)); auto; nia.
    + destruct (Z.compare_spec (P * qa + ra) (P * qb + rb)); auto; nia.
Qed.

Lemma fixedM_digits : forall w n, 0 <= n < 10 ^ Z.of_nat w -> all_digits (fixedM w n).
Proof.
  induction w as [|w IH]; intros n Hn; cbn [fixedM all_digits]; auto.
  split.
  - rewrite char_val_digit; apply div_digit; auto.
  - apply IH. apply Z.mod_pos_bound. lia.
Qed.

Lemma read_dec_fixed : forall w n acc, 0 <= n < 10 ^ Z.of_nat w ->
  read_dec_from acc (fixedM w n) = acc * 10 ^ Z.of_nat w + n.
Proof.
  induction w as [|w IH]; intros n acc Hn; cbn [fixedM read_dec_from].
  - cbn in *. lia.
  - rewrite char_val_digit by (apply div_digit; auto).
    assert (Hpos : 0 < 10 ^ Z.of_nat w) by lia.
    rewrite IH by (apply Z.mod_pos_bound; lia).
    rewrite Nat2Z.inj_succ, Z.pow_succ_r by lia.
    pose proof (Z.div_mod n _ (Z.neq_sym _ _ (Z.lt_neq _ _ Hpos))). nia.
Qed.

Lemma FormatPcr_fixed : forall p, IsValidPcr p = true ->
  FormatPcr p = Ok (fixedM 10 (p / 300) ++ "+" ++ fixedM 3 (p mod 300))%string.
Proof.
  intros p H. unfold FormatPcr, assert. rewrite H. apply valid_iff in H. rewrite cycle_val in H.
  unfold kMaxPcrExt. rewrite Z.quot_div_nonneg by lia. rewrite Z.rem_mod_nonneg by lia.
  rewrite !fmt_dec_fixed; auto; try lia; cbn; lia.
Qed.

Lemma FormatPcr_shape : forall p, 0 <= p < pcr_cycle ->
  exists b e, FormatPcr p = Ok (b ++ "+" ++ e)%string
    /\ String.length b = 10%nat /\ String.length e = 3%nat /\ all_digits b /\ all_digits e
    /\ p = 300 * read_dec b + read_dec e /\ read_dec e < 300.
Proof.
  intros p H. assert (Hv : IsValidPcr p = true) by (apply valid_iff; auto).
  exists (fixedM 10 (p / 300)), (fixedM 3 (p mod 300)). rewrite cycle_val in H.
  assert (0 <= p / 300 < 10 ^ Z.of_nat 10) by (cbn; lia).
  assert (0 <= p mod 300 < 10 ^ Z.of_nat 3) by (cbn; lia).
  split; [apply FormatPcr_fixed; auto|].
  rewrite !fixedM_length. unfold read_dec. rewrite !read_dec_fixed by auto. rewrite !Z.mul_0_l, !Z.add_0_l.
  split; [reflexivity|]. split; [reflexivity|]. split; [apply fixedM_digits; auto|]. split; [apply fixedM_digits; auto|].
  clear -H. lia.
Qed.

Lemma FormatPcr_invalid : forall p, ~ (0 <= p < pcr_cycle) -> FormatPcr p = Fail AssertFail.
Proof.
  intros p H. unfold FormatPcr, assert.
  destruct (IsValidPcr p) eqn:E; auto. apply valid_iff in E. tauto.
Qed.

Lemma FormatPcr_order : forall p q, 0 <= p < pcr_cycle -> 0 <= q < pcr_cycle ->
  exists s t, FormatPcr p = Ok s /\ FormatPcr q = Ok t /\ String.compare s t = Z.compare p q.
Proof.
  intros p q Hp Hq. rewrite !FormatPcr_fixed by (apply valid_iff; auto).
  do 2 eexists. split; [reflexivity|]. split; [reflexivity|].
  rewrite cycle_val in *.
  rewrite fixedM_compare by (cbn; lia).
  change ("+" ++ fixedM 3 (p mod 300))%string with (String "+" (fixedM 3 (p mod 300))).
  change ("+" ++ fixedM 3 (q mod 300))%string with (String "+" (fixedM 3 (q mod 300))).
  cbn [String.compare]. change (Ascii.compare "+" "+") with Eq.
  rewrite <- (str_app_nil (fixedM 3 (p mod 300))), <- (str_app_nil (fixedM 3 (q mod 300))).
  rewrite fixedM_compare by (cbn; lia).
  destruct (Z.compare_spec (p / 300) (q / 300)); destruct (Z.compare_spec (p mod 300) (q mod 300));
  destruct (Z.compare_spec p q); auto; lia.
Qed.
