(** Lemmas about EIT sections, their keys and their documents. *)
From Coq Require Import ZArith List Bool Lia.
From Verif Require Import Base.Outcome Base.Util Model.Pcr Model.EitSection Model.EitCollector Spec.EitSpec.
Import ListNotations.
Open Scope Z_scope.

Ltac ib H := match type of H with
  | bind ?m _ = Ok _ => let E := fresh "E" in destruct m as [?|] eqn:E; [cbn [bind] in H|discriminate H]
  end.

(** * The service key *)

Lemma triple_fields : forall e,
  0 <= ei_nid e < 65536 -> 0 <= ei_tsid e < 65536 -> 0 <= ei_sid e < 65536 ->
  Z.shiftr (service_triple e) 48 = ei_nid e /\
  Z.land (Z.shiftr (service_triple e) 32) 0xFFFF = ei_tsid e /\
  Z.land (Z.shiftr (service_triple e) 16) 0xFFFF = ei_sid e.
Proof.
  intros e Hn Ht Hs. unfold service_triple.
  assert (small : forall x k, 0 <= x < 65536 -> 16 <= k -> Z.shiftr x k = 0).
  { intros x k Hx Hk. rewrite Z.shiftr_div_pow2 by lia. apply Z.div_small.
    split; [lia|]. apply Z.lt_le_trans with (2 ^ 16); [change (2^16) with 65536; lia|].
    apply Z.pow_le_mono_r; lia. }
  assert (mask : forall x, 0 <= x < 65536 -> Z.land x 0xFFFF = x).
  { intros x Hx. change 0xFFFF with (Z.ones 16). rewrite Z.land_ones by lia.
    apply Z.mod_small. change (2 ^ 16) with 65536. lia. }
  assert (high : forall x k, 16 <= k -> Z.land (Z.shiftl x k) 0xFFFF = 0).
  { intros x k Hk. change 0xFFFF with (Z.ones 16). rewrite Z.land_ones by lia.
    rewrite Z.shiftl_mul_pow2 by lia. replace k with ((k - 16) + 16) by lia.
    rewrite Z.pow_add_r by lia. rewrite Z.mul_assoc. apply Z.mod_mul. lia. }
  split; [|split]; rewrite !Z.shiftr_lor, ?Z.land_lor_distr_l.
  - rewrite Z.shiftr_shiftl_l by lia. rewrite Z.shiftr_shiftl_r by lia. rewrite Z.shiftr_shiftl_r by lia.
    change (48 - 48) with 0. change (48 - 32) with 16. change (48 - 16) with 32.
    rewrite (small (ei_tsid e)) by lia. rewrite (small (ei_sid e)) by lia.
    rewrite Z.shiftl_0_r, !Z.lor_0_r. reflexivity.
  - rewrite Z.shiftr_shiftl_l by lia. rewrite Z.shiftr_shiftl_l by lia. rewrite Z.shiftr_shiftl_r by lia.
    change (48 - 32) with 16. change (32 - 32) with 0. change (32 - 16) with 16.
    rewrite (small (ei_sid e)) by lia. rewrite high by lia. rewrite Z.shiftl_0_r, mask by lia.
    rewrite Z.lor_0_l. cbn [Z.land]. rewrite Z.lor_0_r. reflexivity.
  - rewrite Z.shiftr_shiftl_l by lia. rewrite Z.shiftr_shiftl_l by lia. rewrite Z.shiftr_shiftl_l by lia.
    change (48 - 16) with 32. change (32 - 16) with 16. change (16 - 16) with 0.
    rewrite !high by lia. rewrite Z.shiftl_0_r, mask by lia. reflexivity.
Qed.

Lemma triple_inj : forall a b,
  0 <= ei_nid a < 65536 -> 0 <= ei_tsid a < 65536 -> 0 <= ei_sid a < 65536 ->
  0 <= ei_nid b < 65536 -> 0 <= ei_tsid b < 65536 -> 0 <= ei_sid b < 65536 ->
  (service_triple a = service_triple b <->
   ei_nid a = ei_nid b /\ ei_tsid a = ei_tsid b /\ ei_sid a = ei_sid b).
Proof.
  intros a b A1 A2 A3 B1 B2 B3. split.
  - intros H. destruct (triple_fields a A1 A2 A3) as (P1 & P2 & P3).
    destruct (triple_fields b B1 B2 B3) as (Q1 & Q2 & Q3).
    rewrite H in P1, P2, P3. repeat split; congruence.
  - intros (H1 & H2 & H3). unfold service_triple. rewrite H1, H2, H3. reflexivity.
Qed.

(** * Reading the header *)

Lemma get8_ok : forall d n b, get8 d n = Ok b <-> znth n d = Some b.
Proof. intros. unfold get8. destruct (znth n d); split; intros; congruence. Qed.

Lemma get16_ok : forall d n w, get16 d n = Ok w <->
  exists a b, znth n d = Some a /\ znth (n + 1) d = Some b /\ w = a * 256 + b.
Proof.
  intros. unfold get16, get8. destruct (znth n d) as [a|]; cbn [bind].
  - destruct (znth (n + 1) d) as [b|]; cbn [bind].
    + split; [intros [= <-]; eauto|]. intros (x & y & [= ->] & [= ->] & ->). reflexivity.
    + split; [discriminate|]. intros (x & y & _ & H & _). discriminate.
  - split; [discriminate|]. intros (x & y & H & _). discriminate.
Qed.

Lemma six : forall (l : list Z), 6 <= zlen l ->
  exists a b c d e f r, l = a :: b :: c :: d :: e :: f :: r.
Proof.
  intros l H.
  do 6 (destruct l as [|? l]; [unfold zlen in H; cbn in H; lia|]).
  do 7 eexists. reflexivity.
Qed.

(** Everything known about the parsed section. *)
Definition parsed (s : section) (e : eit_section) : Prop :=
  ei_pid e = sn_pid s /\ ei_sid e = sn_ext s /\ ei_tid e = sn_tid s /\ ei_nid e = nid_of s /\
  ei_tsid e = tsid_of s /\ ei_last_tid e = last_tid_of s /\ ei_number e = sn_number s /\
  ei_last e = sn_last s /\ ei_seg_last e = seg_last_of s /\ ei_version e = sn_version s /\
  ei_data e = zdrop 6 (sn_payload s) ++ sn_crc s /\ ei_size e = (zlen (sn_payload s) - 6) mod 2 ^ 64.

Lemma EitSection_parsed : forall s, 6 <= zlen (sn_payload s) -> exists e, EitSection s = Ok e /\ parsed s e.
Proof.
  intros s H. destruct (six _ H) as (a & b & c & d & e & f & r & E).
  unfold EitSection. rewrite E. cbn. eexists. split; [reflexivity|].
  unfold parsed, nid_of, tsid_of, word, last_tid_of, seg_last_of. rewrite E. cbn.
  repeat split.
Qed.

Lemma EitSection_inv : forall s e, 6 <= zlen (sn_payload s) -> EitSection s = Ok e -> parsed s e.
Proof.
  intros s e H E. destruct (EitSection_parsed s H) as (e' & E' & P). congruence.
Qed.

Lemma wire_ranges : forall s e, wire s -> 6 <= zlen (sn_payload s) -> parsed s e ->
  0 <= ei_nid e < 65536 /\ 0 <= ei_tsid e < 65536 /\ 0 <= ei_sid e < 65536.
Proof.
  intros s e W H P. destruct W as (Wx & _ & _ & _ & _ & Wp & _).
  destruct P as (_ & P1 & _ & P2 & P3 & _).
  destruct (six _ H) as (a & b & c & d & e' & f & r & E).
  rewrite P1, P2, P3. unfold nid_of, tsid_of, word. rewrite E in *. cbn [nth].
  repeat match goal with X : Forall byte (_ :: _) |- _ => inversion X; clear X; subst end.
  unfold byte in *. lia.
Qed.

Lemma wire_key : forall a b ea eb, wire a -> wire b -> 6 <= zlen (sn_payload a) -> 6 <= zlen (sn_payload b) ->
  parsed a ea -> parsed b eb ->
  (service_triple ea = service_triple eb <-> service_of a = service_of b).
Proof.
  intros a b ea eb Wa Wb Ha Hb Pa Pb.
  destruct (wire_ranges _ _ Wa Ha Pa) as (A1 & A2 & A3).
  destruct (wire_ranges _ _ Wb Hb Pb) as (B1 & B2 & B3).
  rewrite triple_inj by auto.
  destruct Pa as (_ & P1 & _ & P2 & P3 & _). destruct Pb as (_ & Q1 & _ & Q2 & Q3 & _).
  unfold service_of, sid_of. rewrite P1, P2, P3, Q1, Q2, Q3.
  split; [intros (-> & -> & ->); reflexivity|]. intros [= -> -> ->]. auto.
Qed.

(** * Events *)

Lemma nibbles : forall b, byte b ->
  IsValidBCD b = ((b / 16 <? 10) && (b mod 16 <? 10)) /\ DecodeBCD b = b / 16 * 10 + b mod 16.
Proof.
  intros b Hb. unfold byte in Hb.
  assert (L : Z.land b 0x0F = b mod 16).
  { change 0x0F with (Z.ones 4). rewrite Z.land_ones by lia. reflexivity. }
  assert (S4 : Z.shiftr b 4 = b / 16).
  { rewrite Z.shiftr_div_pow2 by lia. reflexivity. }
  assert (H : Z.land b 0xF0 = b / 16 * 16).
  { assert (X : Z.lor (Z.land b 0xF0) (Z.land b 0x0F) = b).
    { rewrite <- Z.land_lor_distr_r. change (Z.lor 0xF0 0x0F) with (Z.ones 8).
      rewrite Z.land_ones by lia. apply Z.mod_small. change (2 ^ 8) with 256. lia. }
    assert (Y : Z.land b 0xF0 = Z.shiftl (Z.shiftr b 4) 4 ).
    { apply Z.bits_inj'. intros n Hn. rewrite Z.land_spec, Z.shiftl_spec by lia.
      destruct (Z.ltb_spec n 4).
      - rewrite (Z.testbit_neg_r _ (n - 4)) by lia.
        assert (C : n = 0 \/ n = 1 \/ n = 2 \/ n = 3) by lia.
        destruct C as [->|[->|[->| ->]]]; cbn; apply andb_false_r.
      - rewrite Z.shiftr_spec by lia. replace (n - 4 + 4) with n by lia.
        destruct (Z.ltb_spec n 8).
        + assert (C : n = 4 \/ n = 5 \/ n = 6 \/ n = 7) by lia.
          destruct C as [->|[->|[->| ->]]]; cbn; apply andb_true_r.
        + rewrite (Z.bits_above_log2 b n); [reflexivity|lia|].
          destruct (Z.eq_dec b 0) as [->|]; [cbn; lia|].
          apply Z.log2_lt_pow2; [lia|]. apply Z.lt_le_trans with (2 ^ 8); [change (2^8) with 256; lia|].
          apply Z.pow_le_mono_r; lia. }
    rewrite Y, Z.shiftl_mul_pow2 by lia. rewrite S4. reflexivity. }
  unfold IsValidBCD, DecodeBCD. rewrite L, S4, H. split; [|lia].
  f_equal. destruct (Z.ltb_spec (b / 16 * 16) 0xA0); destruct (Z.ltb_spec (b / 16) 10); try reflexivity; lia.
Qed.

Lemma jst_unix : forall t, 0 <= t < 2 ^ 44 -> ConvertJstTimeToUnixTime t = Ok (t - jst_unix_epoch).
Proof.
  intros t H. unfold ConvertJstTimeToUnixTime, jst_unix_epoch.
  change (2 ^ 44) with 17592186044416 in H.
  assert (B : int64_min <= t - UnixEpoch <= int64_max /\ int64_min <= t - UnixEpoch - kJstTzOffset <= int64_max).
  { unfold int64_min, int64_max, UnixEpoch, kJstTzOffset, MilliSecPerHour.
    change (2 ^ 63) with 9223372036854775808. lia. }
  rewrite i64_ok by tauto. cbn [bind]. rewrite i64_ok by tauto.
  f_equal. unfold UnixEpoch, kJstTzOffset, MilliSecPerHour. lia.
Qed.

Lemma twelve : forall (l : list Z), 12 <= zlen l ->
  exists a0 a1 a2 a3 a4 a5 a6 a7 a8 a9 a10 a11 r,
    l = a0 :: a1 :: a2 :: a3 :: a4 :: a5 :: a6 :: a7 :: a8 :: a9 :: a10 :: a11 :: r.
Proof.
  intros l H.
  do 12 (destruct l as [|? l]; [unfold zlen in H; cbn in H; lia|]).
  do 13 eexists. reflexivity.
Qed.

Lemma info_bits : forall a10 a11, byte a10 -> byte a11 ->
  Z.land (a10 * 256 + a11) 0x0FFF = a10 mod 16 * 256 + a11.
Proof.
  intros a10 a11 H1 H2. unfold byte in *. change 0x0FFF with (Z.ones 12).
  rewrite Z.land_ones by lia. change (2 ^ 12) with 4096.
  symmetry. apply Z.mod_unique with (a10 / 16); [left|]; [|].
  - pose proof (Z.mod_pos_bound a10 16). lia.
  - pose proof (Z.div_mod a10 16). lia.
Qed.

Lemma ca_bit : forall a10, byte a10 -> Z.testbit a10 4 = (a10 / 16 mod 2 =? 1).
Proof.
  intros a H. rewrite Z.testbit_eqb by lia. reflexivity.
Qed.

Lemma duration_shown : forall a7 a8 a9, byte a7 -> byte a8 -> byte a9 ->
  (if IsValidBCD a7 && IsValidBCD a8 && IsValidBCD a9
   then Some (DecodeBCD a7 * 3600000 + DecodeBCD a8 * 60000 + DecodeBCD a9 * 1000) else None)
  = length_of [a7; a8; a9].
Proof.
  intros a7 a8 a9 H7 H8 H9. unfold length_of, digits.
  destruct (nibbles a7 H7) as [-> ->]. destruct (nibbles a8 H8) as [-> ->]. destruct (nibbles a9 H9) as [-> ->].
  destruct ((a7 / 16 <? 10) && (a7 mod 16 <? 10)); cbn [andb]; [|reflexivity].
  destruct ((a8 / 16 <? 10) && (a8 mod 16 <? 10)); cbn [andb]; [|reflexivity].
  destruct ((a9 / 16 <? 10) && (a9 mod 16 <? 10)); cbn [andb]; [|reflexivity].
  f_equal. lia.
Qed.

(** The event that starts with twelve given bytes. *)
Definition read_event (a0 a1 a2 a3 a4 a5 a6 a7 a8 a9 a10 : Z) (descs : list Z) : event :=
  mkEv (a0 * 256 + a1) [a2; a3; a4; a5; a6] [a7; a8; a9] (a10 / 32) (a10 / 16 mod 2 =? 1) descs.

Section Events.
Variable mjd : list Z -> option Z.
Hypothesis Hmjd : sane_mjd mjd.

Lemma event_head_ok : forall a0 a1 a2 a3 a4 a5 a6 a7 a8 a9 a10 a11 r descs,
  byte a7 -> byte a8 -> byte a9 -> byte a10 -> byte a11 ->
  event_head mjd (a0 :: a1 :: a2 :: a3 :: a4 :: a5 :: a6 :: a7 :: a8 :: a9 :: a10 :: a11 :: r) =
  let ev := shown mjd (read_event a0 a1 a2 a3 a4 a5 a6 a7 a8 a9 a10 descs) in
  Ok (mkEvent (ev_id ev) (ev_start ev) (ev_duration ev) (ev_scrambled ev) [], a10 mod 16 * 256 + a11).
Proof.
  intros. unfold event_head.
  change (get16 (a0 :: a1 :: a2 :: a3 :: a4 :: a5 :: a6 :: a7 :: a8 :: a9 :: a10 :: a11 :: r) 0)
    with (Ok (a0 * 256 + a1)).
  change (get8 (a0 :: a1 :: a2 :: a3 :: a4 :: a5 :: a6 :: a7 :: a8 :: a9 :: a10 :: a11 :: r) 7) with (Ok a7).
  change (get8 (a0 :: a1 :: a2 :: a3 :: a4 :: a5 :: a6 :: a7 :: a8 :: a9 :: a10 :: a11 :: r) 8) with (Ok a8).
  change (get8 (a0 :: a1 :: a2 :: a3 :: a4 :: a5 :: a6 :: a7 :: a8 :: a9 :: a10 :: a11 :: r) 9) with (Ok a9).
  change (get8 (a0 :: a1 :: a2 :: a3 :: a4 :: a5 :: a6 :: a7 :: a8 :: a9 :: a10 :: a11 :: r) 10) with (Ok a10).
  change (get16 (a0 :: a1 :: a2 :: a3 :: a4 :: a5 :: a6 :: a7 :: a8 :: a9 :: a10 :: a11 :: r) 10)
    with (Ok (a10 * 256 + a11)).
  change (ztake 5 (zdrop 2 (a0 :: a1 :: a2 :: a3 :: a4 :: a5 :: a6 :: a7 :: a8 :: a9 :: a10 :: a11 :: r)))
    with [a2; a3; a4; a5; a6].
  cbn [bind]. unfold shown, read_event. cbn [en_id en_time en_duration en_ca ev_id ev_start ev_duration ev_scrambled].
  rewrite duration_shown by auto. rewrite info_bits by auto. rewrite ca_bit by auto.
  destruct (mjd [a2; a3; a4; a5; a6]) as [t|] eqn:E; cbn [bind]; [|reflexivity].
  rewrite (jst_unix t (Hmjd _ _ E)). reflexivity.
Qed.

Lemma read_event_ok : forall a0 a1 a2 a3 a4 a5 a6 a7 a8 a9 a10 a11 descs,
  byte a0 -> byte a1 -> byte a7 -> byte a8 -> byte a9 -> byte a10 -> byte a11 ->
  zlen descs = a10 mod 16 * 256 + a11 ->
  let ev := read_event a0 a1 a2 a3 a4 a5 a6 a7 a8 a9 a10 descs in
  event_ok ev /\
  encode ev = a0 :: a1 :: a2 :: a3 :: a4 :: a5 :: a6 :: a7 :: a8 :: a9 :: a10 :: a11 :: descs.
Proof.
  intros a0 a1 a2 a3 a4 a5 a6 a7 a8 a9 a10 a11 descs H0 H1 H7 H8 H9 H10 H11 L ev.
  pose proof (Z.mod_pos_bound a10 16). unfold ev, read_event.
  split.
  - unfold event_ok. cbn [en_id en_time en_duration en_status en_ca en_descs]. unfold byte in *.
    split; [lia|]. split; [reflexivity|]. split; [reflexivity|].
    split; [auto|]. split; [|lia].
    split; [apply Z.div_pos; lia|]. apply Z.div_lt_upper_bound; lia.
  - unfold encode. cbn [en_id en_time en_duration en_status en_ca en_descs app]. unfold byte in *.
    rewrite L.
    assert (E0 : (a0 * 256 + a1) / 256 = a0) by (rewrite Z.div_add_l by lia; rewrite Z.div_small by lia; lia).
    assert (E1 : (a0 * 256 + a1) mod 256 = a1).
    { rewrite Z.add_comm, Z.mod_add by lia. apply Z.mod_small; lia. }
    assert (E2 : (a10 mod 16 * 256 + a11) / 256 = a10 mod 16)
      by (rewrite Z.div_add_l by lia; rewrite Z.div_small by lia; lia).
    assert (E3 : (a10 mod 16 * 256 + a11) mod 256 = a11).
    { rewrite Z.add_comm, Z.mod_add by lia. apply Z.mod_small; lia. }
    rewrite E0, E1, E2, E3.
    assert (E4 : a10 / 32 * 32 + (if a10 / 16 mod 2 =? 1 then 16 else 0) + a10 mod 16 = a10).
    { assert (A : a10 / 32 = a10 / 16 / 2) by (rewrite Z.div_div by lia; reflexivity).
      pose proof (Z.div_mod a10 16). pose proof (Z.div_mod (a10 / 16) 2).
      pose proof (Z.mod_pos_bound (a10 / 16) 2). rewrite A.
      destruct (Z.eqb_spec (a10 / 16 mod 2) 1); lia. }
    rewrite E4. reflexivity.
Qed.

(** Every event is the one read from its own encoding. *)
Lemma encode_read : forall e, event_ok e -> exists a0 a1 a2 a3 a4 a5 a6 a7 a8 a9 a10 a11,
  encode e = a0 :: a1 :: a2 :: a3 :: a4 :: a5 :: a6 :: a7 :: a8 :: a9 :: a10 :: a11 :: en_descs e /\
  e = read_event a0 a1 a2 a3 a4 a5 a6 a7 a8 a9 a10 (en_descs e) /\
  byte a7 /\ byte a8 /\ byte a9 /\ byte a10 /\ byte a11 /\
  zlen (en_descs e) = a10 mod 16 * 256 + a11.
Proof.
  intros [id time dur st ca descs] (H1 & H2 & H3 & H4 & H5 & H6).
  cbn [en_id en_time en_duration en_status en_ca en_descs] in *.
  pose proof (zlen_nonneg _ descs) as HL.
  destruct time as [|t0 [|t1 [|t2 [|t3 [|t4 [|t5 time]]]]]]; try (exfalso; unfold zlen in H2; cbn in H2; lia).
  destruct dur as [|u0 [|u1 [|u2 [|u3 dur]]]]; try (exfalso; unfold zlen in H3; cbn in H3; lia).
  unfold encode. cbn [en_id en_time en_duration en_status en_ca en_descs app].
  set (n := zlen descs) in *.
  assert (Hq : 0 <= n / 256 < 16).
  { split; [apply Z.div_pos; lia|apply Z.div_lt_upper_bound; lia]. }
  pose proof (Z.mod_pos_bound n 256) as Hm.
  repeat match goal with X : Forall byte (_ :: _) |- _ => inversion X; clear X; subst end.
  set (b := st * 32 + (if ca then 16 else 0) + n / 256).
  assert (B1 : b mod 16 = n / 256).
  { unfold b. symmetry. apply Z.mod_unique with (st * 2 + (if ca then 1 else 0)); [left; lia|]. destruct ca; lia. }
  assert (B2 : b / 16 = st * 2 + (if ca then 1 else 0)).
  { unfold b. symmetry. apply Z.div_unique with (n / 256); [left; lia|]. destruct ca; lia. }
  assert (B3 : b / 32 = st).
  { replace 32 with (16 * 2) by lia. rewrite <- Z.div_div by lia. rewrite B2.
    symmetry. apply Z.div_unique with (if ca then 1 else 0); [left; destruct ca; lia|]. lia. }
  assert (B4 : (b / 16 mod 2 =? 1) = ca).
  { rewrite B2. rewrite Z.add_comm, Z.mod_add by lia. destruct ca; reflexivity. }
  do 12 eexists. split; [reflexivity|].
  unfold read_event. rewrite B3, B4, B1.
  split; [f_equal; pose proof (Z.div_mod id 256); lia|].
  do 3 (split; [assumption|]).
  split; [unfold byte, b; destruct ca; lia|]. split; [unfold byte; lia|].
  pose proof (Z.div_mod n 256). lia.
Qed.

Lemma events_loop_roundtrip : forall evs fuel rest crc,
  Forall event_ok evs -> zlen rest < 12 -> (length evs < fuel)%nat ->
  zlen (concat (map encode evs) ++ rest) < 2 ^ 64 ->
  events_loop mjd fuel ((concat (map encode evs) ++ rest) ++ crc) (zlen (concat (map encode evs) ++ rest))
  = Ok (map (shown mjd) evs).
Proof.
  induction evs as [|e evs IH]; intros fuel rest crc Hok Hr Hf Hz.
  - destruct fuel as [|fuel]; [lia|]. cbn [map concat app]. cbn [events_loop]. unfold EIT_EVENT_FIXED_SIZE.
    destruct (Z.ltb_spec (zlen rest) 12); [reflexivity|lia].
  - destruct fuel as [|fuel]; [cbn in Hf; lia|]. inversion Hok as [|? ? He Hevs]; subst.
    destruct (encode_read e He) as (a0&a1&a2&a3&a4&a5&a6&a7&a8&a9&a10&a11&E&R&b7&b8&b9&b10&b11&L).
    cbn [map concat] in *. rewrite E in *. rewrite <- !app_assoc in *.
    set (tl := concat (map encode evs) ++ rest) in *.
    replace (concat (map encode evs) ++ rest ++ crc) with (tl ++ crc) by (unfold tl; rewrite <- app_assoc; reflexivity).
    cbn [app] in *. rewrite !zlen_cons in *. rewrite zlen_app in *.
    pose proof (zlen_nonneg _ (en_descs e)) as N1. pose proof (zlen_nonneg _ tl) as N2.
    pose proof (zlen_nonneg _ crc) as N3.
    cbn [events_loop]. unfold EIT_EVENT_FIXED_SIZE.
    match goal with |- context [?x <? 12] => destruct (Z.ltb_spec x 12) as [X|X]; [lia|clear X] end.
    rewrite (event_head_ok a0 a1 a2 a3 a4 a5 a6 a7 a8 a9 a10 a11 _ (en_descs e)) by auto.
    cbn zeta. cbn [bind]. rewrite !zlen_cons.
    rewrite <- R, <- L.
    match goal with |- context [?x <? 12] => destruct (Z.ltb_spec x 12) as [X|X] end;
      [rewrite !zlen_app in X; lia|clear X].
    match goal with |- context [zdrop 12 ?x] => change (zdrop 12 x) with (en_descs e ++ tl ++ crc) end.
    match goal with |- context [?x <? zlen (en_descs e)] => destruct (Z.ltb_spec x (zlen (en_descs e))) as [X|X] end;
      [rewrite !zlen_app in X; lia|clear X].
    rewrite zdrop_app_ge by lia. rewrite Z.sub_diag, zdrop_0 by lia.
    rewrite ztake_app_le by lia. rewrite ztake_all by lia.
    match goal with |- context [events_loop mjd fuel (tl ++ crc) ?r] => replace r with (zlen tl) end.
    2:{ match goal with |- _ = ?x mod _ => replace x with (zlen tl) by lia end.
        rewrite Z.mod_small; [reflexivity|lia]. }
    pose proof (IH fuel rest crc) as IH'. fold tl in IH'.
    rewrite IH' by (auto; try (cbn in Hf; lia); lia).
    cbn [bind]. reflexivity.
Qed.

(** The loop either finds a decomposition into events, or leaves the section. *)
Lemma events_loop_inv : forall fuel p crc docs,
  Forall byte p -> zlen crc < 12 -> zlen p < 2 ^ 64 ->
  events_loop mjd fuel (p ++ crc) (zlen p) = Ok docs ->
  exists evs rest, p = concat (map encode evs) ++ rest /\ Forall event_ok evs /\ zlen rest < 12 /\
    docs = map (shown mjd) evs.
Proof.
  induction fuel as [|fuel IH]; intros p crc docs Hb Hc Hz H; [discriminate|].
  cbn [events_loop] in H. unfold EIT_EVENT_FIXED_SIZE in H.
  destruct (Z.ltb_spec (zlen p) 12) as [S|S].
  - injection H as <-. exists [], p. cbn. auto.
  - destruct (twelve _ S) as (a0&a1&a2&a3&a4&a5&a6&a7&a8&a9&a10&a11&r&E).
    subst p. cbn [app] in H.
    repeat match goal with X : Forall byte (_ :: _) |- _ =>
      let A := fresh "B" in let B := fresh "X" in inversion X as [|? ? A B]; clear X; subst end.
    rewrite (event_head_ok a0 a1 a2 a3 a4 a5 a6 a7 a8 a9 a10 a11 _ []) in H by auto.
    cbn zeta in H. cbn [bind] in H. rewrite !zlen_cons in *.
    match type of H with context [?x <? 12] => destruct (Z.ltb_spec x 12) as [Y|Y]; [discriminate|clear Y] end.
    match type of H with context [zdrop 12 ?x] => change (zdrop 12 x) with (r ++ crc) in H end.
    set (info := a10 mod 16 * 256 + a11) in *.
    assert (Hinfo : 0 <= info < 4096).
    { unfold info, byte in *. pose proof (Z.mod_pos_bound a10 16). lia. }
    destruct (Z.ltb_spec (zlen (r ++ crc)) info) as [Y|Y]; [discriminate|].
    ib H.
    destruct (Z.leb_spec info (zlen r)) as [G|G].
    + rewrite zdrop_app_le in E by lia. rewrite ztake_app_le in H by lia.
      match type of E with events_loop _ _ _ (?x mod _) = _ => replace x with (zlen (zdrop info r)) in E end.
      2:{ rewrite zlen_zdrop. pose proof (zlen_nonneg _ r). lia. }
      assert (N : 0 <= zlen (zdrop info r) <= zlen r).
      { split; [apply zlen_nonneg|]. rewrite zlen_zdrop. pose proof (zlen_nonneg _ r). lia. }
      rewrite Z.mod_small in E by lia.
      assert (Hb' : Forall byte (zdrop info r)).
      { match goal with X : Forall byte r |- _ => rewrite <- (ztake_zdrop _ info r) in X; apply Forall_app in X; tauto end. }
      destruct (IH _ _ _ Hb' Hc ltac:(lia) E) as (evs & rest & P & Q & R & S').
      assert (L : zlen (ztake info r) = info).
      { rewrite zlen_ztake. lia. }
      exists (read_event a0 a1 a2 a3 a4 a5 a6 a7 a8 a9 a10 (ztake info r) :: evs), rest.
      destruct (read_event_ok a0 a1 a2 a3 a4 a5 a6 a7 a8 a9 a10 a11 (ztake info r)) as [K1 K2]; auto.
      split; [|split; [constructor; auto|split; [auto|]]].
      * cbn [map concat]. rewrite K2. cbn [app]. repeat f_equal.
        rewrite <- app_assoc, <- P. symmetry. apply ztake_zdrop.
      * injection H as <-. rewrite S'. reflexivity.
    + exfalso.
      rewrite zdrop_app_ge in E by lia.
      match type of E with events_loop _ _ _ ?x = _ => set (rem := x) in E end.
      assert (Hrem : 12 <= rem).
      { unfold rem. match goal with |- _ <= ?x mod _ => replace (x mod 2 ^ 64) with (x + 2 ^ 64) end.
        2:{ apply Z.mod_unique with (-1); [left|]; pose proof (zlen_nonneg _ r);
            change (2 ^ 64) with 18446744073709551616; lia. }
        change (2 ^ 64) with 18446744073709551616. pose proof (zlen_nonneg _ r). lia. }
      destruct fuel as [|fuel]; [discriminate|].
      cbn [events_loop] in E. unfold EIT_EVENT_FIXED_SIZE in E.
      destruct (Z.ltb_spec rem 12); [lia|]. ib E.
      match type of E with context [let (_, _) := ?x in _] => destruct x end.
      match type of E with context [?x <? 12] => destruct (Z.ltb_spec x 12) as [Z1|Z1]; [discriminate|] end.
      rewrite zlen_zdrop in Z1. pose proof (zlen_nonneg _ crc). lia.
Qed.

End Events.

(** * Whole sections *)

Section Docs.
Variable mjd : list Z -> option Z.

Lemma get8_fail : forall d n f, get8 d n = Fail f -> f = Undefined.
Proof. intros d n f H. unfold get8 in H. destruct (znth n d); congruence. Qed.

Lemma get16_fail : forall d n f, get16 d n = Fail f -> f = Undefined.
Proof.
  intros d n f H. unfold get16 in H.
  destruct (get8 d n) eqn:E1; cbn [bind] in H; [|injection H as <-; eauto using get8_fail].
  destruct (get8 d (n + 1)) eqn:E2; cbn [bind] in H; [discriminate|injection H as <-; eauto using get8_fail].
Qed.

Lemma i64_fail : forall z f, i64 z = Fail f -> f = Undefined.
Proof. intros z f H. unfold i64 in H. destruct (in_i64 z); congruence. Qed.

Lemma event_head_fail : forall d f, event_head mjd d = Fail f -> f = Undefined.
Proof.
  intros d f H. unfold event_head in H.
  repeat match type of H with
  | bind (get8 ?a ?b) _ = _ => destruct (get8 a b) eqn:?; cbn [bind] in H; [|injection H as <-; eauto using get8_fail]
  | bind (get16 ?a ?b) _ = _ => destruct (get16 a b) eqn:?; cbn [bind] in H; [|injection H as <-; eauto using get16_fail]
  end.
  destruct (mjd _); cbn [bind] in H; [|discriminate].
  unfold ConvertJstTimeToUnixTime in H.
  match type of H with context [i64 ?x] => destruct (i64 x) eqn:E1 end; cbn [bind] in H;
    [|injection H as <-; eauto using i64_fail].
  match type of H with context [i64 ?x] => destruct (i64 x) eqn:E2 end; cbn [bind] in H;
    [discriminate|injection H as <-; eauto using i64_fail].
Qed.

Lemma events_loop_fail : forall fuel d r f, events_loop mjd fuel d r = Fail f -> f = Undefined.
Proof.
  induction fuel as [|fuel IH]; intros d r f H; [cbn in H; congruence|].
  cbn [events_loop] in H. destruct (r <? _); [discriminate|].
  destruct (event_head mjd d) as [[ev n]|] eqn:E; cbn [bind] in H; [|injection H as <-; eauto using event_head_fail].
  destruct (_ <? _); [congruence|]. destruct (_ <? _); [congruence|].
  match type of H with context [events_loop mjd fuel ?a ?b] => destruct (events_loop mjd fuel a b) eqn:E2 end;
    cbn [bind] in H; [discriminate|injection H as <-; eauto].
Qed.

Lemma len_concat_encode : forall evs, (length evs <= length (concat (map encode evs)))%nat.
Proof.
  induction evs as [|e evs IH]; cbn [map concat length]; [lia|].
  rewrite app_length. unfold encode at 1. cbn [app length]. lia.
Qed.

Hypothesis Hmjd : sane_mjd mjd.

Lemma doc_consistent : forall s e ts n sl lt evs rest,
  zlen (sn_payload s) < 4096 -> EitSection s = Ok e -> consists s ts n sl lt evs rest ->
  MakeEitJson mjd e = Ok (mkEitDoc n ts (sn_ext s) (sn_tid s) (sn_number s) (sn_last s) sl (sn_version s)
                            (map (shown mjd) evs)).
Proof.
  intros s e ts n sl lt evs rest Hl He (P & Hts & Hn & Hok & Hr).
  assert (H6 : 6 <= zlen (sn_payload s)).
  { rewrite P, zlen_app. change (zlen [_; _; _; _; _; _]) with 6. pose proof (zlen_nonneg _ (concat (map encode evs) ++ rest)). lia. }
  pose proof (EitSection_inv _ _ H6 He) as (_ & Q2 & Q3 & Q4 & Q5 & _ & Q7 & Q8 & Q9 & Q10 & Q11 & Q12).
  unfold MakeEitJson, MakeEventsJsonValue.
  assert (D : ei_data e = (concat (map encode evs) ++ rest) ++ sn_crc s).
  { rewrite Q11, P. reflexivity. }
  assert (Z0 : zlen (sn_payload s) = 6 + zlen (concat (map encode evs) ++ rest)).
  { rewrite P, zlen_app. reflexivity. }
  assert (S : ei_size e = zlen (concat (map encode evs) ++ rest)).
  { rewrite Q12, Z0. replace (6 + _ - 6) with (zlen (concat (map encode evs) ++ rest)) by lia.
    apply Z.mod_small. pose proof (zlen_nonneg _ (concat (map encode evs) ++ rest)).
    change (2 ^ 64) with 18446744073709551616. lia. }
  rewrite D, S. rewrite events_loop_roundtrip; auto.
  - cbn [bind]. rewrite Q2, Q3, Q4, Q5, Q7, Q8, Q9, Q10.
    unfold nid_of, tsid_of, seg_last_of, word. rewrite P. cbn [app nth].
    pose proof (Z.div_mod ts 256). pose proof (Z.div_mod n 256).
    replace (n / 256 * 256 + n mod 256) with n by lia.
    replace (ts / 256 * 256 + ts mod 256) with ts by lia. reflexivity.
  - rewrite !app_length. pose proof (len_concat_encode evs). lia.
  - change (2 ^ 64) with 18446744073709551616. lia.
Qed.

Lemma doc_inv : forall s e d, wire s -> 6 <= zlen (sn_payload s) -> EitSection s = Ok e ->
  MakeEitJson mjd e = Ok d -> describes mjd s d.
Proof.
  intros s e d W H6 He H.
  destruct W as (_ & _ & _ & _ & _ & Wp & Wl & Wc).
  pose proof (EitSection_inv _ _ H6 He) as (_ & Q2 & Q3 & Q4 & Q5 & _ & Q7 & Q8 & Q9 & Q10 & Q11 & Q12).
  unfold MakeEitJson in H. destruct (MakeEventsJsonValue mjd e) as [docs|] eqn:E; cbn [bind] in H; [|discriminate].
  injection H as <-. unfold MakeEventsJsonValue in E.
  destruct (six _ H6) as (a & b & c & d & e' & f & r & P).
  assert (D : ei_data e = r ++ sn_crc s) by (rewrite Q11, P; reflexivity).
  assert (Z0 : zlen (sn_payload s) = 6 + zlen r) by (rewrite P, !zlen_cons; lia).
  assert (S : ei_size e = zlen r).
  { rewrite Q12, Z0. replace (6 + _ - 6) with (zlen r) by lia.
    apply Z.mod_small. pose proof (zlen_nonneg _ r). change (2 ^ 64) with 18446744073709551616. lia. }
  rewrite D, S in E. rewrite P in Wp.
  repeat match goal with X : Forall byte (_ :: _) |- _ =>
      let A := fresh "B" in let B := fresh "X" in inversion X as [|? ? A B]; clear X; subst end.
  apply events_loop_inv in E; auto; [|lia|change (2 ^ 64) with 18446744073709551616; lia].
  destruct E as (evs & rest & R1 & R2 & R3 & ->).
  unfold byte in *.
  assert (X1 : forall x y, 0 <= x < 256 -> 0 <= y < 256 -> (x * 256 + y) / 256 = x /\ (x * 256 + y) mod 256 = y).
  { intros x y Hx Hy. rewrite Z.div_add_l by lia. rewrite Z.div_small by lia.
    split; [lia|]. rewrite Z.add_comm, Z.mod_add by lia. apply Z.mod_small; lia. }
  exists (a * 256 + b), (c * 256 + d), e', f, evs, rest.
  destruct (X1 a b) as [Y1 Y2]; auto. destruct (X1 c d) as [Y3 Y4]; auto.
  split.
  - unfold consists. rewrite Y1, Y2, Y3, Y4, P, R1.
    split; [reflexivity|]. split; [lia|]. split; [lia|]. auto.
  - rewrite Q2, Q3, Q4, Q5, Q7, Q8, Q9, Q10. unfold nid_of, tsid_of, seg_last_of, word. rewrite P.
    reflexivity.
Qed.

(** Any section: a document if the length fields are consistent, otherwise an
    access outside the section. *)
Lemma doc_cases : forall s e, wire s -> 6 <= zlen (sn_payload s) -> EitSection s = Ok e ->
  (consistent s /\ exists d, MakeEitJson mjd e = Ok d /\ describes mjd s d) \/
  (~ consistent s /\ MakeEitJson mjd e = Fail Undefined).
Proof.
  intros s e W H6 He. destruct (MakeEitJson mjd e) as [d|f] eqn:E.
  - left. pose proof (doc_inv _ _ _ W H6 He E) as D. split; [|eauto].
    destruct D as (ts & n & sl & lt & evs & rest & C & _). unfold consistent. eauto 10.
  - right. split.
    + intros (ts & n & sl & lt & evs & rest & C).
      destruct W as (_ & _ & _ & _ & _ & _ & Wl & _).
      rewrite (doc_consistent _ _ _ _ _ _ _ _ Wl He C) in E. discriminate.
    + f_equal. unfold MakeEitJson in E. unfold MakeEventsJsonValue in E.
      match type of E with context [events_loop mjd ?x ?a ?b] => destruct (events_loop mjd x a b) eqn:E2 end;
        cbn [bind] in E; [discriminate|]. injection E as <-. eauto using events_loop_fail.
Qed.

End Docs.
