From Coq Require Import String ZArith Lia List Bool.
From Verif Require Import Base.Outcome Base.Util Model.Descriptors Spec.DescriptorSpec.
Import ListNotations.
Local Open Scope list_scope.
Local Open Scope Z_scope.

Definition absorb (s : eed) (f : fragment) : eed :=
  let s1 := if is_empty (fst f) then s
            else if is_empty (eed_desc s) then s else mkEed [] [] (eed_out s ++ [(eed_desc s, eed_item s)]) in
  mkEed (eed_desc s1 ++ fst f) (eed_item s1 ++ snd f) (eed_out s1).

Lemma eed_eta : forall s, mkEed (eed_desc s) (eed_item s) (eed_out s) = s.
Proof. intros []. reflexivity. Qed.

Lemma empty_zlen : forall (l : list Z), (0 <? zlen l) = negb (is_empty l).
Proof. intros [|x l]; [reflexivity|]. cbn [is_empty negb]. apply Z.ltb_lt. rewrite zlen_cons. pose proof (zlen_nonneg _ l). lia. Qed.

Lemma zdrop_app_exact : forall A (a b : list A), zdrop (zlen a) (a ++ b) = b.
Proof. intros A a b. rewrite zdrop_app_ge by lia. rewrite Z.sub_diag, zdrop_0 by lia. reflexivity. Qed.
Lemma ztake_app_exact : forall A (a b : list A), ztake (zlen a) (a ++ b) = a.
Proof. intros A a b. rewrite ztake_app_le by lia. apply ztake_all. lia. Qed.

Lemma loop_frags : forall fs fuel tail s, Forall fits fs -> (List.length fs <= fuel)%nat ->
  eed_loop fuel (flat_map fragment_bytes fs ++ tail) (zlen (flat_map fragment_bytes fs)) s = Ok (fold_left absorb fs s).
Proof.
  induction fs as [|[d t] fs IH]; intros fuel tail s F L.
  - cbn [flat_map fold_left]. destruct fuel; reflexivity.
  - inversion F as [|? ? [Fd Ft] F']. subst. cbn [fst snd] in Fd, Ft. destruct fuel as [|fuel]; [cbn in L; lia|].
    cbn [List.length] in L. cbn [flat_map fold_left]. set (R := flat_map fragment_bytes fs) in *.
    pose proof (zlen_nonneg _ d) as Nd. pose proof (zlen_nonneg _ t) as Nt. pose proof (zlen_nonneg _ R) as NR.
    assert (ZL : zlen (fragment_bytes (d, t) ++ R) = 2 + zlen d + zlen t + zlen R).
    { unfold fragment_bytes. cbn [fst snd]. rewrite !zlen_app, !zlen_cons, !zlen_nil. lia. }
    rewrite ZL. cbn [eed_loop]. replace (2 + zlen d + zlen t + zlen R <? 2) with false by (symmetry; apply Z.ltb_ge; lia).
    assert (E : (fragment_bytes (d, t) ++ R) ++ tail = zlen d :: d ++ (zlen t :: t ++ R ++ tail)).
    { unfold fragment_bytes. cbn [fst snd app]. rewrite <- !app_assoc. reflexivity. }
    rewrite E. cbn [byte_at bind]. replace (Z.min (zlen d) (2 + zlen d + zlen t + zlen R - 1)) with (zlen d) by lia.
    assert (D1 : forall x (l : list Z), zdrop 1 (x :: l) = l) by reflexivity.
    rewrite D1. rewrite empty_zlen.
    set (s1 := if is_empty d then s
            else if is_empty (eed_desc s) then s else mkEed [] [] (eed_out s ++ [(eed_desc s, eed_item s)])).
    assert (STEP : (if negb (is_empty d)
      then
       let s1 := if negb (is_empty (eed_desc s)) then mkEed [] [] (eed_out s ++ [(eed_desc s, eed_item s)]) else s in
       let* b := bytes_at (d ++ zlen t :: t ++ R ++ tail) (zlen d) in
       Ok (zdrop (zlen d) (d ++ zlen t :: t ++ R ++ tail), 2 + zlen d + zlen t + zlen R - 1 - zlen d,
           mkEed (eed_desc s1 ++ b) (eed_item s1) (eed_out s1))
      else Ok (d ++ zlen t :: t ++ R ++ tail, 2 + zlen d + zlen t + zlen R - 1, s)) =
      Ok (zlen t :: t ++ R ++ tail, 1 + zlen t + zlen R, mkEed (eed_desc s1 ++ d) (eed_item s1) (eed_out s1))).
    { destruct d as [|x d]; cbn [is_empty negb].
      - unfold s1. cbn [is_empty app]. rewrite app_nil_r, eed_eta, zlen_nil. do 3 f_equal. 1: lia.
      - unfold bytes_at. replace (zlen (x :: d) <=? zlen ((x :: d) ++ zlen t :: t ++ R ++ tail)) with true.
        2:{ symmetry. apply Z.leb_le. rewrite zlen_app. pose proof (zlen_nonneg _ (zlen t :: t ++ R ++ tail)). lia. }
        cbn [bind]. rewrite ztake_app_exact, zdrop_app_exact.
        replace (2 + zlen (x :: d) + zlen t + zlen R - 1 - zlen (x :: d)) with (1 + zlen t + zlen R) by lia.
        unfold s1. cbn [is_empty]. destruct (is_empty (eed_desc s)); reflexivity. }
    cbv zeta in STEP |- *. rewrite STEP. cbn [bind].
    replace (1 + zlen t + zlen R <=? 0) with false by (symmetry; apply Z.leb_gt; lia).
    cbn [byte_at bind]. replace (Z.min (zlen t) (1 + zlen t + zlen R - 1)) with (zlen t) by lia.
    rewrite D1, empty_zlen. cbn [eed_desc eed_item eed_out].
    destruct t as [|x t]; cbn [is_empty negb].
    + change (zlen (@nil Z)) with 0. cbn [app]. replace (1 + 0 + zlen R - 1) with (zlen R) by lia.
      rewrite IH by (assumption || lia). do 2 f_equal. unfold absorb. cbn [fst snd]. fold s1. rewrite app_nil_r. reflexivity.
    + unfold bytes_at. replace (zlen (x :: t) <=? zlen ((x :: t) ++ R ++ tail)) with true.
      2:{ symmetry. apply Z.leb_le. rewrite zlen_app. pose proof (zlen_nonneg _ (R ++ tail)). lia. }
      cbn [bind]. rewrite ztake_app_exact, zdrop_app_exact.
      replace (1 + zlen (x :: t) + zlen R - 1 - zlen (x :: t)) with (zlen R) by lia.
      rewrite IH by (assumption || lia). reflexivity.
Qed.

Lemma frags_long : forall fs, (List.length fs <= Z.to_nat (zlen (flat_map fragment_bytes fs)))%nat.
Proof.
  intros fs. assert (H : Z.of_nat (List.length fs) <= zlen (flat_map fragment_bytes fs)).
  { induction fs as [|f fs IH]; [reflexivity|]. cbn [flat_map List.length]. rewrite zlen_app. unfold fragment_bytes at 1.
    rewrite !zlen_app, !zlen_cons, !zlen_nil. pose proof (zlen_nonneg _ (fst f)). pose proof (zlen_nonneg _ (snd f)). lia. }
  lia.
Qed.

Lemma step_ext : forall head fs tail s, zlen head = 4 -> Forall fits fs ->
  eed_step s (ext_descriptor head fs tail) = Ok (fold_left absorb fs s).
Proof.
  intros head fs tail s H F. unfold eed_step, ext_descriptor, ds_isValid, ds_tag, ds_payload. cbn [ds_mem app].
  rewrite Z.eqb_refl. cbn [negb Z.eqb DID_EXTENDED_EVENT Pos.eqb].
  change (zdrop 2 (78 :: zlen (ext_payload head fs tail) :: ext_payload head fs tail)) with (ext_payload head fs tail).
  unfold DID_EXTENDED_EVENT. cbn [Z.eqb Pos.eqb negb].
  assert (P : ext_payload head fs tail = head ++ zlen (flat_map fragment_bytes fs) :: (flat_map fragment_bytes fs ++ tail)) by reflexivity.
  replace (zlen (ext_payload head fs tail) <? 5) with false.
  2:{ symmetry. apply Z.ltb_ge. rewrite P, zlen_app, zlen_cons. pose proof (zlen_nonneg _ (flat_map fragment_bytes fs ++ tail)). lia. }
  assert (D4 : zdrop 4 (ext_payload head fs tail) = zlen (flat_map fragment_bytes fs) :: (flat_map fragment_bytes fs ++ tail)).
  { rewrite P, <- H. apply zdrop_app_exact. }
  assert (D5 : zdrop 5 (ext_payload head fs tail) = flat_map fragment_bytes fs ++ tail).
  { rewrite P. rewrite zdrop_app_ge by lia. rewrite H. reflexivity. }
  rewrite D4, D5. cbn [byte_at bind]. apply loop_frags; [exact F|apply frags_long].
Qed.

Lemma step_other : forall d s, not_extended d -> eed_step s d = Ok s.
Proof.
  intros [m] s H. unfold eed_step, ds_isValid, ds_tag, ds_payload. cbn [ds_mem].
  destruct m as [|t [|n r]]; [reflexivity|reflexivity|].
  destruct (n =? zlen r) eqn:E1; [|reflexivity]. cbn [negb]. destruct (t =? DID_EXTENDED_EVENT) eqn:E2; [|reflexivity].
  cbn [negb]. change (zdrop 2 (t :: n :: r)) with r. apply Z.eqb_eq in E1, E2. subst.
  destruct H as [H | [(t & k & p & Q & N) | (t & k & p & Q & N)]].
  - exfalso. apply (H (zlen r) r). reflexivity.
  - cbn [ds_mem] in Q. inversion Q. subst. contradiction.
  - cbn [ds_mem] in Q. inversion Q. subst. apply Z.ltb_lt in N. rewrite N. reflexivity.
Qed.

Lemma run_carries : forall ds fs, carries ds fs -> forall s, eed_run s ds = Ok (fold_left absorb fs s).
Proof.
  intros ds fs H. induction H as [|d ds fs N H IH|head gs tail ds fs HL F H IH]; intros s; cbn [eed_run].
  - reflexivity.
  - rewrite step_other by exact N. apply IH.
  - rewrite step_ext by assumption. cbn [bind]. rewrite IH, fold_left_app. reflexivity.
Qed.

Lemma absorb_more : forall more s, Forall (fun f => fst f = []) more ->
  fold_left absorb more s = mkEed (eed_desc s) (eed_item s ++ concat (map snd more)) (eed_out s).
Proof.
  induction more as [|[d t] more IH]; intros s F.
  - cbn. rewrite app_nil_r, eed_eta. reflexivity.
  - inversion F as [|? ? D F']. subst. cbn [fst] in D. subst d. cbn [fold_left map concat snd]. rewrite IH by exact F'.
    unfold absorb. cbn [fst snd is_empty eed_desc eed_item eed_out]. rewrite app_nil_r, app_assoc. reflexivity.
Qed.

Definition closing (s : eed) : list (list Z * list Z) :=
  if is_empty (eed_desc s) then eed_out s else eed_out s ++ [(eed_desc s, eed_item s)].

Lemma absorb_joined : forall fs items, joined fs items -> forall d t out, d <> [] ->
  closing (fold_left absorb fs (mkEed d t out)) = out ++ (d, t) :: items.
Proof.
  intros fs items J. induction J as [|d' t' more fs items D F J IH]; intros d t out N.
  - unfold closing. cbn. destruct d; [contradiction|]. reflexivity.
  - cbn [fold_left]. rewrite fold_left_app. unfold absorb at 3. cbn [fst snd eed_desc eed_item eed_out].
    destruct d' as [|x d']; [contradiction|]. cbn [is_empty]. destruct d as [|y d]; [contradiction|]. cbn [is_empty eed_desc eed_item eed_out app].
    rewrite (absorb_more more) by exact F. cbn [eed_desc eed_item eed_out]. rewrite IH by discriminate. rewrite <- app_assoc. reflexivity.
Qed.

Lemma items_all : forall ds lead fs items, carries ds (lead ++ fs) -> Forall (fun f => fst f = []) lead -> joined fs items ->
  ExtendedEventItems ds = Ok (put_in_front (concat (map snd lead)) items).
Proof.
  intros ds lead fs items C L J.
  assert (E : ExtendedEventItems ds = bind (eed_run (mkEed [] [] []) ds) (fun s => Ok (closing s))) by reflexivity.
  rewrite E, (run_carries _ _ C). cbn [bind]. apply f_equal. clear E C.
  rewrite fold_left_app, (absorb_more lead) by exact L. cbn [eed_desc eed_item eed_out app].
  destruct J as [|d t more fs items D F J]; [reflexivity|]. cbn [fold_left put_in_front]. rewrite fold_left_app.
  unfold absorb at 3. cbn [fst snd eed_desc eed_item eed_out]. destruct d as [|x d]; [contradiction|]. cbn [is_empty eed_desc eed_item eed_out app].
  rewrite (absorb_more more) by exact F. cbn [eed_desc eed_item eed_out]. rewrite (absorb_joined _ _ J) by discriminate.
  rewrite <- app_assoc. reflexivity.
Qed.

Lemma Forall_skipn : forall A (P : A -> Prop) n l, Forall P l -> Forall P (skipn n l).
Proof.
  intros A P. induction n as [|n IH]; intros l H; [exact H|]. destruct l as [|x l]; [constructor|]. inversion H. subst. cbn [skipn].
  apply IH. assumption.
Qed.

Lemma bytes_at_ok : forall data n, n <= zlen data -> bytes_at data n = Ok (ztake n data).
Proof. intros data n H. unfold bytes_at. apply Z.leb_le in H. rewrite H. reflexivity. Qed.
Lemma bytes_at_fail : forall data n, zlen data < n -> bytes_at data n = Fail Undefined.
Proof. intros data n H. unfold bytes_at. apply Z.leb_gt in H. rewrite H. reflexivity. Qed.

Lemma loop_safe : forall fuel data remaining s, Forall (fun b => 0 <= b < 256) data -> remaining <= zlen data ->
  exists s', eed_loop fuel data remaining s = Ok s'.
Proof.
  induction fuel as [|fuel IH]; intros data remaining s B H; cbn [eed_loop]; [eauto|].
  destruct (Z.ltb_spec remaining 2) as [L|L]; [eauto|].
  destruct data as [|n data]; [rewrite zlen_nil in H; lia|]. rewrite zlen_cons in H. cbn [byte_at bind].
  inversion B as [|? ? Bn B']. subst. change (zdrop 1 (n :: data)) with data.
  destruct (Z.ltb_spec 0 (Z.min n (remaining - 1))) as [P|P].
  - cbv zeta. rewrite bytes_at_ok by lia. cbn [bind]. set (k := Z.min n (remaining - 1)) in *.
    destruct (Z.leb_spec (remaining - 1 - k) 0) as [Q|Q]; [eauto|].
    assert (ZD : zlen (zdrop k data) = zlen data - k) by (rewrite zlen_zdrop; lia).
    assert (BD : Forall (fun b => 0 <= b < 256) (zdrop k data)) by (apply Forall_skipn; exact B').
    destruct (zdrop k data) as [|m data2]; [rewrite zlen_nil in ZD; lia|]. rewrite zlen_cons in ZD. cbn [byte_at bind].
    change (zdrop 1 (m :: data2)) with data2. inversion BD as [|? ? Bm BD']. subst.
    destruct (Z.ltb_spec 0 (Z.min m (remaining - 1 - k - 1))) as [P2|P2].
    + rewrite bytes_at_ok by lia. cbn [bind]. apply IH; [apply Forall_skipn; exact BD'|rewrite zlen_zdrop; lia].
    + apply IH; [exact BD'|lia].
  - cbn [bind]. destruct (Z.leb_spec (remaining - 1) 0) as [Q|Q]; [eauto|].
    destruct data as [|m data2]; [rewrite zlen_nil in H; lia|]. rewrite zlen_cons in H. cbn [byte_at bind].
    change (zdrop 1 (m :: data2)) with data2. inversion B' as [|? ? Bm BD']. subst.
    destruct (Z.ltb_spec 0 (Z.min m (remaining - 1 - 1))) as [P2|P2].
    + rewrite bytes_at_ok by lia. cbn [bind]. apply IH; [apply Forall_skipn; exact BD'|rewrite zlen_zdrop; lia].
    + apply IH; [exact BD'|lia].
Qed.

Lemma loop_overread : forall fuel data remaining s, Forall (fun b => 0 <= b < 256) data ->
  zlen data + 1 < remaining -> (Z.to_nat remaining <= fuel)%nat -> eed_loop fuel data remaining s = Fail Undefined.
Proof.
  induction fuel as [|fuel IH]; intros data remaining s B H F.
  { pose proof (zlen_nonneg _ data). lia. }
  cbn [eed_loop]. pose proof (zlen_nonneg _ data) as N0. destruct (Z.ltb_spec remaining 2) as [L|L]; [lia|].
  destruct data as [|n data]; [reflexivity|]. rewrite zlen_cons in H. cbn [byte_at bind].
  inversion B as [|? ? Bn B']. subst. change (zdrop 1 (n :: data)) with data. pose proof (zlen_nonneg _ data) as N1.
  destruct (Z.ltb_spec 0 (Z.min n (remaining - 1))) as [P|P].
  - cbv zeta. set (k := Z.min n (remaining - 1)) in *. destruct (Z_lt_le_dec (zlen data) k) as [O|O].
    { rewrite bytes_at_fail by exact O. reflexivity. }
    rewrite bytes_at_ok by exact O. cbn [bind].
    assert (ZD : zlen (zdrop k data) = zlen data - k) by (rewrite zlen_zdrop; lia).
    pose proof (zlen_nonneg _ (zdrop k data)) as N2.
    destruct (Z.leb_spec (remaining - 1 - k) 0) as [Q|Q]; [lia|].
    assert (BD : Forall (fun b => 0 <= b < 256) (zdrop k data)) by (apply Forall_skipn; exact B').
    destruct (zdrop k data) as [|m data2]; [reflexivity|]. rewrite zlen_cons in ZD. cbn [byte_at bind].
    change (zdrop 1 (m :: data2)) with data2. inversion BD as [|? ? Bm BD']. subst. pose proof (zlen_nonneg _ data2) as N3.
    destruct (Z.ltb_spec 0 (Z.min m (remaining - 1 - k - 1))) as [P2|P2].
    + destruct (Z_lt_le_dec (zlen data2) (Z.min m (remaining - 1 - k - 1))) as [O2|O2].
      { rewrite bytes_at_fail by exact O2. reflexivity. }
      rewrite bytes_at_ok by exact O2. cbn [bind]. apply IH; [apply Forall_skipn; exact BD'|rewrite zlen_zdrop; lia|lia].
    + apply IH; [exact BD'|lia|lia].
  - cbn [bind]. destruct (Z.leb_spec (remaining - 1) 0) as [Q|Q]; [lia|].
    destruct data as [|m data2]; [reflexivity|]. rewrite zlen_cons in H. cbn [byte_at bind].
    change (zdrop 1 (m :: data2)) with data2. inversion B' as [|? ? Bm BD']. subst. pose proof (zlen_nonneg _ data2) as N3.
    destruct (Z.ltb_spec 0 (Z.min m (remaining - 1 - 1))) as [P2|P2].
    + destruct (Z_lt_le_dec (zlen data2) (Z.min m (remaining - 1 - 1))) as [O2|O2].
      { rewrite bytes_at_fail by exact O2. reflexivity. }
      rewrite bytes_at_ok by exact O2. cbn [bind]. apply IH; [apply Forall_skipn; exact BD'|rewrite zlen_zdrop; lia|lia].
    + apply IH; [exact BD'|lia|lia].
Qed.

Lemma step_safe : forall d s, bytes_ok d -> consistent d -> exists s', eed_step s d = Ok s'.
Proof.
  intros d s B C. unfold eed_step. destruct (ds_isValid d); cbn [negb]; [|eauto].
  destruct (ds_tag d =? DID_EXTENDED_EVENT); cbn [negb]; [|eauto].
  destruct (Z.ltb_spec (zlen (ds_payload d)) 5) as [L|L]; [eauto|].
  assert (BP : Forall (fun b => 0 <= b < 256) (ds_payload d)) by (apply Forall_skipn; exact B).
  assert (S4 : zlen (zdrop 4 (ds_payload d)) = zlen (ds_payload d) - 4) by (rewrite zlen_zdrop; lia).
  assert (B4 : Forall (fun b => 0 <= b < 256) (zdrop 4 (ds_payload d))) by (apply Forall_skipn; exact BP).
  destruct (zdrop 4 (ds_payload d)) as [|n rest] eqn:E; [rewrite zlen_nil in S4; lia|]. cbn [byte_at bind].
  assert (SP : ds_payload d = ztake 4 (ds_payload d) ++ n :: rest) by (rewrite <- E; symmetry; apply ztake_zdrop).
  assert (H4 : zlen (ztake 4 (ds_payload d)) = 4) by (rewrite zlen_ztake; lia).
  assert (E5 : zdrop 5 (ds_payload d) = rest).
  { rewrite SP at 1. rewrite zdrop_app_ge by lia. rewrite H4. reflexivity. }
  rewrite E5. apply loop_safe; [inversion B4; assumption|]. exact (C _ _ _ H4 SP).
Qed.

Lemma items_safe : forall ds, Forall bytes_ok ds -> Forall consistent ds -> exists items, ExtendedEventItems ds = Ok items.
Proof.
  intros ds B C. unfold ExtendedEventItems.
  assert (R : forall s, exists s', eed_run s ds = Ok s').
  { induction ds as [|d ds IH]; intros s; cbn [eed_run]; [eauto|]. inversion B. inversion C. subst.
    destruct (step_safe d s) as [s1 E]; [assumption|assumption|]. rewrite E. cbn [bind]. apply IH; assumption. }
  destruct (R (mkEed [] [] [])) as [s' E]. rewrite E. cbn [bind]. eauto.
Qed.

Lemma items_overread : forall ds d rest, Forall bytes_ok ds -> Forall consistent ds -> bytes_ok d -> overlong d ->
  ExtendedEventItems (ds ++ d :: rest) = Fail Undefined.
Proof.
  intros ds d rest B C BD (head & n & r & H & M & L). unfold ExtendedEventItems.
  assert (R : forall s, eed_run s (ds ++ d :: rest) = Fail Undefined).
  { induction ds as [|e ds IH]; intros s; cbn [eed_run app].
    - assert (E : eed_step s d = Fail Undefined); [|rewrite E; reflexivity].
      destruct d as [m]. unfold eed_step, ds_isValid, ds_tag, ds_payload, bytes_ok in *. cbn [ds_mem] in *. subst m. cbn [app].
      rewrite Z.eqb_refl. unfold DID_EXTENDED_EVENT. cbn [negb Z.eqb Pos.eqb].
      change (zdrop 2 (78 :: zlen (head ++ n :: r) :: head ++ n :: r)) with (head ++ n :: r).
      pose proof (zlen_nonneg _ r) as N. replace (zlen (head ++ n :: r) <? 5) with false.
      2:{ symmetry. apply Z.ltb_ge. rewrite zlen_app, zlen_cons. lia. }
      assert (D4 : zdrop 4 (head ++ n :: r) = n :: r) by (rewrite <- H; apply zdrop_app_exact).
      assert (D5 : zdrop 5 (head ++ n :: r) = r) by (rewrite zdrop_app_ge by lia; rewrite H; reflexivity).
      rewrite D4, D5. cbn [byte_at bind]. apply loop_overread; [|exact L|lia].
      cbn [app] in BD. inversion BD as [|? ? _ B2]. inversion B2 as [|? ? _ B3]. apply Forall_app in B3. destruct B3 as [_ B3].
      inversion B3; assumption.
    - inversion B. inversion C. subst. destruct (step_safe e s) as [s1 E]; [assumption|assumption|]. rewrite E. cbn [bind].
      apply IH; assumption. }
  rewrite R. reflexivity.
Qed.

(** ** JSON *)

Ltac look := unfold type_is, member, num, text, member_text; cbn [app find fst snd]; try reflexivity.

Lemma short_is : forall d, describes_short d (short_json d).
Proof. intros [[n|] [t|]]; repeat split; look. Qed.
Lemma component_is : forall d, describes_component d (component_json d).
Proof. intros [s t g l [x|]]; repeat split; look. Qed.
Lemma content_is : forall d, describes_content d (content_json d).
Proof.
  intros d. split; [reflexivity|]. eexists. split; [reflexivity|]. induction d as [|[[[a b] c] e] d IH]; cbn [map]; constructor;
    [reflexivity|exact IH].
Qed.
Lemma audio_is : forall d, describes_audio d (audio_json d).
Proof. intros [s t g m [|] ma q r l l2 [x|]]; repeat split; look. Qed.
Lemma series_is : forall d, dated d -> describes_series d (series_json d).
Proof.
  intros [i r p [e|] n l [x|]] D; repeat split; look; cbn [se_expire option_map]; unfold dated in D; cbn [se_expire] in D;
    unfold series_json; cbn; unfold u64; rewrite Z.mod_small by lia; reflexivity.
Qed.
Lemma group_event_is : forall t e, describes_group_event t e (group_event_json t e).
Proof.
  intros t e. unfold group_event_json, kRelayToOther, kMovementFromOther, describes_group_event.
  destruct (Z.eqb_spec t 4) as [A|A]; [|destruct (Z.eqb_spec t 5) as [B|B]]; cbn [orb app]; repeat split; look; intuition.
Qed.
Lemma group_is : forall d, describes_group d (event_group_json d).
Proof.
  intros [t es]. split; [reflexivity|]. split; [reflexivity|]. eexists. split; [reflexivity|]. cbn [eg_type eg_events].
  induction es as [|e es IH]; cbn [map]; constructor; [apply group_event_is|exact IH].
Qed.
Lemma extended_is : forall items, describes_extended items (extended_json items).
Proof.
  intros items. split; [reflexivity|]. eexists. split; [reflexivity|].
  induction items as [|[d t] items IH]; cbn [map]; constructor; [reflexivity|exact IH].
Qed.

Lemma switch_is : forall pr tag mem, (exists j, switch_json pr tag mem = [j] /\ describes pr tag mem j) \/
  (switch_json pr tag mem = [] /\ not_described pr tag mem).
Proof.
  intros pr tag mem. unfold switch_json, push, kShortEvent, kComponent, kContent, kAudioComponent, kSeries, kEventGroup.
  destruct (Z.eqb_spec tag 0x4D) as [E1|E1].
  { destruct (pr_short pr mem) as [d|] eqn:P.
    - left. eexists. split; [reflexivity|]. left. split; [exact E1|]. exists d. split; [exact P|apply short_is].
    - right. split; [reflexivity|]. repeat split; intros; congruence. }
  destruct (Z.eqb_spec tag 0x50) as [E2|E2].
  { destruct (pr_component pr mem) as [d|] eqn:P.
    - left. eexists. split; [reflexivity|]. right. left. split; [exact E2|]. exists d. split; [exact P|apply component_is].
    - right. split; [reflexivity|]. repeat split; intros; congruence. }
  destruct (Z.eqb_spec tag 0x54) as [E3|E3].
  { destruct (pr_content pr mem) as [d|] eqn:P.
    - left. eexists. split; [reflexivity|]. do 2 right. left. split; [exact E3|]. exists d. split; [exact P|apply content_is].
    - right. split; [reflexivity|]. repeat split; intros; congruence. }
  destruct (Z.eqb_spec tag 0xC4) as [E4|E4].
  { destruct (pr_audio pr mem) as [d|] eqn:P.
    - left. eexists. split; [reflexivity|]. do 3 right. left. split; [exact E4|]. exists d. split; [exact P|apply audio_is].
    - right. split; [reflexivity|]. repeat split; intros; congruence. }
  destruct (Z.eqb_spec tag 0xD5) as [E5|E5].
  { destruct (pr_series pr mem) as [d|] eqn:P.
    - left. eexists. split; [reflexivity|]. do 4 right. left. split; [exact E5|]. exists d. split; [exact P|apply series_is].
    - right. split; [reflexivity|]. repeat split; intros; congruence. }
  destruct (Z.eqb_spec tag 0xD6) as [E6|E6].
  { destruct (pr_group pr mem) as [d|] eqn:P.
    - left. eexists. split; [reflexivity|]. do 5 right. split; [exact E6|]. exists d. split; [exact P|apply group_is].
    - right. split; [reflexivity|]. repeat split; intros; congruence. }
  right. split; [reflexivity|]. repeat split; intros; congruence.
Qed.

Lemma described_flat : forall pr l, described pr l (flat_map (fun x => switch_json pr (fst x) (snd x)) l).
Proof.
  intros pr. induction l as [|[tag mem] l IH]; cbn [flat_map fst snd]; [constructor|].
  destruct (switch_is pr tag mem) as [(j & E & D) | (E & D)]; rewrite E; cbn [app]; constructor; assumption.
Qed.

Lemma descriptors_json : forall pr ds, described pr (tagged ds) (DescriptorsJson pr ds).
Proof.
  intros pr ds. assert (E : DescriptorsJson pr ds = flat_map (fun x => switch_json pr (fst x) (snd x)) (tagged ds)).
  { unfold DescriptorsJson, tagged. induction ds as [|d ds IH]; [reflexivity|]. cbn [flat_map filter]. rewrite IH.
    change (ds_isValid d) with (intact d). destruct (intact d); [|reflexivity]. cbn [map flat_map fst snd]. reflexivity. }
  rewrite E. apply described_flat.
Qed.

Lemma eit_descriptors_json : forall pr mems ext, exists js more,
  EitDescriptorsJson pr mems ext = js ++ more /\
  described pr (map (fun m => (match m with t :: _ => t | [] => 0 end, m)) mems) js /\
  match ext with None => more = [] | Some items => exists j, more = [j] /\ describes_extended items j end.
Proof.
  intros pr mems ext. unfold EitDescriptorsJson. eexists. eexists. split; [reflexivity|]. split.
  - assert (E : flat_map (fun m => switch_json pr (match m with t :: _ => t | [] => 0 end) m) mems =
                flat_map (fun x => switch_json pr (fst x) (snd x)) (map (fun m => (match m with t :: _ => t | [] => 0 end, m)) mems)).
    { induction mems as [|m mems IH]; [reflexivity|]. cbn [flat_map map fst snd]. rewrite IH. reflexivity. }
    rewrite E. apply described_flat.
  - destruct ext as [items|]; [|reflexivity]. eexists. split; [reflexivity|apply extended_is].
Qed.

Lemma switch_type : forall pr tag mem j, In j (switch_json pr tag mem) -> member j "$type" <> Some (JWord "ExtendedEvent").
Proof.
  intros pr tag mem j H. unfold switch_json, push in H.
  repeat match type of H with In _ (if ?b then _ else _) => destruct b end;
    try (match type of H with In _ (match ?p with _ => _ end) => destruct p as [d|] end; [|contradiction];
         destruct H as [<- | []]; cbn; discriminate); contradiction.
Qed.

Lemma bytes_ok_b : forall d, forallb (fun b => (0 <=? b) && (b <? 256)) (ds_mem d) = true -> bytes_ok d.
Proof.
  intros d H. apply Forall_forall. intros b I. rewrite forallb_forall in H. specialize (H b I). apply andb_prop in H.
  destruct H as [H1 H2]. apply Z.leb_le in H1. apply Z.ltb_lt in H2. lia.
Qed.
