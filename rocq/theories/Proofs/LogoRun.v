(** Proofs about Base 64 and collect-logos as a whole. *)
From Coq Require Import ZArith Lia List Bool.
From Verif Require Import Base.Outcome Base.Util Model.Sink Model.FileSource Model.Commands Model.Logo Spec.SourceSpec Spec.PipeSpec Spec.TransSpec Spec.LogoSpec
  Proofs.LogoProofs Proofs.PipeProofs Proofs.PipeJson.
Import ListNotations.
Open Scope Z_scope.

(** ** Base 64 *)
Lemma mixed : forall x y k i, 0 <= k -> 0 <= y < 2 ^ k -> 0 <= i -> Z.testbit (x * 2 ^ k + y) i = if i <? k then Z.testbit y i else Z.testbit x (i - k).
Proof.
  intros x y k i Hk Hy Hi. destruct (Z.ltb_spec i k).
  - rewrite <- (Z.mod_pow2_bits_low _ k i) by lia. rewrite Z.add_comm, Z.mod_add, Z.mod_small by lia. reflexivity.
  - replace i with ((i - k) + k) at 1 by lia. rewrite <- Z.div_pow2_bits by lia. rewrite Z.div_add_l, Z.div_small by lia. rewrite Z.add_0_r. reflexivity.
Qed.
Lemma high : forall a k i, 0 <= k -> 0 <= i -> Z.testbit (a / 2 ^ k) i = Z.testbit a (i + k).
Proof. intros. apply Z.div_pow2_bits; lia. Qed.
Lemma low : forall a k i, i < k -> Z.testbit (a mod 2 ^ k) i = Z.testbit a i.
Proof. intros. apply Z.mod_pow2_bits_low. lia. Qed.

Ltac onebit := repeat first [rewrite high by lia | rewrite low by lia]; reflexivity.

Lemma first_bits : forall a, bits 6 (a / 4) = firstn 6 (bits 8 a).
Proof. intros a. change 4 with (2 ^ 2). cbn [bits firstn Z.of_nat Pos.of_succ_nat]. rewrite !high by lia. reflexivity. Qed.
Lemma second_bits : forall a b, 0 <= b < 256 -> bits 6 (a mod 4 * 16 + b / 16) = skipn 6 (bits 8 a) ++ firstn 4 (bits 8 b).
Proof.
  intros a b Hb. assert (0 <= b / 16 < 2 ^ 4) by (change (2 ^ 4) with 16; split; [apply Z.div_pos; lia|apply Z.div_lt_upper_bound; lia]).
  change (a mod 4 * 16) with (a mod 2 ^ 2 * 2 ^ 4). cbn [bits firstn skipn app]. rewrite !mixed by lia. cbn [Z.ltb Z.compare Pos.compare Pos.compare_cont Z.of_nat Pos.of_succ_nat Pos.succ].
  cbn -[Z.testbit Z.modulo Z.div Z.pow]. change 16 with (2 ^ 4). rewrite !high, !low by lia. reflexivity.
Qed.
Lemma third_bits : forall b c, 0 <= c < 256 -> bits 6 (b mod 16 * 4 + c / 64) = skipn 4 (bits 8 b) ++ firstn 2 (bits 8 c).
Proof.
  intros b c Hc. assert (0 <= c / 64 < 2 ^ 2) by (change (2 ^ 2) with 4; split; [apply Z.div_pos; lia|apply Z.div_lt_upper_bound; lia]).
  change (b mod 16 * 4) with (b mod 2 ^ 4 * 2 ^ 2). cbn [bits firstn skipn app]. rewrite !mixed by lia. cbn -[Z.testbit Z.modulo Z.div Z.pow].
  change 64 with (2 ^ 6). rewrite !high, !low by lia. reflexivity.
Qed.
Lemma fourth_bits : forall c, bits 6 (c mod 64) = skipn 2 (bits 8 c).
Proof. intros c. change 64 with (2 ^ 6). cbn [bits skipn]. rewrite !low by (cbn; lia). reflexivity. Qed.
Lemma second_last : forall a, bits 6 (a mod 4 * 16) = skipn 6 (bits 8 a) ++ repeat false 4.
Proof. intros a. pose proof (second_bits a 0 ltac:(lia)) as E. rewrite Z.add_0_r in E. exact E. Qed.
Lemma third_last : forall b, bits 6 (b mod 16 * 4) = skipn 4 (bits 8 b) ++ repeat false 2.
Proof. intros b. pose proof (third_bits b 0 ltac:(lia)) as E. rewrite Z.add_0_r in E. exact E. Qed.

Lemma letter_of : forall d, 0 <= d < 64 -> znth d alphabet = Some (b64_char d).
Proof.
  intros d H. assert (G : forallb (fun i => match znth (Z.of_nat i) alphabet with Some c => c =? b64_char (Z.of_nat i) | None => false end) (seq 0 64) = true) by reflexivity.
  pose proof (proj1 (forallb_forall _ _) G (Z.to_nat d)) as E. cbv beta in E. rewrite Z2Nat.id in E by lia.
  assert (I : In (Z.to_nat d) (seq 0 64)) by (apply in_seq; lia). specialize (E I). destruct (znth d alphabet); [|discriminate]. apply Z.eqb_eq in E. congruence.
Qed.
Lemma digit_ranges : forall a b, 0 <= a < 256 -> 0 <= b < 256 ->
  0 <= a / 4 < 64 /\ 0 <= a mod 4 * 16 + b / 16 < 64 /\ 0 <= a mod 16 * 4 + b / 64 < 64 /\ 0 <= a mod 64 < 64 /\ 0 <= a mod 4 * 16 < 64 /\ 0 <= a mod 16 * 4 < 64.
Proof.
  intros a b A B. pose proof (Z.mod_pos_bound a 4 ltac:(lia)). pose proof (Z.mod_pos_bound a 16 ltac:(lia)). pose proof (Z.mod_pos_bound a 64 ltac:(lia)).
  assert (0 <= a / 4 < 64) by (split; [apply Z.div_pos; lia|apply Z.div_lt_upper_bound; lia]).
  assert (0 <= b / 16 < 16) by (split; [apply Z.div_pos; lia|apply Z.div_lt_upper_bound; lia]).
  assert (0 <= b / 64 < 4) by (split; [apply Z.div_pos; lia|apply Z.div_lt_upper_bound; lia]). lia.
Qed.

Lemma encode_ok : forall n l, (List.length l <= n)%nat -> Forall (fun b => 0 <= b < 256) l -> base64 l (b64_encode l).
Proof.
  induction n as [n IH] using lt_wf_ind. intros l L F. destruct l as [|a [|b [|c r]]].
  - exists [], [], 0%nat, 0%nat. repeat split; auto; lia.
  - inversion F as [|? ? A _]; subst. destruct (digit_ranges a a A A) as [D1 [_ [_ [_ [D2 _]]]]].
    exists [a / 4; a mod 4 * 16], [b64_char (a / 4); b64_char (a mod 4 * 16)], 2%nat, 4%nat. split; [reflexivity|]. split; [repeat constructor; apply letter_of; auto|].
    split; [lia|]. split; [reflexivity|]. split; [|lia]. cbn [flat_map]. rewrite first_bits, second_last, !app_nil_r, app_assoc, firstn_skipn. reflexivity.
  - inversion F as [|? ? A F1]; subst. inversion F1 as [|? ? B _]; subst. destruct (digit_ranges a b A B) as [D1 [D2 _]]. destruct (digit_ranges b b B B) as [_ [_ [_ [_ [_ D3]]]]].
    exists [a / 4; a mod 4 * 16 + b / 16; b mod 16 * 4], [b64_char (a / 4); b64_char (a mod 4 * 16 + b / 16); b64_char (b mod 16 * 4)], 1%nat, 2%nat.
    split; [reflexivity|]. split; [repeat constructor; apply letter_of; auto|]. split; [lia|]. split; [reflexivity|]. split; [|lia].
    cbn [flat_map]. rewrite first_bits, second_bits, third_last, !app_nil_r by auto. rewrite <- (firstn_skipn 6 (bits 8 a)) at 2. rewrite <- (firstn_skipn 4 (bits 8 b)) at 2.
    rewrite <- !app_assoc. reflexivity.
  - inversion F as [|? ? A F1]; subst. inversion F1 as [|? ? B F2]; subst. inversion F2 as [|? ? C F3]; subst.
    destruct (IH (List.length r) ltac:(cbn in L; lia) r ltac:(lia) F3) as [ds [cs [pad [zs [E [W [Hp [Hm [Eb Hz]]]]]]]]].
    destruct (digit_ranges a b A B) as [D1 [D2 _]]. destruct (digit_ranges b c B C) as [_ [_ [D3 _]]]. destruct (digit_ranges c c C C) as [_ [_ [_ [D4 _]]]].
    exists (a / 4 :: a mod 4 * 16 + b / 16 :: b mod 16 * 4 + c / 64 :: c mod 64 :: ds),
      (b64_char (a / 4) :: b64_char (a mod 4 * 16 + b / 16) :: b64_char (b mod 16 * 4 + c / 64) :: b64_char (c mod 64) :: cs), pad, zs.
    cbn [b64_encode]. rewrite E in *. split; [reflexivity|]. split; [repeat (constructor; [apply letter_of; auto|]); exact W|]. split; [exact Hp|].
    split; [|split; [|exact Hz]].
    + unfold zlen in *. cbn [List.length]. rewrite !Nat2Z.inj_succ. replace (Z.succ (Z.succ (Z.succ (Z.succ (Z.of_nat (List.length (cs ++ repeat 61 pad)))))))
        with (Z.of_nat (List.length (cs ++ repeat 61 pad)) + 1 * 4) by lia. rewrite Z.mod_add by lia. exact Hm.
    + cbn [flat_map]. rewrite Eb, first_bits, second_bits, third_bits, fourth_bits by auto.
      rewrite <- (firstn_skipn 6 (bits 8 a)) at 3. rewrite <- (firstn_skipn 4 (bits 8 b)) at 3. rewrite <- (firstn_skipn 2 (bits 8 c)) at 3.
      rewrite <- !app_assoc. reflexivity.
Qed.

Lemma forall2_letters : forall ds ds' cs, Forall2 (fun d c => znth d alphabet = Some c) ds cs -> Forall2 (fun d c => znth d alphabet = Some c) ds' cs -> ds = ds'.
Proof.
  intros ds ds' cs H. revert ds'. induction H as [|d c ds cs E F IH]; intros ds' H'; inversion H' as [|d' c' ds2 cs2 E' F']; subst; [reflexivity|]. f_equal; [|auto].
  assert (R : forall x z, znth x alphabet = Some z -> 0 <= x < 64).
  { intros x z Q. pose proof (znth_range _ _ _ _ Q) as Q1. exact Q1. }
  pose proof (R _ _ E) as R1. pose proof (R _ _ E') as R2. rewrite letter_of in E, E' by auto. rewrite <- E' in E. injection E as E. clear -E R1 R2.
  unfold b64_char in E. repeat match type of E with context [if ?b then _ else _] => destruct b eqn:? end;
    repeat match goal with H : (_ <? _) = true |- _ => apply Z.ltb_lt in H | H : (_ <? _) = false |- _ => apply Z.ltb_ge in H | H : (_ =? _) = true |- _ => apply Z.eqb_eq in H
    | H : (_ =? _) = false |- _ => apply Z.eqb_neq in H end; lia.
Qed.

Lemma no_pad : forall d c, znth d alphabet = Some c -> c <> 61.
Proof.
  intros d c H ->. assert (I : In 61 alphabet) by (unfold znth in H; destruct (d <? 0); [discriminate|eapply nth_error_In; eauto]). clear H. rename I into H. assert (G : forallb (fun x => negb (x =? 61)) alphabet = true) by reflexivity.
  apply (proj1 (forallb_forall _ _) G) in H. discriminate.
Qed.

Lemma split_pad : forall (l l' : list Z) n n', Forall (fun c => c <> 61) l -> Forall (fun c => c <> 61) l' -> l ++ repeat 61 n = l' ++ repeat 61 n' -> l = l'.
Proof.
  induction l as [|x l IH]; intros [|x' l'] n n' F F' E; auto.
  - destruct n; [discriminate|]. injection E as <- _. inversion F'; subst. congruence.
  - destruct n'; [discriminate|]. injection E as -> _. inversion F; subst. congruence.
  - injection E as -> E. inversion F; inversion F'; subst. f_equal. eauto.
Qed.

Lemma byte_bits : forall a b, 0 <= a < 256 -> 0 <= b < 256 -> bits 8 a = bits 8 b -> a = b.
Proof.
  intros a b A B E. cbn [bits] in E. injection E as E7 E6 E5 E4 E3 E2 E1 E0. apply Z.bits_inj'. intros i Hi.
  destruct (Z_lt_dec i 8).
  - assert (C : i = 0 \/ i = 1 \/ i = 2 \/ i = 3 \/ i = 4 \/ i = 5 \/ i = 6 \/ i = 7) by lia.
    repeat (destruct C as [-> |C]; [assumption|]). subst. assumption.
  - rewrite !Z.bits_above_log2; auto; try lia.
    + destruct (Z.eq_dec b 0) as [-> |]; [cbn; lia|]. assert (Z.log2 b < 8) by (apply Z.log2_lt_pow2; lia). lia.
    + destruct (Z.eq_dec a 0) as [-> |]; [cbn; lia|]. assert (Z.log2 a < 8) by (apply Z.log2_lt_pow2; lia). lia.
Qed.

Lemma bits_length : forall n v, List.length (bits n v) = n.
Proof. induction n; intros v; cbn; auto. Qed.
Lemma flat_length : forall l, List.length (flat_map (bits 8) l) = (8 * List.length l)%nat.
Proof. induction l as [|a l IH]; [reflexivity|]. cbn [flat_map]. rewrite app_length, bits_length, IH. cbn [List.length]. lia. Qed.
Lemma flat_inj : forall l l' t t', Forall (fun b => 0 <= b < 256) l -> Forall (fun b => 0 <= b < 256) l' -> List.length l = List.length l' ->
  flat_map (bits 8) l ++ t = flat_map (bits 8) l' ++ t' -> l = l'.
Proof.
  induction l as [|a l IH]; intros [|a' l'] t t' F F' L E; try discriminate; auto. inversion F; inversion F'; subst. cbn [flat_map] in E. rewrite <- !app_assoc in E.
assert (E1 : bits 8 a = bits 8 a').
  { revert E. cbn [bits]. generalize (Z.testbit a), (Z.testbit a'). cbn [app]. intros f g E. injection E as E1 E2 E3 E4 E5 E6 E7 E8 _. congruence. }
  apply byte_bits in E1; auto. subst. apply app_inv_head in E. f_equal. eapply IH; eauto.
Qed.

Lemma decode_once : forall l l' text, Forall (fun b => 0 <= b < 256) l -> Forall (fun b => 0 <= b < 256) l' -> base64 l text -> base64 l' text -> l = l'.
Proof.
  intros l l' text F F' [ds [cs [pad [zs [E [W [_ [_ [Eb Hz]]]]]]]]] [ds' [cs' [pad' [zs' [E' [W' [_ [_ [Eb' Hz']]]]]]]]].
  assert (N : forall ds cs, Forall2 (fun d c => znth d alphabet = Some c) ds cs -> Forall (fun c => c <> 61) cs).
  { clear. induction 1; constructor; eauto using no_pad. }
  rewrite E in E'. apply split_pad in E'; [|eauto|eauto]. subst cs'. pose proof (forall2_letters _ _ _ W W'). subst ds'. rewrite Eb in Eb'.
  eapply flat_inj; eauto. apply (f_equal (@List.length bool)) in Eb'. rewrite !app_length, !repeat_length, !flat_length in Eb'. lia.
Qed.

(** ** The documents *)
Lemma chunks_bytes : Forall (fun b => 0 <= b < 256) kChunks.
Proof.
  assert (G : forallb (fun b => (0 <=? b) && (b <? 256)) kChunks = true) by reflexivity. apply Forall_forall. intros b I.
  apply (proj1 (forallb_forall _ _) G) in I. apply andb_prop in I as [A B]. apply Z.leb_le in A. apply Z.ltb_lt in B. auto.
Qed.

Lemma logo_one : forall out l, 93 < zlen (lg_data l) -> bytes_only l -> exists d, OnLogoDownloaded out l = Ok (out ++ [d]) /\ described l d.
Proof.
  intros out l H B. unfold OnLogoDownloaded. assert (E : zlen (lg_data l) <=? 93 = false) by (apply Z.leb_gt; lia). rewrite E.
  unfold lg_MakeJsonValue, MakeBase64Png. destruct (insert_ok (lg_data l)) as (a & b & _ & _ & Q); [lia|].
  unfold InsertPngChunks in Q |- *. destruct (kIdatOffset <? zlen (lg_data l)) eqn:S; [|discriminate]. cbn [assert bind] in *.
  eexists. split; [reflexivity|]. unfold described. cbn [ld_type ld_id ld_version ld_nid ld_data ld_services].
  do 4 (split; [reflexivity|]). split.
  - eexists. eexists. unfold InsertPngChunks. rewrite S. split; [reflexivity|]. split; [reflexivity|]. eapply encode_ok; [apply le_n|].
    apply Forall_app. split; [|apply Forall_app; split; [apply chunks_bytes|]].
    + apply Forall_forall. intros x I. apply (proj1 (Forall_forall _ _) B). rewrite <- (firstn_skipn (Z.to_nat kIdatOffset) (lg_data l)). apply in_app_iff. left. exact I.
    + apply Forall_forall. intros x I. apply (proj1 (Forall_forall _ _) B). rewrite <- (firstn_skipn (Z.to_nat kIdatOffset) (lg_data l)). apply in_app_iff. right. exact I.
  - destruct (lg_services l); [left; auto|right; split; [discriminate|reflexivity]].
Qed.

Lemma logo_run : forall ls out, Forall bytes_only ls -> exists ds, lg_run out ls = Ok (out ++ ds) /\ Forall2 described (visible ls) ds.
Proof.
  unfold visible. induction ls as [|l ls IH]; intros out B; cbn [lg_run filter].
  - exists []. rewrite app_nil_r. split; [reflexivity|constructor].
  - inversion B as [|? ? B1 B2]; subst. destruct (93 <? zlen (lg_data l)) eqn:E.
    + apply Z.ltb_lt in E. destruct (logo_one out l E B1) as (d & Q & D). rewrite Q. cbn [bind].
      destruct (IH (out ++ [d]) B2) as (ds & Q' & F). rewrite Q'. exists (d :: ds). rewrite <- app_assoc. split; [reflexivity|].
      constructor; assumption.
    + apply Z.ltb_ge in E. unfold OnLogoDownloaded. apply Z.leb_le in E. rewrite E. cbn [bind]. apply IH. auto.
Qed.

Section Main.
Variable engine : list (list Z) -> list Z -> list logo * bool.
Variable closing : list (list Z) -> list logo.

Lemma collector_hand : forall ps s, lc_bridge s = true -> (forall before p, Forall bytes_only (fst (engine before p))) ->
  exists qs ls ds b, taken engine (lc_seen s) ps qs ls /\
    snd (hand (lc_sink engine closing) s ps) = Ok (mkLc true (rev qs ++ lc_seen s) (lc_out s ++ ds), b) /\ Forall2 described (visible ls) ds.
Proof.
  induction ps as [|p ps IH]; intros s Br F; cbn [hand].
  - exists [], [], [], true. split; [constructor|]. destruct s. cbn in *. subst. rewrite app_nil_r. split; [reflexivity|constructor].
  - cbn [lc_sink sk_handle]. unfold lc_HandlePacket. rewrite Br. pose proof (F (lc_seen s) p) as Fp. destruct (engine (lc_seen s) p) as [ls ok] eqn:E.
    destruct (logo_run ls (lc_out s) Fp) as [ds [R D]]. rewrite R. cbn [bind]. destruct ok.
    + destruct (IH (mkLc true (p :: lc_seen s) (lc_out s ++ ds)) eq_refl F) as [qs [ls2 [ds2 [b [T [H D2]]]]]]. cbn [lc_seen lc_out] in *.
      exists (p :: qs), (ls ++ ls2), (ds ++ ds2), b. split; [econstructor 3; eauto|].
      destruct (hand (lc_sink engine closing) (mkLc true (p :: lc_seen s) (lc_out s ++ ds)) ps) as [out r]. cbn [snd] in *. rewrite H.
      cbn [rev]. rewrite <- !app_assoc. split; [reflexivity|]. unfold visible. rewrite filter_app. apply Forall2_app; auto.
    + exists [p], ls, ds, false. split; [constructor 2; auto|]. split; [reflexivity|auto].
Qed.

Lemma collect_logos_ok : forall reads bs n, Forall read_ok reads -> packets_of (bytes_of reads) bs -> (List.length (bytes_of reads) < n)%nat ->
  (forall before p, Forall bytes_only (fst (engine before p))) -> (forall before, Forall bytes_only (closing before)) ->
  exists seen s qs ls, collect_logos_main engine closing reads n = Some (Ok (0, (seen, s))) /\ taken engine [] bs qs ls /\
    lc_seen s = rev qs /\ Forall2 described (visible (ls ++ closing (rev qs))) (lc_out s).
Proof.
  intros reads bs n R Pk Hn F G.
  destruct (main_ok _ (fun _ b => b) (lc_sink engine closing) reads bs lc_init n
    (fun c s => c = 0 /\ exists qs ls, taken engine [] bs qs ls /\ lc_seen s = rev qs /\ Forall2 described (visible (ls ++ closing (rev qs))) (lc_out s)) R Pk Hn) as [c [seen [s [M [-> [qs [ls Q]]]]]]].
  - intros L. assert (V : forall h l, views (fun (_ : list (list Z)) (b : list Z) => b) h l = l) by (intros h l; revert h; induction l as [|x l IH]; intros h; cbn; [reflexivity|rewrite IH; reflexivity]).
    rewrite V in *. rewrite (feed_hand _ (lc_sink engine closing) bs n lc_init (mkLc true [] []) L eq_refl).
    destruct (collector_hand bs (mkLc true [] []) eq_refl F) as [qs [ls [ds [b [T [H D]]]]]]. rewrite H. cbn [lc_seen lc_out] in *. rewrite app_nil_r in *.
    unfold finish. cbn [lc_sink sk_end sk_exit]. unfold lc_End. cbn [lc_seen lc_out]. destruct (logo_run (closing (rev qs)) ([] ++ ds) (G _)) as [ds2 [R2 D2]]. rewrite R2. cbn [bind].
    eexists. eexists. split; [reflexivity|]. split; [reflexivity|]. exists qs, ls. split; [exact T|]. split; [reflexivity|]. cbn [lc_out].
    unfold visible. rewrite filter_app. apply Forall2_app; auto.
  - exists seen, s, qs, ls. tauto.
Qed.
End Main.
