From Coq Require Import ZArith Lia List Bool ZifyBool.
From Verif Require Import Base.Outcome Base.Util Model.Sink Model.FileSource Spec.SourceSpec.
Import ListNotations.
Open Scope Z_scope.

Definition rem (s : fs) : list Z :=
  zdrop (fs_pos s) (fs_buf s) ++ (if fs_eof s then [] else bytes_of (fs_reads s)).

Definition fs_ok (s : fs) : Prop :=
  fs_eof s = false /\ 0 <= fs_pos s <= zlen (fs_buf s) /\ zlen (fs_buf s) <= 17324 /\ Forall read_ok (fs_reads s).

Ltac sizes := change kBufferSize with 17324 in *; change kReadChunkSize with 16384 in *;
  change kMaxResyncBytes with 940 in *; change kMaxDropBytes with 376 in *;
  change PKT_SIZE with 188 in *; change SYNC_BYTE with 71 in *.

Lemma assert_true : forall A b (k : res A), b = true -> assert b k = k.
Proof. intros A b k ->. reflexivity. Qed.

Lemma read_loop_spec : forall reads buf min,
  zlen buf < min -> min <= 940 -> Forall read_ok reads ->
  (exists r buf', fs_read_loop reads buf min = Ok (mkFs r false buf' 0, true) /\
     Forall read_ok r /\ min <= zlen buf' <= 17324 /\ buf' ++ bytes_of r = buf ++ bytes_of reads) \/
  (exists s, fs_read_loop reads buf min = Ok (s, false) /\ zlen (buf ++ bytes_of reads) < min).
Proof.
  induction reads as [|rd reads IH]; intros buf min Hb Hm Hr; cbn [fs_read_loop bytes_of]; sizes;
    pose proof (zlen_nonneg _ buf);
    (rewrite assert_true; [|rewrite Z.leb_le; lia]).
  - right. eexists; split; [reflexivity|]. rewrite app_nil_r. auto.
  - inversion Hr; subst. destruct rd as [bs|].
    + destruct (Z.eqb_spec (zlen bs) 0) as [E|E].
      * right. eexists; split; [reflexivity|]. destruct bs; [|rewrite zlen_cons in E; pose proof (zlen_nonneg _ bs); lia].
        rewrite app_nil_r. auto.
      * cbn in H2. destruct (Z.ltb_spec 16384 (zlen bs)); [lia|].
        assert (Eb : bytes_of (ReadData bs :: reads) = bs ++ bytes_of reads).
        { destruct bs; [rewrite zlen_nil in E; lia|reflexivity]. }
        cbn [bytes_of] in Eb. rewrite Eb. clear Eb.
        destruct (Z.ltb_spec (zlen (buf ++ bs)) min).
        -- destruct (IH (buf ++ bs) min) as [[r [buf' [E1 [E2 [E3 E4]]]]]|[s [E1 E2]]]; auto.
           ++ left. exists r, buf'. repeat split; auto; try lia. rewrite E4, app_assoc. reflexivity.
           ++ right. exists s. split; auto. rewrite app_assoc. auto.
        -- left. exists reads, (buf ++ bs). split; [reflexivity|]. split; [auto|].
           rewrite zlen_app in *. split; [lia|]. rewrite app_assoc. reflexivity.
    + right. eexists; split; [reflexivity|]. rewrite app_nil_r. auto.
Qed.

Lemma FillBuffer_spec : forall s min, fs_ok s -> 0 < min <= 940 ->
  (exists s', fs_FillBuffer s min = Ok (s', true) /\ fs_ok s' /\ rem s' = rem s /\ min <= zlen (fs_buf s') - fs_pos s') \/
  (exists s', fs_FillBuffer s min = Ok (s', false) /\ zlen (rem s) < min).
Proof.
  intros s min [He [Hp [Hl Hr]]] Hm. unfold fs_FillBuffer, fs_end. sizes.
  rewrite assert_true by lia. rewrite assert_true by (rewrite He; reflexivity).
  rewrite assert_true by lia. rewrite assert_true by lia.
  destruct (Z.leb_spec min (zlen (fs_buf s) - fs_pos s)).
  - left. exists s. repeat split; auto; lia.
  - destruct (read_loop_spec (fs_reads s) (zdrop (fs_pos s) (fs_buf s)) min) as [[r [buf' [E1 [E2 [E3 E4]]]]]|[s' [E1 E2]]]; auto.
    + rewrite zlen_zdrop. lia.
    + lia.
    + left. exists (mkFs r false buf' 0). split; [auto|]. split.
      * repeat split; cbn; auto; lia.
      * split; [|cbn; lia]. unfold rem. cbn. rewrite He, zdrop_0 by lia. auto.
    + right. exists s'. split; auto. unfold rem. rewrite He. auto.
Qed.

Lemma fs_at_rem : forall s i, fs_ok s -> fs_pos s <= i < zlen (fs_buf s) ->
  exists b, fs_at s i = Ok b /\ znth (i - fs_pos s) (rem s) = Some b.
Proof.
  intros s i [He [Hp [Hl Hr]]] Hi. unfold fs_at.
  destruct (znth_some _ i (fs_buf s)) as [b Hb]; [lia|]. rewrite Hb.
  exists b. split; auto. unfold rem. rewrite znth_app_l by (rewrite zlen_zdrop; lia).
  rewrite znth_zdrop by lia. replace (fs_pos s + (i - fs_pos s)) with i by lia. auto.
Qed.

Lemma at_sync : forall s i, fs_ok s -> fs_pos s <= i < zlen (fs_buf s) ->
  exists b, fs_at s i = Ok b /\ ((b =? SYNC_BYTE) = true <-> sync_at (rem s) (i - fs_pos s)).
Proof.
  intros s i H Hi. destruct (fs_at_rem s i H Hi) as [b [E1 E2]]. exists b. split; auto.
  unfold sync_at. rewrite E2. sizes. rewrite Z.eqb_eq. split; [intros ->; auto|intros [= ->]; auto].
Qed.

Lemma validate_spec : forall s i, fs_ok s -> fs_pos s <= i -> i + 564 < zlen (fs_buf s) ->
  sync_at (rem s) (i - fs_pos s) ->
  exists v, fs_ValidateResync s i = Ok v /\ (v = true <-> synced_at (rem s) (i - fs_pos s)).
Proof.
  intros s i H Hp Hi H0. unfold fs_ValidateResync. sizes.
  destruct (at_sync s (i + 1 * 188) H) as [b1 [-> A1]]; [lia|].
  destruct (at_sync s (i + 2 * 188) H) as [b2 [-> A2]]; [lia|].
  destruct (at_sync s (i + 3 * 188) H) as [b3 [-> A3]]; [lia|]. cbn [bind]. sizes.
  unfold synced_at.
  replace (i - fs_pos s + 188) with (i + 1 * 188 - fs_pos s) by lia.
  replace (i - fs_pos s + 376) with (i + 2 * 188 - fs_pos s) by lia.
  replace (i - fs_pos s + 564) with (i + 3 * 188 - fs_pos s) by lia.
  destruct (b1 =? 71); cbn [negb]; [|eexists; split; [reflexivity|]; split; [discriminate|]; intros [_ [X _]]; apply A1 in X; discriminate].
  destruct (b2 =? 71); cbn [negb]; [|eexists; split; [reflexivity|]; split; [discriminate|]; intros [_ [_ [X _]]]; apply A2 in X; discriminate].
  eexists; split; [reflexivity|]. tauto.
Qed.

Lemma resync_loop_spec : forall n s pos, fs_ok s -> fs_pos s <= pos -> pos + Z.of_nat n + 564 <= zlen (fs_buf s) ->
  (exists i, 0 <= i < Z.of_nat n /\ fs_resync_loop s n pos = Ok (mkFs (fs_reads s) (fs_eof s) (fs_buf s) (pos + i), true) /\
     synced_at (rem s) (pos + i - fs_pos s) /\ forall j, 0 <= j < i -> ~ synced_at (rem s) (pos + j - fs_pos s)) \/
  (exists s', fs_resync_loop s n pos = Ok (s', false) /\
     forall j, 0 <= j < Z.of_nat n -> ~ synced_at (rem s) (pos + j - fs_pos s)).
Proof.
  induction n as [|n IH]; intros s pos H Hp Hl; cbn [fs_resync_loop].
  - right. eexists; split; [reflexivity|]. intros; lia.
  - destruct (at_sync s pos H) as [b [-> A]]; [lia|]. cbn [bind].
    assert (Step : ~ synced_at (rem s) (pos - fs_pos s) ->
      (exists i, 0 <= i < Z.of_nat (S n) /\ fs_resync_loop s n (pos + 1) = Ok (mkFs (fs_reads s) (fs_eof s) (fs_buf s) (pos + i), true) /\
         synced_at (rem s) (pos + i - fs_pos s) /\ forall j, 0 <= j < i -> ~ synced_at (rem s) (pos + j - fs_pos s)) \/
      (exists s', fs_resync_loop s n (pos + 1) = Ok (s', false) /\
         forall j, 0 <= j < Z.of_nat (S n) -> ~ synced_at (rem s) (pos + j - fs_pos s))).
    { intros Hno. destruct (IH s (pos + 1) H) as [[i [Hi [E [Hs Hj]]]]|[s' [E Hj]]]; [lia|lia| |].
      - left. exists (1 + i). split; [lia|]. replace (pos + (1 + i)) with (pos + 1 + i) by lia.
        split; [auto|]. split; [auto|]. intros j Hjr. destruct (Z.eq_dec j 0) as [->|].
        + replace (pos + 0) with pos by lia. auto.
        + replace (pos + j) with (pos + 1 + (j - 1)) by lia. apply Hj. lia.
      - right. exists s'. split; auto. intros j Hjr. destruct (Z.eq_dec j 0) as [->|].
        + replace (pos + 0) with pos by lia. auto.
        + replace (pos + j) with (pos + 1 + (j - 1)) by lia. apply Hj. lia. }
    destruct (b =? SYNC_BYTE) eqn:Eb; cbn [negb].
    + destruct (validate_spec s pos H) as [v [-> V]]; [lia|lia|tauto|]. cbn [bind].
      destruct v.
      * left. exists 0. split; [lia|]. replace (pos + 0) with pos by lia.
        split; [reflexivity|]. split; [tauto|]. intros; lia.
      * apply Step. rewrite <- V. discriminate.
    + apply Step. intros [X _]. apply A in X. discriminate.
Qed.

Lemma take_spec : forall s, fs_ok s -> 188 <= zlen (fs_buf s) - fs_pos s -> sync_at (rem s) 0 ->
  exists s' p, fs_take s = Ok (s', Some p) /\ fs_ok s' /\ zlen p = 188 /\ sync_at p 0 /\ rem s = p ++ rem s'.
Proof.
  intros s [He [Hp [Hl Hr]]] H1 H2. unfold fs_take, fs_end. sizes.
  destruct (Z.ltb_spec (zlen (fs_buf s)) (fs_pos s + 188)); [lia|].
  assert (Hz : znth 0 (ztake 188 (zdrop (fs_pos s) (fs_buf s))) = Some 71).
  { rewrite znth_ztake by lia. unfold sync_at, rem in H2.
    rewrite znth_app_l in H2 by (rewrite zlen_zdrop; lia). auto. }
  rewrite Hz. cbn [bind]. rewrite assert_true by reflexivity.
  do 2 eexists. split; [reflexivity|]. split; [repeat split; cbn; auto; lia|].
  split; [rewrite zlen_ztake, zlen_zdrop; lia|]. split; [auto|].
  unfold rem. cbn. rewrite He, app_assoc. f_equal.
  replace (fs_pos s + 188) with (fs_pos s + 188) by lia.
  rewrite <- (zdrop_zdrop _ 188 (fs_pos s)) by lia. symmetry. apply ztake_zdrop.
Qed.

Lemma sync_dec : forall bs i, sync_at bs i \/ ~ sync_at bs i.
Proof.
  intros. unfold sync_at. destruct (znth i bs) as [b|]; [|right; discriminate].
  destruct (Z.eq_dec b 0x47); [left; congruence|right; congruence].
Qed.

Lemma app_inj_len : forall A (a b c d : list A), zlen a = zlen c -> a ++ b = c ++ d -> a = c /\ b = d.
Proof.
  intros A a. induction a as [|x a IH]; intros b [|y c] d Hl H; cbn in *.
  - auto.
  - rewrite zlen_cons, zlen_nil in Hl. pose proof (zlen_nonneg _ c). lia.
  - rewrite zlen_cons, zlen_nil in Hl. pose proof (zlen_nonneg _ a). lia.
  - rewrite !zlen_cons in Hl. inversion H; subst. destruct (IH b c d) as [-> ->]; auto; lia.
Qed.

(** One call of GetNextPacket follows the specification. *)
Lemma next_spec : forall s, fs_ok s ->
  (exists s', fs_GetNextPacket s = Ok (s', None) /\ forall ps, packets_of (rem s) ps <-> ps = []) \/
  (exists s' p, fs_GetNextPacket s = Ok (s', Some p) /\ fs_ok s' /\ zlen (rem s') <= zlen (rem s) - 188 /\
     forall ps, packets_of (rem s) ps <-> exists r, ps = p :: r /\ packets_of (rem s') r).
Proof.
  intros s H. unfold fs_GetNextPacket.
  destruct (FillBuffer_spec s PKT_SIZE H) as [[s1 [-> [H1 [Er Hn]]]]|[s1 [-> Hn]]]; [sizes; lia| |]; cbn [bind negb].
  2:{ sizes. left. exists s1. split; [reflexivity|]. intros ps. split; [|intros ->; apply Pk_short; auto].
      intros Hp. inversion Hp as [? Hs|p r q Hl Hs Hr He|? i p r q Hl _ Hi Hs _ Hd Hlp Hr|? Hs|? Hs]; subst; auto; try lia.
      rewrite <- He, zlen_app in Hn. pose proof (zlen_nonneg _ r). lia. }
  sizes.
  assert (L1 : 188 <= zlen (rem s1)).
  { unfold rem. rewrite zlen_app, zlen_zdrop. destruct H1 as [_ [? _]]. pose proof (zlen_nonneg _ (if fs_eof s1 then [] else bytes_of (fs_reads s1))). lia. }
  destruct (at_sync s1 (fs_pos s1) H1) as [b [-> A]]; [destruct H1 as [_ [? _]]; lia|]. cbn [bind].
  rewrite Z.sub_diag in A. sizes. rewrite <- Er.
  destruct (b =? 71) eqn:Eb; cbn [negb].
  - right. destruct (take_spec s1 H1 Hn ltac:(tauto)) as [s2 [p [-> [H2 [Lp [Sp Ep]]]]]].
    exists s2, p. split; [auto|]. split; [auto|]. split.
    { rewrite Ep, zlen_app. lia. }
    intros ps. split.
    + intros Hp. inversion Hp as [? Hs|p' r q Hl Hs Hr He|? i p' r q Hl Hns|? Hl Hns|? Hl Hns]; subst; try (exfalso; tauto); try lia.
      rewrite Ep in He. apply app_inj_len in He as [-> ->]; [|lia]. eauto.
    + intros [r [-> Hr]]. rewrite Ep. apply Pk_packet; auto.
  - assert (Hns : ~ sync_at (rem s1) 0) by (rewrite <- A; discriminate).
    unfold fs_Resync. sizes.
    destruct (FillBuffer_spec s1 940 H1) as [[s2 [-> [H2 [Er2 Hn2]]]]|[s2 [-> Hn2]]]; [lia| |]; cbn [bind negb].
    2:{ left. exists s2. split; [reflexivity|]. intros ps. split.
        - intros Hp. inversion Hp as [? Hs|p r q Hl Hs Hr He|? i p r q Hl _ Hi Hs _ Hd Hlp Hr|? Hs|? Hs]; subst; auto; try lia.
          exfalso. apply Hns. rewrite <- He. unfold sync_at in *. rewrite znth_app_l by lia. auto.
        - intros ->. apply Pk_lost_end; auto. }
    rewrite <- Er2 in *.
    assert (L2 : 940 <= zlen (rem s2)).
    { unfold rem. rewrite zlen_app, zlen_zdrop. destruct H2 as [_ [? _]]. pose proof (zlen_nonneg _ (if fs_eof s2 then [] else bytes_of (fs_reads s2))). lia. }
    pose proof H2 as [He2 [Hp2 [Hl2 Hr2]]].
    destruct (resync_loop_spec (Z.to_nat 376) s2 (fs_pos s2) H2) as [[i [Hi [-> [Hs Hj]]]]|[s3 [-> Hj]]]; [lia|lia| |];
      replace (Z.of_nat (Z.to_nat 376)) with 376 in * by lia; cbn [bind negb].
    + set (s3 := mkFs (fs_reads s2) (fs_eof s2) (fs_buf s2) (fs_pos s2 + i)).
      replace (fs_pos s2 + i - fs_pos s2) with i in Hs by lia.
      assert (Hj' : forall j, 0 <= j < i -> ~ synced_at (rem s2) j).
      { intros j Hjr. specialize (Hj j Hjr). replace (fs_pos s2 + j - fs_pos s2) with j in Hj by lia. auto. }
      assert (H3 : fs_ok s3) by (repeat split; cbn; auto; lia).
      assert (R3 : rem s3 = zdrop i (rem s2)).
      { unfold rem. cbn. rewrite zdrop_app_le by (rewrite zlen_zdrop; lia).
        rewrite zdrop_zdrop by lia. reflexivity. }
      assert (Hs0 : sync_at (rem s3) 0).
      { destruct Hs as [Hs _]. unfold sync_at in *. rewrite R3, znth_zdrop by lia. replace (i + 0) with i by lia. auto. }
      destruct (at_sync s3 (fs_pos s3) H3) as [b3 [-> A3]]; [cbn; lia|]. cbn [bind].
      rewrite Z.sub_diag in A3. sizes. rewrite assert_true by tauto.
      destruct (take_spec s3 H3) as [s4 [p [-> [H4 [Lp [Sp Ep]]]]]]; [cbn; lia|auto|].
      right. exists s4, p. split; [auto|]. split; [auto|].
      assert (Hlen : zlen (rem s4) = zlen (rem s2) - i - 188).
      { assert (Q : zlen (rem s3) = zlen (rem s2) - i) by (rewrite R3, zlen_zdrop; lia).
        rewrite Ep, zlen_app in Q. lia. }
      split; [lia|]. intros ps. split.
      * intros Hp. inversion Hp as [? Hls|p' r q Hl Hsy Hr He|? i' p' r q Hl _ Hi' Hs' Hm' Hd Hlp Hr|? Hls|? Hls Hsy Hno]; subst; try lia.
        -- exfalso. apply Hns. rewrite <- He. unfold sync_at in *. rewrite znth_app_l by lia. auto.
        -- assert (i' = i).
           { destruct (Z.lt_trichotomy i' i) as [?|[?|?]]; auto; exfalso; [apply (Hj' i')|apply (Hm' i)]; auto; lia. }
           subst i'. rewrite <- R3, Ep in Hd. apply app_inj_len in Hd as [-> ->]; [|lia]. eauto.
        -- exfalso. apply (Hno i); auto; lia.
      * intros [r [-> Hr]]. eapply Pk_resync; eauto; try lia. rewrite <- R3. auto.
    + left. exists s3. split; [reflexivity|].
      assert (Hj' : forall j, 0 <= j < 376 -> ~ synced_at (rem s2) j).
      { intros j Hjr. specialize (Hj j Hjr). replace (fs_pos s2 + j - fs_pos s2) with j in Hj by lia. auto. }
      intros ps. split.
      * intros Hp. inversion Hp as [? Hls|p' r q Hl Hsy Hr He|? i' p' r q Hl _ Hi' Hs' Hm' Hd Hlp Hr|? Hls|? Hls Hsy Hno]; subst; auto; try lia.
        -- exfalso. apply Hns. rewrite <- He. unfold sync_at in *. rewrite znth_app_l by lia. auto.
        -- exfalso. apply (Hj' i'); auto.
      * intros ->. apply Pk_lost; auto.
Qed.

Lemma init_ok : forall reads, Forall read_ok reads -> fs_ok (fs_init reads).
Proof. intros. repeat split; cbn; auto; rewrite ?zlen_nil; lia. Qed.

Lemma init_rem : forall reads, rem (fs_init reads) = bytes_of reads.
Proof. reflexivity. Qed.

(** The specification always has a unique answer. *)
Lemma packets_unique_gen : forall n s, (Z.to_nat (zlen (rem s)) < n)%nat -> fs_ok s ->
  exists ps, packets_of (rem s) ps /\ (forall qs, packets_of (rem s) qs -> qs = ps) /\ fs_all n s = Some (Ok ps) /\
    (List.length ps < n)%nat.
Proof.
  induction n as [|n IH]; intros s Hn H; [lia|].
  cbn [fs_all]. destruct (next_spec s H) as [[s' [-> Hp]]|[s' [p [-> [H' [Hl Hp]]]]]].
  - exists []. split; [apply Hp; auto|]. split; [intros qs Hq; apply Hp; auto|]. split; [auto|cbn; lia].
  - pose proof (zlen_nonneg _ (rem s')).
    destruct (IH s') as [ps [P1 [P2 [P3 P4]]]]; [lia|auto|]. rewrite P3. cbn [bind].
    exists (p :: ps). split; [apply Hp; eauto|]. split.
    + intros qs Hq. apply Hp in Hq as [r [-> Hr]]. f_equal. auto.
    + split; [auto|cbn; lia].
Qed.

(** FeedPackets cannot tell the file source from the list of its packets. *)
Lemma feed_file_gen : forall (snk : sink (list Z)) n s ps st, (Z.to_nat (zlen (rem s)) < n)%nat -> fs_ok s ->
  packets_of (rem s) ps ->
  feed_loop file_source snk n s st = feed_loop (list_source (list Z)) snk n ps st.
Proof.
  induction n as [|n IH]; intros s ps st Hn H Hp; [lia|].
  cbn [feed_loop sr_next file_source list_source].
  destruct (next_spec s H) as [[s' [-> Hq]]|[s' [p [-> [H' [Hl Hq]]]]]].
  - rewrite (proj1 (Hq ps) Hp). reflexivity.
  - pose proof (proj1 (Hq ps) Hp) as [r [E Hr]]. rewrite E. destruct (sk_handle snk st p) as [[st1 [|]]|]; auto.
    apply IH; auto. pose proof (zlen_nonneg _ (rem s')) as Hz. clear - Hz Hl Hn. lia.
Qed.

Lemma reads_packets : forall reads, Forall read_ok reads ->
  exists ps, packets_of (bytes_of reads) ps /\ (forall qs, packets_of (bytes_of reads) qs -> qs = ps) /\
    fs_all (S (List.length (bytes_of reads))) (fs_init reads) = Some (Ok ps).
Proof.
  intros reads H. destruct (packets_unique_gen (S (List.length (bytes_of reads))) (fs_init reads)) as [ps [P1 [P2 [P3 P4]]]].
  - rewrite init_rem. unfold zlen. lia.
  - apply init_ok; auto.
  - exists ps. auto.
Qed.

Lemma feed_file : forall snk reads ps st fuel, Forall read_ok reads -> packets_of (bytes_of reads) ps ->
  (List.length (bytes_of reads) < fuel)%nat ->
  FeedPackets file_source snk fuel (fs_init reads) st = FeedPackets (list_source (list Z)) snk fuel ps st.
Proof.
  intros snk reads ps st fuel H Hp Hf. unfold FeedPackets.
  destruct (sk_start snk st) as [[s1 [|]]|]; auto.
  rewrite (feed_file_gen snk fuel (fs_init reads) ps s1); auto.
  - rewrite init_rem. unfold zlen. lia.
  - apply init_ok; auto.
Qed.

Lemma chunking : forall snk r1 r2 st fuel, Forall read_ok r1 -> Forall read_ok r2 -> bytes_of r1 = bytes_of r2 ->
  (List.length (bytes_of r1) < fuel)%nat ->
  FeedPackets file_source snk fuel (fs_init r1) st = FeedPackets file_source snk fuel (fs_init r2) st.
Proof.
  intros snk r1 r2 st fuel H1 H2 He Hf. destruct (reads_packets r1 H1) as [ps [P _]].
  rewrite (feed_file snk r1 ps st fuel); auto. rewrite (feed_file snk r2 ps st fuel); auto; congruence.
Qed.

Lemma aligned : forall ps tail, Forall (fun p => zlen p = 188 /\ sync_at p 0) ps -> zlen tail < 188 ->
  packets_of (concat ps ++ tail) ps.
Proof.
  induction ps as [|p ps IH]; intros tail H Ht; cbn [concat app].
  - apply Pk_short; auto.
  - inversion H as [|? ? [H1 H2] H3]; subst. rewrite <- app_assoc. apply Pk_packet; auto.
Qed.

Lemma packet_shape : forall bs ps, packets_of bs ps -> Forall (fun p => zlen p = 188 /\ sync_at p 0) ps.
Proof.
  induction 1; auto. constructor; auto. split; auto.
  destruct H2 as [H2 _]. unfold sync_at in *.
  assert (Hi : 0 <= i <= zlen bs) by lia.
  replace i with (i + 0) in H2 by lia. rewrite <- znth_zdrop in H2 by lia. rewrite H4, znth_app_l in H2 by lia. auto.
Qed.

Lemma all_packets_of : forall n s ps, fs_ok s -> fs_all n s = Some (Ok ps) -> packets_of (rem s) ps.
Proof.
  induction n as [|n IH]; intros s ps H E; [discriminate|]. cbn [fs_all] in E.
  destruct (next_spec s H) as [[s' [E1 Hp]]|[s' [p [E1 [H' [Hl Hp]]]]]]; rewrite E1 in E.
  - injection E as <-. apply Hp. reflexivity.
  - destruct (fs_all n s') as [[r|]|] eqn:A; try discriminate. cbn [bind] in E. injection E as <-.
    apply Hp. exists r. split; [reflexivity|]. apply IH; auto.
Qed.

Lemma delivered_shape : forall reads n ps, Forall read_ok reads -> fs_all n (fs_init reads) = Some (Ok ps) ->
  Forall (fun p => zlen p = 188 /\ sync_at p 0) ps.
Proof.
  intros reads n ps H E. apply (packet_shape (bytes_of reads)). rewrite <- init_rem.
  apply (all_packets_of n); auto. apply init_ok; auto.
Qed.

Lemma aligned_feed : forall snk reads ps tail st fuel, Forall read_ok reads ->
  bytes_of reads = concat ps ++ tail -> Forall (fun p => zlen p = 188 /\ sync_at p 0) ps -> zlen tail < 188 ->
  (List.length (bytes_of reads) < fuel)%nat ->
  FeedPackets file_source snk fuel (fs_init reads) st = FeedPackets (list_source (list Z)) snk fuel ps st.
Proof.
  intros snk reads ps tail st fuel H E Hp Ht Hf. apply feed_file; auto. rewrite E. apply aligned; auto.
Qed.
