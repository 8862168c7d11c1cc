(** The statements about ring sessions. *)
From Coq Require Import ZArith Lia List Bool.
From Verif Require Import Base.Outcome Base.Util Model.Sink Model.FileSource Model.RingFileSink
  Model.RecorderOption Spec.FileSpec Spec.StdoutSpec Proofs.RingProofs.
Import ListNotations.
Open Scope Z_scope.

Lemma concat_packets_len : forall packets, Forall is_packet packets -> zlen (concat packets) = 188 * zlen packets.
Proof.
  induction 1 as [|p ps Hp _ IH]; [reflexivity|].
  cbn [concat]. rewrite zlen_app, zlen_cons, IH, Hp. lia.
Qed.

Lemma session_canon : forall cs nc start ops packets s evs ok,
  valid_geometry cs nc start -> rg_session cs nc start ops packets = Ok (s, evs, ok) ->
  exists w y p n, canon cs (cs * nc) start evs w y p n /\ is_prefix w (concat packets).
Proof.
  intros cs nc start ops packets s evs ok Hg E.
  destruct (session_lemma cs nc start Hg ops packets) as [s' [evs' [ok' [E' [_ [Hr _]]]]]].
  rewrite E in E'. inversion E'; subst. destruct ok'.
  - destruct Hr as [_ _ [w [y [p [n [Hc [HS _]]]]]]]. exists w, y, p, n. split; auto.
    exists (rg_buf s'). auto.
  - destruct Hr as [_ [w [y [p [n [Hc Hp]]]]]]. eauto 8.
Qed.

Lemma prefix_trans : forall A (a b c : list A), is_prefix a b -> is_prefix b c -> is_prefix a c.
Proof. intros A a b c [x ->] [y ->]. exists (x ++ y). rewrite app_assoc. reflexivity. Qed.

Lemma prefix_znth : forall A (a b : list A) i x, is_prefix a b -> znth i a = Some x -> znth i b = Some x.
Proof. intros A a b i x [c ->] H. rewrite znth_app_l; auto. apply znth_range in H. lia. Qed.

(** Everything that is known at any moment of a session. *)
Lemma session_any_time : forall cs nc start ops packets f0 s evs ok,
  valid_geometry cs nc start -> f_pos f0 = 0 ->
  rg_session cs nc start ops packets = Ok (s, evs, ok) ->
  forall t t', evs = t ++ t' ->
  is_prefix (written t) (concat packets) /\
  exists y p, file_inv cs (cs * nc) start f0 (replay f0 t) t (written t) y p (zlen (announced t)).
Proof.
  intros cs nc start ops packets f0 s evs ok Hg Hf0 E t t' Ht.
  destruct (geo cs nc start Hg) as [Hcs [Hring _]].
  destruct (session_canon _ _ _ _ _ _ _ _ Hg E) as [w [y [p [n [Hc Hp]]]]].
  pose proof (canon_file cs (cs * nc) start f0 Hcs Hring Hf0 _ _ _ _ _ Hc) as Hi.
  subst evs. destruct (canon_prefix _ _ _ _ _ _ _ _ _ Hc) as [w1 [y1 [p1 [n1 Hc1]]]].
  pose proof (canon_file cs (cs * nc) start f0 Hcs Hring Hf0 _ _ _ _ _ Hc1) as Hi1.
  assert (Hw : written (t ++ t') = w) by apply Hi.
  assert (Hw1 : written t = w1) by apply Hi1.
  assert (Hn1 : zlen (announced t) = n1) by apply Hi1.
  split.
  - apply prefix_trans with w; auto. rewrite written_app in Hw. exists (written t'). auto.
  - exists y1, p1. rewrite Hw1, Hn1. exact Hi1.
Qed.

Lemma ring_holds_latest : forall cs nc start ops packets f0 s evs ok,
  valid_geometry cs nc start -> f_pos f0 = 0 ->
  rg_session cs nc start ops packets = Ok (s, evs, ok) ->
  forall t t', evs = t ++ t' ->
  is_prefix (written t) (concat packets) /\
  forall i, 0 <= i < zlen (written t) -> zlen (written t) - cs * nc <= i ->
    znth i (concat packets) = Some (f_at (replay f0 t) ((start + i) mod (cs * nc))).
Proof.
  intros. edestruct session_any_time as [Hp [y [p Hi]]]; eauto.
  split; auto. intros i Hi1 Hi2. apply prefix_znth with (written t); auto.
  apply (fi_at _ _ _ _ _ _ _ _ _ _ Hi); auto.
Qed.

Lemma session_accepted : forall cs nc start ops packets s evs,
  valid_geometry cs nc start -> Forall is_packet packets ->
  rg_session cs nc start ops packets = Ok (s, evs, true) ->
  zlen (written evs) = 8192 * (188 * zlen packets / 8192) /\
  zlen (announced evs) = 188 * zlen packets / cs /\
  rg_ring_pos s = (start + 188 * zlen packets) mod (cs * nc).
Proof.
  intros cs nc start ops packets s evs Hg Hpk E.
  destruct (geo cs nc start Hg) as [Hcs [Hring [Hst [G1 [G2 [G3 [G4 G5]]]]]]].
  destruct (session_lemma cs nc start Hg ops packets) as [s' [evs' [ok' [E' [_ [Hr _]]]]]].
  rewrite E in E'. inversion E'; subst.
  destruct Hr as [_ _ [w [y [p [n [Hc [HS [Hw [Hbuf [Hp [Hpos [Hch Hcb]]]]]]]]]]]].
  pose proof (canon_file cs (cs * nc) start (mkFile (fun _ => 0) 0 0 (fun _ => 0) (fun _ => false))
                Hcs Hring eq_refl _ _ _ _ _ Hc) as Hi.
  assert (Hwr : written evs' = w) by apply Hi.
  assert (Hn : zlen (announced evs') = n) by apply Hi.
  pose proof (concat_packets_len _ Hpk) as Hlen. rewrite HS, zlen_app in Hlen.
  pose proof (zlen_nonneg _ (rg_buf s')) as Hb0. pose proof (zlen_nonneg _ w) as Hw0.
  rewrite Hwr, Hn, <- Hlen. rewrite Hch in Hcb.
  assert (Hdiv : (zlen w + zlen (rg_buf s')) / 8192 = zlen w / 8192).
  { pose proof (Z.div_mod (zlen w) 8192 ltac:(lia)). rewrite Hw in *.
    symmetry. apply Z.div_unique with (zlen (rg_buf s')); lia. }
  split; [rewrite Hdiv; pose proof (Z.div_mod (zlen w) 8192 ltac:(lia)); lia|].
  split.
  - pose proof (chunk_room cs nc start Hg _ _ Hw Hcb) as Hroom.
    apply Z.div_unique with (zlen w + zlen (rg_buf s') - n * cs); lia.
  - rewrite Hpos, Z.add_assoc. symmetry. apply mod_fwd; auto.
    pose proof (block_room cs nc start Hg _ Hw) as Hroom. lia.
Qed.

Lemma announcements : forall cs nc start ops packets s evs ok,
  valid_geometry cs nc start ->
  rg_session cs nc start ops packets = Ok (s, evs, ok) ->
  forall t t', evs = t ++ t' ->
  cs * zlen (announced t) <= zlen (written t) <= cs * (zlen (announced t) + 1) /\
  forall k, 0 <= k < zlen (announced t) ->
    znth k (announced t) = Some (chunk_end cs (cs * nc) start k).
Proof.
  intros cs nc start ops packets s evs ok Hg E t t' Ht.
  pose (f0 := mkFile (fun _ => 0) 0 0 (fun _ => 0) (fun _ => false)).
  destruct (session_any_time _ _ _ _ _ f0 _ _ _ Hg eq_refl E t t' Ht) as [_ [y [p Hi]]].
  destruct Hi. split; [lia|auto].
Qed.

Lemma announced_durable : forall cs nc start ops packets f0 s evs ok,
  valid_geometry cs nc start -> f_pos f0 = 0 ->
  rg_session cs nc start ops packets = Ok (s, evs, ok) ->
  forall t t' disk, evs = t ++ t' -> after_crash (replay f0 t) disk ->
  forall i, 0 <= i < cs * zlen (announced t) -> zlen (written t) <= i + cs * nc ->
    znth i (concat packets) = Some (disk ((start + i) mod (cs * nc))).
Proof.
  intros cs nc start ops packets f0 s evs ok Hg Hf0 E t t' disk Ht Hd i Hi Hi2.
  destruct (session_any_time _ _ _ _ _ f0 _ _ _ Hg Hf0 E t t' Ht) as [Hp [y [p Hinv]]].
  apply prefix_znth with (written t); auto.
  destruct Hinv as [_ _ _ _ H5 _ _ _ _ H10 _].
  destruct (H5 i ltac:(lia) ltac:(lia)) as [Hdirty Hs]. rewrite Hs. rewrite Hd; auto.
Qed.

Lemma session_total : forall cs nc start ops packets,
  valid_geometry cs nc start ->
  exists s evs ok, rg_session cs nc start ops packets = Ok (s, evs, ok).
Proof.
  intros cs nc start ops packets Hg.
  destruct (session_lemma cs nc start Hg ops packets) as [s [evs [ok [E _]]]]. eauto.
Qed.

Lemma session_length : forall cs nc start ops packets f0 s evs ok,
  valid_geometry cs nc start -> f_pos f0 = 0 -> f_len f0 <= cs * nc ->
  rg_session cs nc start ops packets = Ok (s, evs, ok) ->
  forall t t', evs = t ++ t' -> f_len (replay f0 t) <= cs * nc.
Proof.
  intros cs nc start ops packets f0 s evs ok Hg Hf0 Hl E t t' Ht.
  destruct (session_any_time _ _ _ _ _ f0 _ _ _ Hg Hf0 E t t' Ht) as [_ [y [p Hinv]]].
  destruct Hinv. lia.
Qed.

Lemma clean_In : forall evs e, clean evs -> In e evs -> is_failure e = false.
Proof.
  unfold clean. intros evs e H Hin. rewrite forallb_forall in H. specialize (H _ Hin).
  apply negb_true_iff in H. auto.
Qed.

Lemma session_errors : forall cs nc start ops packets s evs ok,
  valid_geometry cs nc start ->
  rg_session cs nc start ops packets = Ok (s, evs, ok) ->
  (ok = false <-> exists e, In e evs /\ is_failure e = true) /\
  (forall t e t', evs = t ++ e :: t' -> is_failure e = true -> t' = []) /\
  (rg_broken s = true -> ok = false) /\
  (forall s0 evs0, rg_open cs nc start ops = Ok (s0, evs0, true) -> ok = false ->
     rg_broken s = true /\ rg_GetExitCode s = 1) /\
  (ok = true -> rg_GetExitCode s = 0).
Proof.
  intros cs nc start ops packets s evs ok Hg E.
  destruct (session_lemma cs nc start Hg ops packets) as [s' [evs' [ok' [E' [Ho [_ [Hb1 Hb2]]]]]]].
  rewrite E in E'. inversion E'; subst. clear E'.
  split; [|split; [|split; [auto|split]]].
  - destruct ok'; cbn in Ho.
    + split; [discriminate|]. intros [e [Hin He]]. rewrite (clean_In _ _ Ho Hin) in He. discriminate.
    + split; auto. intros _. destruct Ho as [a [e [-> [_ He]]]]. exists e. split; auto.
      apply in_or_app. right. left. reflexivity.
  - intros t e t' -> He. destruct ok'; cbn in Ho.
    + rewrite (clean_In _ e Ho) in He; [discriminate|]. apply in_or_app. right. left. reflexivity.
    + destruct Ho as [a [e' [Ha [Hc He']]]].
      destruct t' as [|x t'] using rev_ind; auto. clear IHt'. exfalso.
      rewrite app_comm_cons, app_assoc in Ha. apply app_inj_tail in Ha as [Ha _].
      rewrite <- Ha in Hc. rewrite (clean_In _ e Hc) in He; [discriminate|].
      apply in_or_app. right. left. reflexivity.
  - intros s0 evs0 Hopen Hok. pose proof (Hb2 _ _ Hopen Hok) as Hb. split; auto.
    unfold rg_GetExitCode. rewrite Hb. reflexivity.
  - intros ->. unfold rg_GetExitCode. destruct (rg_broken s'); auto.
    specialize (Hb1 eq_refl). discriminate.
Qed.

Lemma options_valid : forall chunk_size num_chunks start_pos cs nc start,
  (forall pos, start_pos = Some pos -> 0 <= pos) ->
  load_recorder_option chunk_size num_chunks start_pos = Some (cs, nc, start) ->
  valid_geometry cs nc start.
Proof.
  intros c n sp cs nc start Hpos H. unfold load_recorder_option in H.
  change kRingBufferSize with 8192 in H. change kMaxChunkSize with (8192 * 262143) in H.
  change kMaxNumChunks with 2147483647 in H.
  destruct (Z.eqb_spec (u64 c) 0); [discriminate|].
  destruct (Z.eqb_spec (u64 c mod 8192) 0); [|discriminate]. cbn [negb] in H.
  destruct (Z.ltb_spec (8192 * 262143) (u64 c)); [discriminate|].
  destruct (Z.eqb_spec (u64 n) 0); [discriminate|].
  destruct (Z.ltb_spec 2147483647 (u64 n)); [discriminate|].
  assert (Hc : 0 <= u64 c) by (apply Z.mod_pos_bound; lia).
  assert (Hn : 0 <= u64 n) by (apply Z.mod_pos_bound; lia).
  assert (Hu : u64 (u64 c * u64 n) = u64 c * u64 n).
  { set (a := u64 c) in *. set (b := u64 n) in *. unfold u64. apply Z.mod_small. nia. }
  destruct sp as [pos|].
  - specialize (Hpos pos eq_refl). rewrite Hu in H.
    destruct (Z.eqb_spec (pos mod u64 c) 0); [|discriminate]. cbn [negb] in H.
    destruct (Z.leb_spec (u64 c * u64 n) pos); [discriminate|].
    inversion H; subst. repeat split; auto; lia.
  - inversion H; subst. repeat split; auto; try lia; nia.
Qed.

Lemma options_safe : forall chunk_size num_chunks start_pos cs nc start ops,
  (forall pos, start_pos = Some pos -> 0 <= pos) ->
  load_recorder_option chunk_size num_chunks start_pos = Some (cs, nc, start) ->
  valid_geometry cs nc start /\ cs * nc <= 2 ^ 63 - 1 /\
  exists s evs ok, rg_open cs nc start ops = Ok (s, evs, ok) /\
    rg_ring_size s = cs * nc /\ rg_chunk_size s = cs /\ (ok = true -> rg_ring_pos s = start).
Proof.
  intros c n sp cs nc start ops Hpos H.
  pose proof (options_valid _ _ _ _ _ _ Hpos H) as Hg. split; auto.
  destruct (geo cs nc start Hg) as [Hcs [Hring [Hst [G1 [G2 [G3 [G4 G5]]]]]]]. split; [lia|].
  destruct (open_lemma cs nc start Hg ops) as [s [evs [ok [E [_ [_ [_ Hr]]]]]]].
  exists s, evs, ok. split; auto. destruct ok.
  - destruct Hr as [[C1 C2 C3] _ [w [y [p [m [Hc [HS [_ [_ [Hp [Hps _]]]]]]]]]]].
    symmetry in HS. apply app_eq_nil in HS as [-> Hb]. rewrite Hb, zlen_nil in *.
    split; auto. split; auto. intros _. rewrite Z.add_0_r, Z.mod_small in Hp by lia. lia.
  - destruct Hr as [[C1 C2 C3] _]. split; auto. split; auto. discriminate.
Qed.
