(** Proofs about the ring sink. *)
From Coq Require Import ZArith Lia List Bool.
From Verif Require Import Base.Outcome Base.Util Model.Sink Model.FileSource Model.RingFileSink
  Spec.FileSpec Spec.StdoutSpec Proofs.SourceProofs.
Import ListNotations.
Open Scope Z_scope.

Lemma mod_back : forall ring a d p, 0 < ring -> a mod ring = p -> 0 < d <= ring ->
  (a - d) mod ring = (if d <=? p then p - d else p - d + ring).
Proof.
  intros ring a d p Hr Hp Hd.
  pose proof (Z.mod_pos_bound a ring Hr) as Hb. rewrite Hp in Hb.
  pose proof (Z.div_mod a ring ltac:(lia)) as Hdm. rewrite Hp in Hdm.
  destruct (Z.leb_spec d p).
  - symmetry. apply Z.mod_unique with (a / ring); lia.
  - symmetry. apply Z.mod_unique with (a / ring - 1); lia.
Qed.

Lemma mod_fwd : forall ring a j p, 0 < ring -> a mod ring = p -> 0 <= j -> p + j < ring ->
  (a + j) mod ring = p + j.
Proof.
  intros ring a j p Hr Hp Hj Hlt.
  pose proof (Z.mod_pos_bound a ring Hr) as Hb. rewrite Hp in Hb.
  pose proof (Z.div_mod a ring ltac:(lia)) as Hdm. rewrite Hp in Hdm.
  symmetry. apply Z.mod_unique with (a / ring); lia.
Qed.

Lemma mod_full : forall ring a j p, 0 < ring -> a mod ring = p -> p + j = ring ->
  (a + j) mod ring = 0.
Proof.
  intros ring a j p Hr Hp Hlt.
  pose proof (Z.div_mod a ring ltac:(lia)) as Hdm. rewrite Hp in Hdm.
  symmetry. apply Z.mod_unique with (a / ring + 1); lia.
Qed.

Section Canon.
Context (cs ring start : Z).

(** Traces in which every write happens at the right offset, and every
    announcement follows a sync at a chunk boundary.  [w]: bytes written; [y]:
    how many of them were synced; [p]: file offset; [n]: announcements. *)
Inductive canon : list ring_event -> list Z -> Z -> Z -> Z -> Prop :=
| c_nil : canon [] [] 0 0 0
| c_write : forall t w y p n bs,
    canon t w y p n -> p = (start + zlen w) mod ring -> p + zlen bs <= ring ->
    zlen w + zlen bs <= (n + 1) * cs ->
    canon (t ++ [EvWrite bs]) (w ++ bs) y (p + zlen bs) n
| c_sync : forall t w y p n, canon t w y p n -> canon (t ++ [EvSync]) w (zlen w) p n
| c_trunc : forall t w y p n, canon t w y p n -> canon (t ++ [EvTrunc ring]) w y p n
| c_seek : forall t w y p n o, canon t w y p n -> o = (start + zlen w) mod ring ->
    canon (t ++ [EvSeek o]) w y o n
| c_notify : forall t w y p n q, canon t w y p n -> y = zlen w -> zlen w = (n + 1) * cs ->
    q = chunk_end cs ring start n ->
    canon (t ++ [EvNotify q]) w y p (n + 1)
| c_fail : forall t w y p n e, canon t w y p n -> is_failure e = true -> canon (t ++ [e]) w y p n.

Lemma canon_prefix : forall t2 t1 w y p n, canon (t1 ++ t2) w y p n ->
  exists w' y' p' n', canon t1 w' y' p' n'.
Proof.
  induction t2 as [|e t2 IH] using rev_ind; intros t1 w y p n H.
  - rewrite app_nil_r in H. eauto 8.
  - rewrite app_assoc in H.
    remember ((t1 ++ t2) ++ [e]) as t eqn:E.
    destruct H; try (apply app_inj_tail in E as [E _]; subst; eapply IH; eassumption).
    symmetry in E. apply app_eq_nil in E as [_ E]. discriminate.
Qed.

Lemma replay_snoc : forall f t e, replay f (t ++ [e]) = file_step (replay f t) e.
Proof. intros. unfold replay. rewrite fold_left_app. reflexivity. Qed.

Lemma written_app : forall a b, written (a ++ b) = written a ++ written b.
Proof.
  induction a as [|e a IH]; intros b; cbn; auto.
  destruct e; cbn; rewrite ?IH, ?app_assoc; auto.
Qed.

Lemma announced_app : forall a b, announced (a ++ b) = announced a ++ announced b.
Proof.
  induction a as [|e a IH]; intros b; cbn; auto.
  destruct e; cbn; rewrite ?IH, ?app_assoc; auto.
Qed.

Record file_inv (f0 f : file) (t : list ring_event) (w : list Z) (y p n : Z) : Prop := {
  fi_pos : f_pos f = p;
  fi_p : 0 <= p <= ring;
  fi_at : forall i, 0 <= i < zlen w -> zlen w - ring <= i ->
    znth i w = Some (f_at f ((start + i) mod ring));
  fi_y : 0 <= y <= zlen w;
  fi_synced : forall i, 0 <= i < y -> zlen w - ring <= i ->
    f_dirty f ((start + i) mod ring) = false /\ znth i w = Some (f_synced f ((start + i) mod ring));
  fi_len : f_len f <= Z.max (f_len f0) ring;
  fi_written : written t = w;
  fi_n : zlen (announced t) = n;
  fi_ann : forall k, 0 <= k < n -> znth k (announced t) = Some (chunk_end cs ring start k);
  fi_ny : n * cs <= y;
  fi_wn : zlen w <= (n + 1) * cs }.

Lemma canon_file : forall f0, 0 < cs -> 0 < ring -> f_pos f0 = 0 ->
  forall t w y p n, canon t w y p n -> file_inv f0 (replay f0 t) t w y p n.
Proof.
  intros f0 Hcs Hring Hf0 t w y p n H.
  induction H as [| t w y p n bs H IH Hp Hle Hn | t w y p n H IH | t w y p n H IH
                  | t w y p n o H IH Ho | t w y p n q H IH Hy Hw Hq | t w y p n e H IH He].
  - split; cbn; auto; rewrite ?zlen_nil; intros; try lia.
  - destruct IH as [I1 I2 I3 I4 I5 I6 I7 I8 I9 I10 I11].
    rewrite replay_snoc. set (f := replay f0 t) in *.
    pose proof (zlen_nonneg _ bs) as Hbs. pose proof (zlen_nonneg _ w) as Hwl.
    assert (Hold : forall i, 0 <= i < zlen w -> zlen w + zlen bs - ring <= i ->
              in_range ((start + i) mod ring) p (zlen bs) = false).
    { intros i Hi Hlow. unfold in_range. symmetry in Hp.
      pose proof (mod_back ring (start + zlen w) (zlen w - i) p Hring Hp ltac:(lia)) as Hm.
      replace (start + zlen w - (zlen w - i)) with (start + i) in Hm by lia. rewrite Hm.
      destruct (Z.leb_spec (zlen w - i) p); apply andb_false_iff;
        [left; apply Z.leb_gt | right; apply Z.ltb_ge]; lia. }
    split.
    + cbn. lia.
    + lia.
    + intros i Hi Hlow. rewrite zlen_app in *. cbn [file_step f_at]. rewrite I1.
      destruct (Z.lt_ge_cases i (zlen w)).
      * rewrite Hold by lia. rewrite znth_app_l by lia. apply I3; lia.
      * replace (start + i) with (start + zlen w + (i - zlen w)) by lia.
        rewrite (mod_fwd ring _ _ p) by lia.
        unfold in_range.
        destruct (Z.leb_spec p (p + (i - zlen w))); [|lia].
        destruct (Z.ltb_spec (p + (i - zlen w)) (p + zlen bs)); [|lia]. cbn [andb].
        replace (p + (i - zlen w) - p) with (i - zlen w) by lia.
        rewrite znth_app_r by lia.
        destruct (znth_some _ (i - zlen w) bs ltac:(lia)) as [b E]. rewrite E. reflexivity.
    + rewrite zlen_app. lia.
    + intros i Hi Hlow. rewrite zlen_app in Hlow. cbn [file_step f_dirty f_synced]. rewrite I1.
      rewrite Hold by lia. cbn [orb]. rewrite znth_app_l by lia. apply I5; lia.
    + cbn. lia.
    + rewrite written_app, I7. cbn. rewrite app_nil_r. reflexivity.
    + rewrite announced_app. cbn. rewrite app_nil_r. auto.
    + rewrite announced_app. cbn. rewrite app_nil_r. auto.
    + auto.
    + rewrite zlen_app. lia.
  - destruct IH as [I1 I2 I3 I4 I5 I6 I7 I8 I9 I10 I11].
    rewrite replay_snoc. set (f := replay f0 t) in *.
    split; cbn; auto; try lia; rewrite ?written_app, ?announced_app, ?app_nil_r; auto.
  - destruct IH as [I1 I2 I3 I4 I5 I6 I7 I8 I9 I10 I11].
    rewrite replay_snoc. set (f := replay f0 t) in *.
    assert (Hin : forall i, ((start + i) mod ring <? ring) = true).
    { intros i. apply Z.ltb_lt. apply Z.mod_pos_bound. lia. }
    split; cbn; auto; try lia; rewrite ?written_app, ?announced_app, ?app_nil_r; auto.
    + intros i Hi Hl. rewrite Hin. auto.
    + intros i Hi Hl. rewrite Hin. cbn. auto.
  - destruct IH as [I1 I2 I3 I4 I5 I6 I7 I8 I9 I10 I11].
    rewrite replay_snoc. set (f := replay f0 t) in *.
    pose proof (Z.mod_pos_bound (start + zlen w) ring Hring).
    split; cbn; auto; try lia; rewrite ?written_app, ?announced_app, ?app_nil_r; auto.
  - destruct IH as [I1 I2 I3 I4 I5 I6 I7 I8 I9 I10 I11].
    rewrite replay_snoc. set (f := replay f0 t) in *.
    split; cbn; auto; try lia; rewrite ?written_app, ?announced_app, ?app_nil_r; auto.
    + rewrite zlen_app. cbn. rewrite I8. reflexivity.
    + intros k Hk. cbn. destruct (Z.eq_dec k n).
      * subst k. rewrite znth_app_r by lia. rewrite I8, Z.sub_diag. cbn. subst q. reflexivity.
      * rewrite znth_app_l by lia. apply I9. lia.
  - destruct IH as [I1 I2 I3 I4 I5 I6 I7 I8 I9 I10 I11].
    rewrite replay_snoc. set (f := replay f0 t) in *.
    destruct e; try discriminate;
      (split; cbn; auto; try lia; rewrite ?written_app, ?announced_app, ?app_nil_r; auto).
Qed.

End Canon.

Definition clean (evs : list ring_event) : Prop := forallb (fun e => negb (is_failure e)) evs = true.

Lemma clean_app : forall a b, clean a -> clean b -> clean (a ++ b).
Proof. unfold clean. intros. rewrite forallb_app, H, H0. reflexivity. Qed.

(** Success: no failure in the events.  Failure: exactly one, the last. *)
Definition outcome (evs : list ring_event) (ok : bool) : Prop :=
  if ok then clean evs else exists a e, evs = a ++ [e] /\ clean a /\ is_failure e = true.

Lemma outcome_app : forall a b ok, clean a -> outcome b ok -> outcome (a ++ b) ok.
Proof.
  unfold outcome. intros a b [|] Ha Hb; [apply clean_app; auto|].
  destruct Hb as [c [e [-> [Hc He]]]]. exists (a ++ c), e.
  rewrite app_assoc. split; [reflexivity|]. split; [apply clean_app|]; auto.
Qed.

Lemma outcome_failing : forall a e, clean a -> is_failure e = true -> outcome (a ++ [e]) false.
Proof. intros. exists a, e. auto. Qed.

Lemma mult_room : forall p r c, 0 < c -> p mod c = 0 -> r mod c = 0 -> p < r -> p + c <= r.
Proof.
  intros p r c Hc Hp Hr H. apply Z.mod_divide in Hp, Hr; try lia. destruct Hp as [a ->], Hr as [b ->].
  assert (a < b) by (apply Z.mul_lt_mono_pos_r with c; lia). nia.
Qed.

Section Run.
Context (cs nc start : Z).
Context (Hgeo : valid_geometry cs nc start).
Let ring := cs * nc.

Lemma geo : 0 < cs /\ 0 < ring /\ 0 <= start < ring /\ cs mod 8192 = 0 /\ start mod cs = 0 /\
  ring < 2 ^ 62 /\ ring mod cs = 0 /\ cs <= ring.
Proof.
  destruct Hgeo as [H1 [H2 [H3 [H4 H5]]]]. subst ring.
  repeat split; try lia; try nia.
  rewrite Z.mul_comm. apply Z.mod_mul. lia.
Qed.


Lemma mod_mod_div : forall a b c, 0 < b -> 0 < c -> c mod b = 0 -> (a mod c) mod b = a mod b.
Proof.
  intros a b c Hb Hc H. apply Z.mod_divide in H; [|lia]. destruct H as [k ->].
  rewrite (Z.mul_comm k b). rewrite Z.rem_mul_r by nia.
  rewrite (Z.mul_comm b ((a / b) mod k)), Z.mod_add by lia. apply Z.mod_mod. lia.
Qed.

Lemma mod_mult_trans : forall a b c, 0 < b -> 0 < c -> a mod b = 0 -> b mod c = 0 -> a mod c = 0.
Proof.
  intros a b c Hb Hc H1 H2. apply Z.mod_divide in H1, H2; try lia. apply Z.mod_divide; [lia|].
  etransitivity; eauto.
Qed.

Lemma write_lemma : forall ops rest t w y p n,
  canon cs ring start t w y p n -> p = (start + zlen w) mod ring ->
  p + zlen rest <= ring -> zlen w + zlen rest <= (n + 1) * cs ->
  exists evs ops' (ok : bool), rg_write rest ops = (evs, ops', ok) /\ outcome evs ok /\
    if ok then canon cs ring start (t ++ evs) (w ++ rest) y (p + zlen rest) n
    else exists bs p', is_prefix bs rest /\ canon cs ring start (t ++ evs) (w ++ bs) y p' n.
Proof.
  destruct geo as [Hcs [Hring [Hst [G1 [G2 [G3 [G4 G5]]]]]]].
  induction ops as [|r o IH]; intros rest t w y p n Hc Hp Hle Hn; cbn [rg_write].
  - destruct (Z.eqb_spec (zlen rest) 0) as [E|E].
    + exists [], [], true. split; [reflexivity|]. split; [reflexivity|].
      assert (rest = []) by (destruct rest; auto; rewrite zlen_cons in E; pose proof (zlen_nonneg _ rest); lia).
      subst. rewrite !app_nil_r, zlen_nil, Z.add_0_r. auto.
    + exists [EvWrite rest], [], true. split; [reflexivity|]. split; [reflexivity|].
      constructor; auto.
  - destruct (Z.eqb_spec (zlen rest) 0) as [E|E].
    + exists [], (r :: o), true. split; [reflexivity|]. split; [reflexivity|].
      assert (rest = []) by (destruct rest; auto; rewrite zlen_cons in E; pose proof (zlen_nonneg _ rest); lia).
      subst. rewrite !app_nil_r, zlen_nil, Z.add_0_r. auto.
    + destruct (Z.leb_spec r 0) as [Hr|Hr].
      * exists [EvWriteFail], o, false. split; [reflexivity|].
        split; [exists [], EvWriteFail; repeat split|].
        exists [], p. split; [exists rest; reflexivity|]. rewrite app_nil_r. apply c_fail; auto.
      * pose proof (zlen_nonneg _ rest) as Hrl.
        assert (Ht : zlen (ztake r rest) = Z.min r (zlen rest)) by (rewrite zlen_ztake; lia).
        assert (Hd : zlen (zdrop r rest) = zlen rest - Z.min r (zlen rest)) by (rewrite zlen_zdrop; lia).
        assert (Hc1 : canon cs ring start (t ++ [EvWrite (ztake r rest)]) (w ++ ztake r rest) y
                        (p + zlen (ztake r rest)) n) by (constructor; auto; lia).
        destruct (Z.eq_dec (zlen (zdrop r rest)) 0) as [Z0|Z0].
        -- assert (rg_write (zdrop r rest) o = ([], o, true)) as ->.
           { destruct o; cbn; rewrite Z0; reflexivity. }
           exists [EvWrite (ztake r rest)], o, true. split; [reflexivity|]. split; [reflexivity|].
           assert (ztake r rest = rest) as E2 by (apply ztake_all; lia).
           rewrite E2 in *. auto.
        -- destruct (IH (zdrop r rest) _ _ _ _ _ Hc1) as [evs [ops' [ok [E1 [E2 E3]]]]].
           ++ rewrite zlen_app. rewrite Z.add_assoc. symmetry. apply mod_fwd; auto; lia.
           ++ lia.
           ++ rewrite zlen_app. lia.
           ++ rewrite E1. exists (EvWrite (ztake r rest) :: evs), ops', ok. split; [reflexivity|].
              split; [apply (outcome_app [EvWrite (ztake r rest)]); auto; reflexivity|].
              rewrite <- app_assoc in E3. cbn [app] in E3.
              destruct ok.
              ** rewrite <- app_assoc, ztake_zdrop in E3.
                 replace (p + zlen (ztake r rest) + zlen (zdrop r rest)) with (p + zlen rest) in E3 by lia. auto.
              ** destruct E3 as [bs [p' [[c Hc'] Hcan]]].
                 exists (ztake r rest ++ bs), p'. split.
                 --- exists c. rewrite <- app_assoc, <- Hc', ztake_zdrop. reflexivity.
                 --- rewrite app_assoc. auto.
Qed.

Record rcfg (s : RingFileSink.ring) : Prop := {
  rc_cs : rg_chunk_size s = cs;
  rc_ring : rg_ring_size s = ring;
  rc_obs : rg_observed s = true }.

Record rinv (s : RingFileSink.ring) (t : list ring_event) (S : list Z) (full : bool) : Prop := mkRinv {
  ri_cfg : rcfg s;
  ri_broken : rg_broken s = false;
  ri_ex : exists w y p n, canon cs ring start t w y p n /\ S = w ++ rg_buf s /\ zlen w mod 8192 = 0 /\
    (if full then zlen (rg_buf s) = 8192 else zlen (rg_buf s) < 8192) /\
    p = (start + zlen w) mod ring /\ rg_ring_pos s = p + zlen (rg_buf s) /\
    rg_chunk_pos s = zlen w - n * cs /\ 0 <= rg_chunk_pos s < cs }.

Lemma block_room : forall w, w mod 8192 = 0 -> (start + w) mod ring + 8192 <= ring.
Proof.
  intros w Hw. destruct geo as [Hcs [Hring [Hst [G1 [G2 [G3 [G4 G5]]]]]]].
  assert (Hr8 : ring mod 8192 = 0) by (apply mod_mult_trans with cs; auto; lia).
  assert (Hs8 : start mod 8192 = 0) by (apply mod_mult_trans with cs; auto; lia).
  assert (Hp : ((start + w) mod ring) mod 8192 = 0).
  { rewrite mod_mod_div by (auto; lia). rewrite Z.add_mod, Hs8, Hw by lia. reflexivity. }
  pose proof (Z.mod_pos_bound (start + w) ring Hring).
  set (p := (start + w) mod ring) in *. clearbody p. clear -Hp Hr8 H.
  apply Z.mod_divide in Hp, Hr8; try lia. destruct Hp as [a Ha], Hr8 as [b Hb]. lia.
Qed.

Lemma chunk_room : forall w n, w mod 8192 = 0 -> 0 <= w - n * cs < cs -> w - n * cs + 8192 <= cs.
Proof.
  intros w n Hw H. destruct geo as [Hcs [Hring [Hst [G1 [G2 [G3 [G4 G5]]]]]]].
  clear -Hw H G1. apply Z.mod_divide in Hw, G1; try lia. destruct Hw as [a Ha], G1 as [b Hb].
  subst. nia.
Qed.

Lemma at_boundary : forall w n, zlen (A := Z) w = (n + 1) * cs ->
  forall p, (start + (zlen w - cs)) mod ring = p -> p + cs <= ring.
Proof.
  intros w n Hw p Hp. destruct geo as [Hcs [Hring [Hst [G1 [G2 [G3 [G4 G5]]]]]]].
  assert (Hm : p mod cs = 0).
  { rewrite <- Hp. rewrite mod_mod_div by (auto; lia). rewrite Hw.
    replace (start + ((n + 1) * cs - cs)) with (start + n * cs) by lia. rewrite Z.mod_add by lia. auto. }
  pose proof (Z.mod_pos_bound (start + (zlen w - cs)) ring Hring) as Hb. rewrite Hp in Hb.
  apply mult_room; auto; lia.
Qed.

(** What holds after a refused packet. *)
Definition rfail (s : RingFileSink.ring) (t : list ring_event) (S : list Z) : Prop :=
  rcfg s /\ exists w y p n, canon cs ring start t w y p n /\ is_prefix w S.

Lemma wrap_lemma : forall s t w y p n,
  rcfg s -> rg_broken s = false -> rg_buf s = [] ->
  canon cs ring start t w y p n -> zlen w mod 8192 = 0 ->
  (p = (start + zlen w) mod ring \/ p = ring /\ (start + zlen w) mod ring = 0) ->
  rg_ring_pos s = p -> rg_chunk_pos s = zlen w - n * cs -> 0 <= rg_chunk_pos s < cs ->
  exists s' evs (ok : bool), rg_wrap s = (s', evs, ok) /\ outcome evs ok /\
    if ok then rinv s' (t ++ evs) w false else rfail s' (t ++ evs) w.
Proof.
  intros s t w y p n [C1 C2 C3] Hb Hbuf Hc Hw Hp Hpos Hchp Hcb.
  destruct geo as [Hcs [Hring [Hst [G1 [G2 [G3 [G4 G5]]]]]]].
  unfold rg_wrap. rewrite C2, Hpos.
  destruct (Z.eqb_spec p ring) as [E|E].
  - assert (H0 : (start + zlen w) mod ring = 0).
    { destruct Hp as [Hp|[_ Hp]]; auto. pose proof (Z.mod_pos_bound (start + zlen w) ring Hring). lia. }
    destruct (rg_next (rg_ops s)) as [ok1 ops1]. destruct ok1; cbn [negb].
    + destruct (rg_next ops1) as [ok2 ops2]. destruct ok2; cbn [negb].
      * do 3 eexists. split; [reflexivity|]. split; [reflexivity|].
        split; [split; cbn; auto|cbn; auto|].
        exists w, y, 0, n. cbn. rewrite Hbuf, app_nil_r, zlen_nil.
        split; [|repeat split; auto; try lia; congruence].
        change [EvTrunc ring; EvSeek 0] with ([EvTrunc ring] ++ [EvSeek 0]). rewrite app_assoc.
        apply c_seek with p; auto. apply c_trunc. auto.
      * do 3 eexists. split; [reflexivity|]. split.
        { exists [EvTrunc ring], EvSeekFail. repeat split. }
        split; [split; cbn; auto|]. exists w, y, p, n. split; [|exists []; rewrite app_nil_r; auto].
        change [EvTrunc ring; EvSeekFail] with ([EvTrunc ring] ++ [EvSeekFail]). rewrite app_assoc.
        apply c_fail; auto. apply c_trunc. auto.
    + do 3 eexists. split; [reflexivity|]. split.
      { exists [], EvTruncFail. repeat split. }
      split; [split; cbn; auto|]. exists w, y, p, n. split; [|exists []; rewrite app_nil_r; auto].
      apply c_fail; auto.
  - destruct Hp as [Hp|[Hp _]]; [|lia].
    do 3 eexists. split; [reflexivity|]. split; [reflexivity|].
    split; [split; auto|auto|]. exists w, y, p, n. rewrite app_nil_r, Hbuf, app_nil_r, zlen_nil.
    repeat split; auto; lia.
Qed.

Lemma flush_lemma : forall s t S, rinv s t S true ->
  exists s' evs (ok : bool), rg_Flush s = Ok (s', evs, ok) /\ outcome evs ok /\
    if ok then rinv s' (t ++ evs) S false /\ rg_buf s' = [] else rfail s' (t ++ evs) S.
Proof.
  intros s t S [[C1 C2 C3] Hb [w [y [p [n [Hc [HS [Hw [Hbuf [Hp [Hpos [Hchp Hcb]]]]]]]]]]]].
  destruct geo as [Hcs [Hring [Hst [G1 [G2 [G3 [G4 G5]]]]]]].
  pose proof (block_room _ Hw) as Hroom. rewrite <- Hp in Hroom.
  rewrite Hchp in Hcb. pose proof (chunk_room _ _ Hw Hcb) as Hcroom.
  unfold rg_Flush. change kRingBufferSize with 8192.
  rewrite Hbuf, Z.eqb_refl. rewrite assert_true by reflexivity.
  destruct (write_lemma (rg_ops s) (rg_buf s) t w y p n Hc Hp ltac:(lia) ltac:(lia))
    as [evs [ops [ok [E1 [E2 E3]]]]].
  rewrite E1. destruct ok; cbn [negb].
  2:{ do 3 eexists. split; [reflexivity|]. split; [exact E2|].
      destruct E3 as [bs [p' [[c Hbs] Hcan]]].
      split; [split; cbn; auto|]. exists (w ++ bs), y, p', n. split; auto.
      exists c. rewrite HS, <- app_assoc, <- Hbs. reflexivity. }
  rewrite Hbuf in E3. rewrite C1, Hchp.
  assert (Hw2 : zlen (w ++ rg_buf s) = zlen w + 8192) by (rewrite zlen_app; lia).
  assert (Hw2m : zlen (w ++ rg_buf s) mod 8192 = 0).
  { rewrite Hw2. replace (zlen w + 8192) with (zlen w + 1 * 8192) by lia. rewrite Z.mod_add by lia. auto. }
  assert (Hp2 : p + 8192 = (start + zlen (w ++ rg_buf s)) mod ring \/
                p + 8192 = ring /\ (start + zlen (w ++ rg_buf s)) mod ring = 0).
  { rewrite Hw2, Z.add_assoc. symmetry in Hp.
    destruct (Z.eq_dec (p + 8192) ring); [right|left].
    - split; auto. apply mod_full with p; auto.
    - symmetry. apply mod_fwd; auto; lia. }
  assert (Hbig : (zlen w - n * cs + 8192 <=? cs) = true) by (apply Z.leb_le; lia).
  rewrite Hbig. rewrite assert_true by reflexivity. rewrite Hpos, Hbuf, C2, C3.
  destruct (Z.eqb_spec (zlen w - n * cs + 8192) cs) as [Eb|Eb].
  - pose proof (Z.mod_pos_bound (start + zlen w) ring Hring) as Hpb. rewrite <- Hp in Hpb.
    assert (Hnz : negb (p + 8192 =? 0) = true).
    { apply negb_true_iff, Z.eqb_neq. lia. }
    rewrite Hnz. rewrite assert_true by reflexivity.
    assert (Hpm : (p + 8192) mod cs = 0).
    { rewrite Hp. rewrite Z.add_mod by lia. rewrite mod_mod_div by (auto; lia).
      rewrite <- Z.add_mod by lia. replace (start + zlen w + 8192) with (start + (n + 1) * cs) by lia.
      rewrite Z.mod_add by lia. auto. }
    rewrite Hpm, Z.eqb_refl. rewrite assert_true by reflexivity.
    destruct (rg_next ops) as [ok1 ops1]. destruct ok1; cbn [negb].
    + assert (Hw3 : zlen (w ++ rg_buf s) = (n + 1) * cs) by lia.
      assert (Hcan : canon cs ring start (t ++ evs ++ [EvSync] ++ [EvNotify (p + 8192)]) (w ++ rg_buf s)
                       (zlen (w ++ rg_buf s)) (p + 8192) (n + 1)).
      { rewrite !app_assoc. apply c_notify; auto.
        - apply c_sync with y. auto.
        - unfold chunk_end. symmetry.
          pose proof (at_boundary _ _ Hw3 _ eq_refl) as Hab.
          replace (start + (zlen (w ++ rg_buf s) - cs)) with (start + n * cs) in Hab by lia.
          pose proof (Z.mod_pos_bound (start + n * cs) ring Hring) as Hpb2.
          set (q := (start + n * cs) mod ring) in *.
          rewrite Hp. replace (start + zlen w) with (start + n * cs + (cs - 8192)) by lia.
          assert (8192 <= cs).
          { clear -G1 Hcs. apply Z.mod_divide in G1; [|lia]. destruct G1 as [k Hk]. lia. }
          rewrite (mod_fwd ring _ _ q) by (auto; lia). lia. }
      edestruct (wrap_lemma
        {| rg_chunk_size := cs; rg_ring_size := ring; rg_observed := true; rg_buf := [];
           rg_ring_pos := p + 8192; rg_chunk_pos := 0; rg_broken := rg_broken s; rg_ops := ops1 |}
        _ _ _ _ _ ltac:(split; reflexivity) Hb eq_refl Hcan Hw2m Hp2 eq_refl)
        as [s' [wevs [ok2 [W1 [W2 W3]]]]]; [cbn; lia | cbn; lia |].
      rewrite W1. do 3 eexists. split; [reflexivity|]. split.
      * apply outcome_app; [exact E2|]. apply outcome_app; [reflexivity|]. apply outcome_app; [reflexivity|]. auto.
      * rewrite HS. replace (t ++ evs ++ [EvSync] ++ [EvNotify (p + 8192)] ++ wevs)
          with ((t ++ evs ++ [EvSync] ++ [EvNotify (p + 8192)]) ++ wevs) by (rewrite <- !app_assoc; reflexivity).
        destruct ok2; [split; auto|auto].
        clear -W1. unfold rg_wrap in W1. cbn [rg_ring_pos rg_ring_size rg_ops rg_buf] in W1.
        destruct (p + 8192 =? ring); [|inversion W1; reflexivity].
        destruct (rg_next ops1) as [[|] o1]; cbn in W1; [|inversion W1].
        destruct (rg_next o1) as [[|] o2]; cbn in W1; inversion W1; reflexivity.
    + do 3 eexists. split; [reflexivity|]. split; [apply outcome_failing; auto|].
      split; [split; cbn; auto|]. rewrite app_assoc.
      exists (w ++ rg_buf s), y, (p + 8192), n. split; [apply c_fail; auto|].
      exists []. rewrite app_nil_r; auto.
  - edestruct (wrap_lemma
        {| rg_chunk_size := cs; rg_ring_size := ring; rg_observed := true; rg_buf := [];
           rg_ring_pos := p + 8192; rg_chunk_pos := zlen w - n * cs + 8192; rg_broken := rg_broken s; rg_ops := ops |}
        _ _ _ _ _ ltac:(split; reflexivity) Hb eq_refl E3 Hw2m Hp2 eq_refl)
        as [s' [wevs [ok2 [W1 [W2 W3]]]]]; [cbn; lia | cbn; lia |].
      rewrite W1. do 3 eexists. split; [reflexivity|]. split.
      * apply outcome_app; auto.
      * rewrite HS, app_assoc. destruct ok2; [split; auto|auto].
        clear -W1. unfold rg_wrap in W1. cbn [rg_ring_pos rg_ring_size rg_ops rg_buf] in W1.
        destruct (p + 8192 =? ring); [|inversion W1; reflexivity].
        destruct (rg_next ops) as [[|] o1]; cbn in W1; [|inversion W1].
        destruct (rg_next o1) as [[|] o2]; cbn in W1; inversion W1; reflexivity.
Qed.

Lemma rfail_prefix : forall s t S S', rfail s t S -> is_prefix S S' -> rfail s t S'.
Proof.
  intros s t S S' [H [w [y [p [n [Hc [c ->]]]]]]] [d ->]. split; auto.
  exists w, y, p, n. split; auto. exists (c ++ d). rewrite app_assoc. reflexivity.
Qed.

Lemma fill_lemma : forall s t S data, rinv s t S false ->
  exists s' n, rg_FillBuffer s data = Ok (s', n) /\ 0 <= n <= zlen data /\
    (0 < zlen data -> 0 < n) /\
    rinv s' t (S ++ ztake n data) (rg_NeedFlush s') /\ (rg_NeedFlush s' = false -> n = zlen data).
Proof.
  intros s t S data [[C1 C2 C3] Hb [w [y [p [n [Hc [HS [Hw [Hbuf [Hp [Hpos [Hchp Hcb]]]]]]]]]]]].
  destruct geo as [Hcs [Hring [Hst [G1 [G2 [G3 [G4 G5]]]]]]].
  pose proof (block_room _ Hw) as Hroom. rewrite <- Hp in Hroom.
  pose proof (Z.mod_pos_bound (start + zlen w) ring Hring) as Hpb. rewrite <- Hp in Hpb.
  pose proof (zlen_nonneg _ (rg_buf s)) as Hb0. pose proof (zlen_nonneg _ data) as Hd0.
  unfold rg_FillBuffer. change kRingBufferSize with 8192.
  destruct (Z.ltb_spec (8192 - zlen (rg_buf s)) 0); [lia|].
  set (k := Z.min (zlen data) (8192 - zlen (rg_buf s))).
  assert (Hk : 0 <= k <= zlen data) by lia.
  assert (Hl : zlen (rg_buf s ++ ztake k data) = zlen (rg_buf s) + k) by (rewrite zlen_app, zlen_ztake; lia).
  rewrite Hl. rewrite assert_true by (apply Z.leb_le; lia).
  assert (Hu : u64 (rg_ring_pos s + k) = p + zlen (rg_buf s) + k).
  { unfold u64. rewrite Hpos. apply Z.mod_small. lia. }
  rewrite Hu. rewrite assert_true by (apply Z.leb_le; lia).
  do 2 eexists. split; [reflexivity|]. split; [exact Hk|]. split; [lia|].
  unfold rg_NeedFlush. cbn [rg_buf]. rewrite Hl. change kRingBufferSize with 8192.
  split.
  - split; [split; auto|auto|]. exists w, y, p, n. cbn.
    split; [auto|]. split; [rewrite HS, app_assoc; reflexivity|]. split; [auto|].
    split; [destruct (Z.eqb_spec (zlen (rg_buf s) + k) 8192); lia|].
    repeat split; auto; lia.
  - intros E. apply Z.eqb_neq in E. lia.
Qed.

Lemma loop_lemma : forall fuel data s t S, (length data < fuel)%nat -> rinv s t S false ->
  exists s' evs (ok : bool), rg_loop fuel s data = Ok (s', evs, ok) /\ outcome evs ok /\
    if ok then rinv s' (t ++ evs) (S ++ data) false
    else rfail s' (t ++ evs) (S ++ data) /\ rg_broken s' = true.
Proof.
  induction fuel as [|fuel IH]; intros data s t S Hf Hinv; [lia|].
  destruct (fill_lemma s t S data Hinv) as [s1 [n [E1 [Hn [Hpos [Hi1 Hfull]]]]]].
  cbn [rg_loop]. rewrite E1. cbn [bind].
  assert (Hrest : zlen (zdrop n data) = zlen data - n) by (rewrite zlen_zdrop; lia).
  assert (Hstep : exists s2 evs (ok : bool),
    (if rg_NeedFlush s1 then rg_Flush s1 else Ok (s1, [], true)) = Ok (s2, evs, ok) /\ outcome evs ok /\
    if ok then rinv s2 (t ++ evs) (S ++ ztake n data) false else rfail s2 (t ++ evs) (S ++ ztake n data)).
  { destruct (rg_NeedFlush s1).
    - destruct (flush_lemma s1 t _ Hi1) as [s2 [evs [ok [E2 [Ho Hr]]]]].
      exists s2, evs, ok. split; auto. split; auto. destruct ok; tauto.
    - exists s1, [], true. rewrite app_nil_r. repeat split; auto; apply Hi1. }
  destruct Hstep as [s2 [evs [ok [E2 [Ho Hr]]]]]. rewrite E2. cbn [bind].
  destruct ok; cbn [negb].
  - destruct (Z.eqb_spec (zlen (zdrop n data)) 0) as [Ez|Ez].
    + exists s2, evs, true. split; auto. split; auto.
      assert (n = zlen data) by lia. subst n. rewrite ztake_all in Hr by lia. auto.
    + assert (Hlt : (length (zdrop n data) < fuel)%nat).
      { unfold zlen in Hrest, Hn, Hpos, Ez. unfold zlen in *. lia. }
      destruct (IH (zdrop n data) s2 _ _ Hlt Hr) as [s3 [evs2 [ok2 [E3 [Ho2 Hr2]]]]].
      rewrite E3. cbn [bind]. exists s3, (evs ++ evs2), ok2. split; auto.
      split; [apply outcome_app; auto|].
      rewrite <- !app_assoc, ztake_zdrop in Hr2. auto.
  - do 3 eexists. split; [reflexivity|]. split; [auto|]. split; [|reflexivity].
    apply rfail_prefix with (S ++ ztake n data).
    + destruct Hr as [[? ? ?] ?]. split; auto. split; auto.
    + exists (zdrop n data). rewrite <- app_assoc, ztake_zdrop. reflexivity.
Qed.

Lemma handle_lemma : forall data s t S, rinv s t S false ->
  exists s' evs (ok : bool), rg_HandlePacket s data = Ok (s', evs, ok) /\ outcome evs ok /\
    if ok then rinv s' (t ++ evs) (S ++ data) false
    else rfail s' (t ++ evs) (S ++ data) /\ rg_broken s' = true.
Proof. intros. apply loop_lemma; auto. Qed.

Lemma feed_lemma : forall packets s t S, rinv s t S false ->
  exists s' evs (ok : bool), rg_feed s packets = Ok (s', evs, ok) /\ outcome evs ok /\
    if ok then rinv s' (t ++ evs) (S ++ concat packets) false
    else rfail s' (t ++ evs) (S ++ concat packets) /\ rg_broken s' = true.
Proof.
  induction packets as [|d ps IH]; intros s t S Hinv; cbn [rg_feed concat].
  - exists s, [], true. rewrite !app_nil_r. split; auto. split; [reflexivity|auto].
  - destruct (handle_lemma d s t S Hinv) as [s1 [evs [ok [E1 [Ho Hr]]]]].
    rewrite E1. cbn [bind]. destruct ok.
    + destruct (IH s1 _ _ Hr) as [s2 [evs2 [ok2 [E2 [Ho2 Hr2]]]]].
      rewrite E2. cbn [bind]. exists s2, (evs ++ evs2), ok2. split; auto.
      split; [apply outcome_app; auto|]. rewrite <- !app_assoc in Hr2. auto.
    + exists s1, evs, false. split; auto. split; auto. destruct Hr as [Hr Hb]. split; auto.
      apply rfail_prefix with (S ++ d); auto.
      exists (concat ps). rewrite <- app_assoc. reflexivity.
Qed.

Lemma open_lemma : forall ops,
  exists s evs (ok : bool), rg_open cs nc start ops = Ok (s, evs, ok) /\ outcome evs ok /\
    (start = 0 -> ok = true) /\ rg_broken s = false /\
    if ok then rinv s evs [] false else rfail s evs [].
Proof.
  intros ops. destruct geo as [Hcs [Hring [Hst [G1 [G2 [G3 [G4 G5]]]]]]].
  destruct Hgeo as [V1 [V2 [V3 [V4 V5]]]].
  unfold rg_open, rg_new. change kMaxChunkSize with (8192 * 262143). change kMaxNumChunks with 2147483647.
  change kRingBufferSize with 8192.
  do 5 (rewrite assert_true; [|first [apply Z.ltb_lt; lia | apply Z.leb_le; lia | apply Z.eqb_eq; auto]]).
  cbn [bind rg_SetObserver rg_chunk_size rg_ring_size rg_buf rg_ring_pos rg_chunk_pos rg_broken rg_ops].
  assert (Hu : u64 (cs * nc) = ring) by (unfold u64; apply Z.mod_small; fold ring; lia).
  rewrite Hu.
  destruct (Z.eqb_spec start 0) as [E|E].
  - do 3 eexists. split; [reflexivity|]. split; [reflexivity|]. split; [reflexivity|]. split; [reflexivity|].
    split; [split; reflexivity|reflexivity|].
    exists [], 0, 0, 0. cbn. rewrite zlen_nil.
    split; [constructor|]. repeat split; auto; try lia. rewrite Z.add_0_r, Z.mod_small by lia. auto.
  - unfold rg_SetPosition, rg_SetObserver. change kRingBufferSize with 8192.
    cbn [rg_chunk_size rg_ring_size rg_observed rg_buf rg_ring_pos rg_chunk_pos rg_broken rg_ops].
    rewrite assert_true by (apply Z.leb_le; unfold int64_max; lia).
    rewrite assert_true by (apply Z.eqb_eq; apply mod_mult_trans with cs; auto; lia).
    rewrite assert_true by (apply Z.ltb_lt; lia).
    rewrite assert_true by (apply Z.eqb_eq; auto).
    destruct (rg_next ops) as [[|] ops1].
    + do 3 eexists. split; [reflexivity|]. split; [reflexivity|]. split; [reflexivity|]. split; [reflexivity|].
      split; [split; reflexivity|reflexivity|].
      exists [], 0, start, 0. cbn. rewrite zlen_nil.
      assert (Hsm : start = (start + 0) mod ring) by (rewrite Z.add_0_r, Z.mod_small by lia; auto).
      split.
      { apply (c_seek cs ring start [] [] 0 0 0 start); [constructor|]. rewrite zlen_nil. auto. }
      repeat split; auto; lia.
    + do 3 eexists. split; [reflexivity|]. split; [exists [], EvSeekFail; repeat split|].
      split; [intros; contradiction|]. split; [reflexivity|].
      split; [split; reflexivity|]. exists [], 0, 0, 0. split; [|exists []; reflexivity].
      apply (c_fail cs ring start [] [] 0 0 0 EvSeekFail); [constructor|reflexivity].
Qed.

Lemma session_lemma : forall ops packets,
  exists s evs (ok : bool), rg_session cs nc start ops packets = Ok (s, evs, ok) /\ outcome evs ok /\
    (if ok then rinv s evs (concat packets) false else rfail s evs (concat packets)) /\
    (rg_broken s = true -> ok = false) /\
    (forall s0 evs0, rg_open cs nc start ops = Ok (s0, evs0, true) -> ok = false -> rg_broken s = true).
Proof.
  intros ops packets. unfold rg_session.
  destruct (open_lemma ops) as [s [evs [ok [E [Ho [H0 [Hb Hr]]]]]]].
  rewrite E. cbn [bind]. destruct ok.
  - destruct (feed_lemma packets s evs [] Hr) as [s1 [evs1 [ok1 [E1 [Ho1 Hr1]]]]].
    rewrite E1. cbn [bind]. exists s1, (evs ++ evs1), ok1. split; auto.
    split; [apply outcome_app; auto|]. cbn [app] in Hr1. split; [destruct ok1; tauto|].
    destruct ok1.
    + destruct Hr1 as [_ Hb1 _]. rewrite Hb1. split; [discriminate|intros; discriminate].
    + destruct Hr1 as [_ Hb1]. rewrite Hb1. split; auto.
  - exists s, evs, false. split; auto. split; auto. split.
    + apply rfail_prefix with []; auto. exists (concat packets). reflexivity.
    + split; [auto|]. intros s0 evs0 H. inversion H.
Qed.

End Run.
