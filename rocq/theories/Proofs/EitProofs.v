(** The progress tables of collect-eits, related to the history of the sections
    written. *)
From Coq Require Import ZArith List Bool Lia.
From Verif Require Import Base.Outcome Base.Util Model.EitSection Model.EitCollector.
Import ListNotations.
Open Scope Z_scope.

(** * Loops over arrays *)

Lemma fold_upd_range : forall A (g : A -> A) n lo (f : arr A) j,
  fold_left (fun f i => upd f i (g (f i))) (range lo n) f j =
  if (lo <=? j) && (j <? lo + Z.of_nat n) then g (f j) else f j.
Proof.
  induction n as [|n IH]; intros lo f j.
  - cbn [range fold_left]. destruct (Z.leb_spec lo j); destruct (Z.ltb_spec j (lo + Z.of_nat 0)); cbn [andb]; auto; lia.
  - cbn [range fold_left]. rewrite IH. unfold upd.
    destruct (Z.leb_spec (lo + 1) j); destruct (Z.ltb_spec j (lo + 1 + Z.of_nat n));
      destruct (Z.leb_spec lo j); destruct (Z.ltb_spec j (lo + Z.of_nat (S n))); cbn [andb];
      destruct (Z.eqb_spec j lo); try (subst; reflexivity); try reflexivity; lia.
Qed.

Lemma fold_upd_span : forall A (g : A -> A) lo hi (f : arr A) j,
  fold_left (fun f i => upd f i (g (f i))) (span lo hi) f j =
  if (lo <=? j) && (j <? hi) then g (f j) else f j.
Proof.
  intros. unfold span. rewrite fold_upd_range.
  destruct (Z.leb_spec lo j); cbn [andb]; [|reflexivity].
  destruct (Z.ltb_spec j (lo + Z.of_nat (Z.to_nat (hi - lo)))); destruct (Z.ltb_spec j hi); auto; lia.
Qed.

Lemma fold_set_span : forall A (v : A) lo hi (f : arr A) j,
  fold_left (fun f i => upd f i v) (span lo hi) f j =
  if (lo <=? j) && (j <? hi) then v else f j.
Proof. intros. apply (fold_upd_span A (fun _ => v)). Qed.

Lemma In_range : forall n lo i, In i (range lo n) <-> lo <= i < lo + Z.of_nat n.
Proof.
  induction n as [|n IH]; intros lo i; cbn [range In]; [lia|]. rewrite IH. lia.
Qed.

Lemma In_span : forall lo hi i, In i (span lo hi) <-> lo <= i < hi.
Proof. intros. unfold span. rewrite In_range. lia. Qed.

(** A loop that sets bits of one element. *)
Lemma fold_bits_range : forall n lo (f : arr Z) s x j, 0 <= lo -> 0 <= j ->
  Z.testbit (fold_left (fun u i => upd u s (Z.lor (u s) (Z.shiftl 1 i))) (range lo n) f x) j =
  Z.testbit (f x) j || ((x =? s) && (lo <=? j) && (j <? lo + Z.of_nat n)).
Proof.
  induction n as [|n IH]; intros lo f s x j Hlo Hj.
  - cbn [range fold_left]. destruct (Z.leb_spec lo j); destruct (Z.ltb_spec j (lo + Z.of_nat 0)); try lia;
      rewrite ?andb_false_r, ?orb_false_r; cbn [andb]; rewrite ?andb_false_r, ?orb_false_r; reflexivity.
  - cbn [range fold_left]. rewrite IH by lia. unfold upd.
    destruct (Z.eqb_spec x s) as [->|Hx]; cbn [andb]; [|rewrite !orb_false_r; reflexivity].
    rewrite Z.lor_spec, Z.shiftl_spec by lia.
    assert (B : Z.testbit 1 (j - lo) = (j =? lo)).
    { destruct (Z.eqb_spec j lo) as [->|Hne].
      - rewrite Z.sub_diag. reflexivity.
      - destruct (Z.ltb_spec (j - lo) 0); [apply Z.testbit_neg_r; lia|].
        apply Z.bits_above_log2; cbn; lia. }
    rewrite B, <- orb_assoc. f_equal.
    destruct (Z.eqb_spec j lo); destruct (Z.leb_spec (lo + 1) j); destruct (Z.ltb_spec j (lo + 1 + Z.of_nat n));
      destruct (Z.leb_spec lo j); destruct (Z.ltb_spec j (lo + Z.of_nat (S n))); cbn [andb orb]; auto; lia.
Qed.

Lemma fold_bits_span : forall lo hi (f : arr Z) s x j, 0 <= lo -> 0 <= j ->
  Z.testbit (fold_left (fun u i => upd u s (Z.lor (u s) (Z.shiftl 1 i))) (span lo hi) f x) j =
  Z.testbit (f x) j || ((x =? s) && (lo <=? j) && (j <? hi)).
Proof.
  intros. unfold span. rewrite fold_bits_range by auto. f_equal.
  destruct (x =? s); cbn [andb]; auto.
  destruct (Z.leb_spec lo j); cbn [andb]; [|reflexivity].
  destruct (Z.ltb_spec j (lo + Z.of_nat (Z.to_nat (hi - lo)))); destruct (Z.ltb_spec j hi); auto; lia.
Qed.

Lemma ff_bit : forall j, 0 <= j < 8 -> Z.testbit 0xFF j = true.
Proof.
  intros j H. assert (C : j = 0 \/ j = 1 \/ j = 2 \/ j = 3 \/ j = 4 \/ j = 5 \/ j = 6 \/ j = 7) by lia.
  repeat (destruct C as [->|C]; [reflexivity|]). subst j. reflexivity.
Qed.

Lemma bit_one : forall s j, 0 <= s -> 0 <= j -> Z.testbit (Z.shiftl 1 s) j = (j =? s).
Proof.
  intros s j Hs Hj. rewrite Z.shiftl_spec by lia. destruct (Z.eqb_spec j s) as [->|Hne].
  - rewrite Z.sub_diag. reflexivity.
  - destruct (Z.ltb_spec (j - s) 0); [apply Z.testbit_neg_r; lia|]. apply Z.bits_above_log2; cbn; lia.
Qed.

Lemma mask_bit : forall x s, 0 <= s -> negb (Z.land x (Z.shiftl 1 s) =? 0) = Z.testbit x s.
Proof.
  intros x s Hs. destruct (Z.testbit x s) eqn:E.
  - apply negb_true_iff, Z.eqb_neq. intros H0.
    assert (H : Z.testbit (Z.land x (Z.shiftl 1 s)) s = false) by (rewrite H0; apply Z.testbit_0_l).
    rewrite Z.land_spec, E, bit_one, Z.eqb_refl in H by lia. discriminate.
  - apply negb_false_iff, Z.eqb_eq. apply Z.bits_inj'. intros j Hj.
    rewrite Z.land_spec, bit_one, Z.testbit_0_l by lia.
    destruct (Z.eqb_spec j s) as [->|]; [rewrite E; reflexivity|apply andb_false_r].
Qed.

(** * Index ranges *)

Lemma land7 : forall x, Z.land x 7 = x mod 8.
Proof. intros. change 7 with (Z.ones 3). rewrite Z.land_ones by lia. reflexivity. Qed.

Lemma land15 : forall x, Z.land x 15 = x mod 16.
Proof. intros. change 15 with (Z.ones 4). rewrite Z.land_ones by lia. reflexivity. Qed.

Lemma shr3 : forall x, Z.shiftr x 3 = x / 8.
Proof. intros. rewrite Z.shiftr_div_pow2 by lia. reflexivity. Qed.

Lemma section_index_range : forall e, 0 <= section_index e < 8.
Proof. intros. unfold section_index. rewrite land7. apply Z.mod_pos_bound. lia. Qed.
Lemma last_section_index_range : forall e, 0 <= last_section_index e < 8.
Proof. intros. unfold last_section_index. rewrite land7. apply Z.mod_pos_bound. lia. Qed.
Lemma table_index_range : forall e, 0 <= table_index e < 8.
Proof. intros. unfold table_index. rewrite land7. apply Z.mod_pos_bound. lia. Qed.
Lemma last_table_index_range : forall e, 0 <= last_table_index e < 8.
Proof. intros. unfold last_table_index. rewrite land7. apply Z.mod_pos_bound. lia. Qed.

(** * One table *)

Lemma tp_Update_collected : forall t e seg j, 0 <= j ->
  Z.testbit (tp_collected (tp_Update t e) seg) j =
  Z.testbit (tp_collected t seg) j || ((seg =? segment_index e) && (j =? section_index e)).
Proof.
  intros t e seg j Hj. cbn [tp_Update tp_collected]. unfold upd.
  destruct (Z.eqb_spec seg (segment_index e)) as [->|]; cbn [andb]; [|rewrite orb_false_r; reflexivity].
  rewrite Z.lor_spec, bit_one; auto. apply section_index_range.
Qed.

Lemma tp_Update_unused : forall t e seg j, 0 <= j < 8 ->
  Z.testbit (tp_unused (tp_Update t e) seg) j =
  (if (last_segment_index e + 1 <=? seg) && (seg <? kNumSegments) then true else Z.testbit (tp_unused t seg) j)
  || ((seg =? segment_index e) && (last_section_index e + 1 <=? j)).
Proof.
  intros t e seg j Hj. cbn [tp_Update tp_unused].
  pose proof (last_section_index_range e).
  rewrite fold_bits_span by lia. rewrite fold_set_span.
  f_equal.
  - destruct (_ && _); [apply ff_bit; lia|reflexivity].
  - destruct (Z.ltb_spec j 8); [apply andb_true_r|lia].
Qed.

Lemma tp_Update_versions : forall t e i,
  tp_versions (tp_Update t e) i =
  if (section_index e <=? i) && (i <? last_section_index e + 1) then ei_version e else tp_versions t i.
Proof. intros. cbn [tp_Update tp_versions]. apply fold_set_span. Qed.

Lemma tp_Reset_collected : forall t seg,
  tp_collected (tp_Reset t) seg = if (0 <=? seg) && (seg <? kNumSegments) then 0 else tp_collected t seg.
Proof. intros. cbn [tp_Reset tp_collected]. apply fold_set_span. Qed.

Lemma tp_Reset_unused : forall t seg,
  tp_unused (tp_Reset t) seg = if (0 <=? seg) && (seg <? kNumSegments) then 0 else tp_unused t seg.
Proof. intros. cbn [tp_Reset tp_unused]. apply fold_set_span. Qed.

Lemma tp_Unuse_unused : forall t seg,
  tp_unused (tp_Unuse t) seg = if (0 <=? seg) && (seg <? kNumSegments) then 0xFF else tp_unused t seg.
Proof. intros. cbn [tp_Unuse tp_unused]. apply fold_set_span. Qed.

Lemma tp_UpdateUnused_unused : forall t time seg,
  tp_unused (tp_UpdateUnused t time) seg =
  if (0 <=? seg) && (seg <? hour_of time / 3) then 0xFF else tp_unused t seg.
Proof. intros. cbn [tp_UpdateUnused tp_unused]. apply fold_set_span. Qed.

(** All the bits of a finished table are set. *)
Definition full (t : table_progress) : Prop :=
  forall seg j, 0 <= seg < kNumSegments -> 0 <= j < 8 ->
    Z.testbit (tp_collected t seg) j = true \/ Z.testbit (tp_unused t seg) j = true.

Lemma CheckCompleted_full : forall c u v b, tp_CheckCompleted c u = true -> full (mkTable c u v b).
Proof.
  intros c u v b H seg j Hs Hj. cbn [tp_collected tp_unused].
  unfold tp_CheckCompleted in H. rewrite forallb_forall in H.
  specialize (H seg (proj2 (In_span _ _ _) Hs)). apply Z.eqb_eq in H.
  assert (B : Z.testbit (Z.lor (c seg) (u seg)) j = true) by (rewrite H; apply ff_bit; auto).
  rewrite Z.lor_spec in B. apply orb_true_iff in B. exact B.
Qed.

(** * One group, against the sections [h] of that group that were written and
      the TOTs received *)

(** Why a bit may be marked unused in table [i]. *)
Definition excused (h : list eit_section) (ts : list Z) (last i seg j : Z) : Prop :=
  (exists e, In e h /\ table_index e = i /\
     (last_segment_index e < seg \/ segment_index e = seg /\ last_section_index e < j)) \/
  (i = 0 /\ exists t, In t ts /\ seg < hour_of t / 3) \/
  0 <= last < i.

(** The version last recorded for a section index in table [i]. *)
Fixpoint recorded (h : list eit_section) (i x : Z) : Z :=
  match h with
  | [] => 0xFF
  | e :: r =>
      if (table_index e =? i) && (section_index e <=? x) && (x <=? last_section_index e)
      then ei_version e else recorded r i x
  end.

Record ginv (h : list eit_section) (ts : list Z) (g : group_progress) : Prop := mkGinv {
  gi_last : gp_last g = match rev h with [] => -1 | e :: _ => last_table_index e end;
  gi_collected : forall i seg j, 0 <= j ->
    Z.testbit (tp_collected (gp_tables g i) seg) j = true ->
    exists e, In e h /\ table_index e = i /\ segment_index e = seg /\ section_index e = j;
  gi_kept : forall h1 e h2, h = h1 ++ e :: h2 ->
    (forall x, In x h2 -> last_table_index x = last_table_index e) ->
    Z.testbit (tp_collected (gp_tables g (table_index e)) (segment_index e)) (section_index e) = true;
  gi_unused : forall i seg j, 0 <= seg < kNumSegments -> 0 <= j < 8 ->
    Z.testbit (tp_unused (gp_tables g i) seg) j = true -> excused h ts (gp_last g) i seg j;
  gi_versions : forall i x, tp_versions (gp_tables g i) x = recorded (rev h) i x;
  gi_full : forall i, tp_completed (gp_tables g i) = true -> full (gp_tables g i);
  gi_completed : gp_completed g = true -> forall i, 0 <= i < kNumTables -> tp_completed (gp_tables g i) = true;
  gi_held : forall i seg j, 0 <= i < kNumTables -> 0 <= seg < kNumSegments -> 0 <= j ->
    Z.testbit (tp_collected (gp_tables g i) seg) j = true ->
    exists h1 e h2, h = h1 ++ e :: h2 /\ table_index e = i /\ segment_index e = seg /\ section_index e = j /\
      forall x, In x h2 -> last_table_index x = last_table_index e }.

Lemma ginv_init : ginv [] [] gp_init.
Proof.
  constructor.
  - reflexivity.
  - intros i seg j Hj H. cbn in H. rewrite Z.testbit_0_l in H. discriminate.
  - intros h1 e h2 H. destruct h1; discriminate.
  - intros i seg j Hs Hj H. cbn in H. rewrite Z.testbit_0_l in H. discriminate.
  - reflexivity.
  - intros i H. discriminate.
  - intros H. discriminate.
  - intros i seg j Hi Hs Hj H. cbn in H. rewrite Z.testbit_0_l in H. discriminate.
Qed.

Lemma rev_last : forall (h : list eit_section) e, rev (h ++ [e]) = e :: rev h.
Proof. intros. rewrite rev_app_distr. reflexivity. Qed.

Lemma excused_mono : forall h ts h' ts' last i seg j,
  (forall e, In e h -> In e h') -> (forall t, In t ts -> In t ts') ->
  excused h ts last i seg j -> excused h' ts' last i seg j.
Proof.
  intros h ts h' ts' last i seg j Hh Ht [H|[H|H]].
  - left. destruct H as (e & H1 & H2). eauto.
  - right; left. destruct H as (H1 & t & H2 & H3). eauto.
  - right; right. exact H.
Qed.

(** The tables after the group has noticed a new last table. *)
Definition restarted (g : group_progress) (e : eit_section) : arr table_progress :=
  fold_left (fun ts i => upd ts i (tp_Unuse (ts i))) (span (last_table_index e + 1) kNumTables)
    (fold_left (fun ts i => upd ts i (tp_Reset (ts i))) (span 0 kNumTables) (gp_tables g)).

Lemma restarted_at : forall g e i,
  restarted g e i =
  if (0 <=? i) && (i <? kNumTables)
  then if last_table_index e + 1 <=? i then tp_Unuse (tp_Reset (gp_tables g i)) else tp_Reset (gp_tables g i)
  else gp_tables g i.
Proof.
  intros. unfold restarted. rewrite (fold_upd_span _ tp_Unuse). rewrite (fold_upd_span _ tp_Reset).
  pose proof (last_table_index_range e). unfold kNumTables.
  destruct (Z.leb_spec 0 i); destruct (Z.ltb_spec i 8); destruct (Z.leb_spec (last_table_index e + 1) i);
    cbn [andb]; auto; lia.
Qed.

Lemma full_Update : forall t e, tp_completed (tp_Update t e) = true -> full (tp_Update t e).
Proof. intros t e H. cbn [tp_Update tp_completed] in *. apply CheckCompleted_full. exact H. Qed.

Lemma gp_Update_tables : forall g e i,
  gp_tables (gp_Update g e) i =
  let t := if gp_CheckConsistency g e then gp_tables g i else restarted g e i in
  if i =? table_index e then tp_Update t e else t.
Proof.
  intros. unfold gp_Update. cbn [gp_tables]. unfold upd. fold (restarted g e).
  destruct (Z.eqb_spec i (table_index e)) as [->|]; destruct (gp_CheckConsistency g e); reflexivity.
Qed.

Lemma ginv_update : forall h ts g e, ginv h ts g -> ginv (h ++ [e]) ts (gp_Update g e).
Proof.
  intros h ts g e I.
  pose proof (section_index_range e) as Rs. pose proof (last_section_index_range e) as Rl.
  pose proof (table_index_range e) as Rt. pose proof (last_table_index_range e) as Rlt.
  set (base := fun i => if gp_CheckConsistency g e then gp_tables g i else restarted g e i).
  assert (T : forall i, gp_tables (gp_Update g e) i = if i =? table_index e then tp_Update (base i) e else base i).
  { intros i. rewrite gp_Update_tables. reflexivity. }
  (* facts about the tables before the section is entered *)
  assert (Bc : forall i seg j, 0 <= j -> Z.testbit (tp_collected (base i) seg) j = true ->
             Z.testbit (tp_collected (gp_tables g i) seg) j = true).
  { intros i seg j Hj. unfold base. destruct (gp_CheckConsistency g e); [auto|].
    rewrite restarted_at. destruct (_ && _); [|auto].
    destruct (_ <=? _).
    - change (tp_collected (tp_Unuse (tp_Reset (gp_tables g i))) seg) with (tp_collected (tp_Reset (gp_tables g i)) seg).
      rewrite tp_Reset_collected. destruct (_ && _); [rewrite Z.testbit_0_l; discriminate|auto].
    - rewrite tp_Reset_collected. destruct (_ && _); [rewrite Z.testbit_0_l; discriminate|auto]. }
  assert (Bu : forall i seg j, 0 <= seg < kNumSegments -> 0 <= j < 8 ->
             Z.testbit (tp_unused (base i) seg) j = true -> excused h ts (last_table_index e) i seg j).
  { intros i seg j Hs Hj. unfold base. destruct (gp_CheckConsistency g e) eqn:C.
    - unfold gp_CheckConsistency in C. apply andb_true_iff in C as [C1 C2]. apply Z.eqb_eq in C2.
      intros H. apply (gi_unused _ _ _ I) in H; auto. rewrite C2 in H. exact H.
    - rewrite restarted_at.
      destruct (Z.leb_spec 0 i) as [G1|G1]; cbn [andb].
      + destruct (Z.ltb_spec i kNumTables) as [G2|G2].
        * destruct (Z.leb_spec (last_table_index e + 1) i) as [G3|G3].
          -- intros _. right; right. lia.
          -- rewrite tp_Reset_unused. destruct (Z.leb_spec 0 seg); destruct (Z.ltb_spec seg kNumSegments); cbn [andb]; try lia.
             rewrite Z.testbit_0_l. discriminate.
        * unfold kNumTables in G2. intros _. right; right. lia.
      + intros H. apply (gi_unused _ _ _ I) in H; auto.
        destruct H as [(e' & E1 & E2 & _)|[(E1 & _)|E1]].
        -- pose proof (table_index_range e'). lia.
        -- lia.
        -- lia. }
  assert (Bv : forall i x, tp_versions (base i) x = recorded (rev h) i x).
  { intros i x. rewrite <- (gi_versions _ _ _ I). unfold base. destruct (gp_CheckConsistency g e); [auto|].
    rewrite restarted_at. destruct (_ && _); [|auto]. destruct (_ <=? _); reflexivity. }
  assert (Bf : forall i, tp_completed (base i) = true -> full (base i)).
  { intros i. unfold base. destruct (gp_CheckConsistency g e); [apply (gi_full _ _ _ I)|].
    rewrite restarted_at. destruct (_ && _); [|apply (gi_full _ _ _ I)].
    destruct (_ <=? _); [|discriminate].
    intros _ seg j Hs Hj. right. rewrite tp_Unuse_unused.
    destruct (Z.leb_spec 0 seg); destruct (Z.ltb_spec seg kNumSegments); cbn [andb]; try lia.
    apply ff_bit; auto. }
  constructor.
  - rewrite rev_last. reflexivity.
  - intros i seg j Hj. rewrite T. destruct (Z.eqb_spec i (table_index e)) as [->|Hi].
    + rewrite tp_Update_collected by auto. intros H. apply orb_true_iff in H as [H|H].
      * apply Bc in H; auto. destruct (gi_collected _ _ _ I _ _ _ Hj H) as (e' & E1 & E2).
        exists e'. split; [apply in_or_app; auto|auto].
      * apply andb_true_iff in H as [H1 H2]. apply Z.eqb_eq in H1, H2. subst.
        exists e. split; [apply in_or_app; right; left; auto|auto].
    + intros H. apply Bc in H; auto. destruct (gi_collected _ _ _ I _ _ _ Hj H) as (e' & E1 & E2).
      exists e'. split; [apply in_or_app; auto|auto].
  - intros h1 e0 h2 Hsplit Hlast. rewrite T.
    destruct (exists_last (l := e0 :: h2)) as (h2' & z & Hz); [discriminate|].
    rewrite Hz in Hsplit. rewrite app_assoc in Hsplit. apply app_inj_tail in Hsplit as [Hh Hez]. subst z.
    destruct h2' as [|y h2'].
    + cbn [app] in Hz. injection Hz as -> ->.
      rewrite Z.eqb_refl, tp_Update_collected by lia. rewrite !Z.eqb_refl. apply orb_true_r.
    + cbn [app] in Hz. injection Hz as <- Hh2. subst h2.
      assert (K : Z.testbit (tp_collected (gp_tables g (table_index e0)) (segment_index e0)) (section_index e0) = true).
      { apply (gi_kept _ _ _ I h1 e0 h2'); [exact Hh|].
        intros x Hx. apply Hlast. apply in_or_app; auto. }
      assert (C : gp_CheckConsistency g e = true).
      { unfold gp_CheckConsistency. rewrite (gi_last _ _ _ I). rewrite Hh.
        assert (L : match rev (h1 ++ e0 :: h2') with [] => -1 | e1 :: _ => last_table_index e1 end = last_table_index e).
        { rewrite (Hlast e) by (apply in_or_app; right; left; auto).
          destruct h2' as [|w h2'] using rev_ind.
          - rewrite rev_last. reflexivity.
          - rewrite app_comm_cons, app_assoc, rev_last. apply Hlast.
            apply in_or_app; left. apply in_or_app; right; left; auto. }
        rewrite L, Z.eqb_refl, andb_true_r. apply negb_true_iff, Z.ltb_ge. lia. }
      assert (Eb : base (table_index e0) = gp_tables g (table_index e0)) by (unfold base; rewrite C; reflexivity).
      destruct (Z.eqb_spec (table_index e0) (table_index e)).
      * rewrite tp_Update_collected by (apply section_index_range). rewrite Eb, K. reflexivity.
      * rewrite Eb. exact K.
  - intros i seg j Hs Hj. rewrite T. cbn [gp_Update gp_last].
    destruct (Z.eqb_spec i (table_index e)) as [->|Hi].
    + rewrite tp_Update_unused by auto. intros H. apply orb_true_iff in H as [H|H].
      * destruct (Z.leb_spec (last_segment_index e + 1) seg) as [G|G]; cbn [andb] in H.
        -- left. exists e. split; [apply in_or_app; right; left; auto|]. split; [auto|]. left; lia.
        -- apply Bu in H; auto. eapply excused_mono; [| |exact H]; [intros; apply in_or_app; auto|auto].
      * apply andb_true_iff in H as [H1 H2]. apply Z.eqb_eq in H1. apply Z.leb_le in H2.
        left. exists e. split; [apply in_or_app; right; left; auto|]. split; [auto|]. right; lia.
    + intros H. apply Bu in H; auto. eapply excused_mono; [| |exact H]; [intros; apply in_or_app; auto|auto].
  - intros i x. rewrite T, rev_last. cbn [recorded].
    rewrite (Z.eqb_sym (table_index e) i).
    destruct (i =? table_index e); cbn [andb]; [|apply Bv].
    rewrite tp_Update_versions, Bv.
    destruct (Z.leb_spec (section_index e) x); cbn [andb]; [|reflexivity].
    destruct (Z.ltb_spec x (last_section_index e + 1)); destruct (Z.leb_spec x (last_section_index e)); auto; lia.
  - intros i. rewrite T. destruct (i =? table_index e); [apply full_Update|apply Bf].
  - intros H i Hi. unfold gp_Update in H. cbn [gp_completed] in H.
    unfold gp_CheckCompleted in H. rewrite forallb_forall in H. specialize (H i).
    rewrite In_span in H. specialize (H Hi). exact H.
  - intros i seg j Hi Hs Hj. rewrite T.
    assert (Old : Z.testbit (tp_collected (base i) seg) j = true ->
              exists h1 e' h2, h ++ [e] = h1 ++ e' :: h2 /\ table_index e' = i /\ segment_index e' = seg /\
                section_index e' = j /\ forall x, In x h2 -> last_table_index x = last_table_index e').
    { unfold base. destruct (gp_CheckConsistency g e) eqn:C.
      - intros H. destruct (gi_held _ _ _ I _ _ _ Hi Hs Hj H) as (h1 & e' & h2 & E & E1 & E2 & E3 & E4).
        exists h1, e', (h2 ++ [e]). split; [rewrite E, <- app_assoc; reflexivity|]. do 3 (split; [assumption|]).
        intros x Hx. apply in_app_or in Hx as [Hx|[<-|[]]]; [auto|].
        unfold gp_CheckConsistency in C. apply andb_true_iff in C as [_ C]. apply Z.eqb_eq in C.
        rewrite <- C, (gi_last _ _ _ I), E.
        destruct h2 as [|w h2] using rev_ind; [rewrite rev_last; reflexivity|].
        rewrite app_comm_cons, app_assoc, rev_last. apply E4. apply in_or_app; right; left; auto.
      - rewrite restarted_at.
        destruct (Z.leb_spec 0 i); destruct (Z.ltb_spec i kNumTables); cbn [andb]; try lia.
        assert (Z0 : tp_collected (tp_Reset (gp_tables g i)) seg = 0).
        { rewrite tp_Reset_collected.
          destruct (Z.leb_spec 0 seg); destruct (Z.ltb_spec seg kNumSegments); cbn [andb]; auto; lia. }
        destruct (_ <=? _);
          [change (tp_collected (tp_Unuse (tp_Reset (gp_tables g i))) seg) with (tp_collected (tp_Reset (gp_tables g i)) seg)|];
          rewrite Z0, Z.testbit_0_l; discriminate. }
    destruct (Z.eqb_spec i (table_index e)) as [->|Hne]; [|exact Old].
    rewrite tp_Update_collected by auto. intros H. apply orb_true_iff in H as [H|H]; [auto|].
    apply andb_true_iff in H as [H1 H2]. apply Z.eqb_eq in H1, H2.
    exists h, e, []. do 4 (split; [solve [auto]|]). intros x [].
Qed.

Lemma ginv_unused : forall h ts g time, ginv h ts g -> ginv h (ts ++ [time]) (gp_UpdateUnused g time).
Proof.
  intros h ts g time I.
  assert (T : forall i, gp_tables (gp_UpdateUnused g time) i =
              if i =? 0 then tp_UpdateUnused (gp_tables g i) time else gp_tables g i).
  { intros i. cbn [gp_UpdateUnused gp_tables]. unfold upd. destruct (Z.eqb_spec i 0) as [->|]; reflexivity. }
  constructor.
  - exact (gi_last _ _ _ I).
  - intros i seg j Hj H. apply (gi_collected _ _ _ I); auto. rewrite T in H. destruct (i =? 0); exact H.
  - intros h1 e h2 Hh Hl. rewrite T.
    pose proof (gi_kept _ _ _ I h1 e h2 Hh Hl) as K.
    destruct (table_index e =? 0); exact K.
  - intros i seg j Hs Hj H. cbn [gp_UpdateUnused gp_last]. rewrite T in H.
    assert (M : Z.testbit (tp_unused (gp_tables g i) seg) j = true -> excused h (ts ++ [time]) (gp_last g) i seg j).
    { intros K. apply (gi_unused _ _ _ I) in K; auto. eapply excused_mono; [| |exact K]; [auto|].
      intros; apply in_or_app; auto. }
    destruct (Z.eqb_spec i 0) as [->|]; [|auto].
    rewrite tp_UpdateUnused_unused in H.
    destruct (Z.leb_spec 0 seg); destruct (Z.ltb_spec seg (hour_of time / 3)); cbn [andb] in H; auto.
    right; left. split; [auto|]. exists time. split; [apply in_or_app; right; left; auto|auto].
  - intros i x. rewrite <- (gi_versions _ _ _ I). rewrite T. destruct (i =? 0); reflexivity.
  - intros i. rewrite T. destruct (i =? 0); [|apply (gi_full _ _ _ I)].
    intros H. cbn [tp_UpdateUnused tp_completed] in *. apply CheckCompleted_full. exact H.
  - intros H i Hi. cbn [gp_UpdateUnused gp_completed] in H.
    unfold gp_CheckCompleted in H. rewrite forallb_forall in H. specialize (H i).
    rewrite In_span in H. specialize (H Hi). exact H.
  - intros i seg j Hi Hs Hj H. apply (gi_held _ _ _ I); auto. rewrite T in H. destruct (i =? 0); exact H.
Qed.

(** A finished group stays finished when time passes. *)
Lemma CheckCompleted_true : forall c u, (forall seg, 0 <= seg < kNumSegments -> Z.lor (c seg) (u seg) = 0xFF) ->
  tp_CheckCompleted c u = true.
Proof.
  intros c u H. unfold tp_CheckCompleted. apply forallb_forall. intros seg Hs. apply In_span in Hs.
  rewrite H by auto. reflexivity.
Qed.
