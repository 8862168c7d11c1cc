(** The completion flag of collect-eits, exactly. *)
From Coq Require Import ZArith List Bool Lia.
From Verif Require Import Base.Outcome Base.Util Model.Sink Model.EitSection Model.EitCollector
  Proofs.EitSectionProofs Proofs.EitProofs Proofs.EitMain Proofs.EitClaims Spec.EitSpec.
Import ListNotations.
Open Scope Z_scope.

Notation ev := (eit_section + Z)%type.

(** The part of the history since the half [f] names its last table. *)
Definition since_step (f : eit_section -> bool) (w : list ev) (v : ev) : list ev :=
  match v with
  | inl e =>
      if f e then
        match w with
        | inl e0 :: _ => if last_table_index e0 =? last_table_index e then w ++ [v] else [v]
        | _ => [v]
        end
      else match w with [] => [] | _ => w ++ [v] end
  | inr _ => match w with [] => [] | _ => w ++ [v] end
  end.

Definition since (f : eit_section -> bool) (k : list ev) : list ev := fold_left (since_step f) k [].

Lemma since_snoc : forall f k v, since f (k ++ [v]) = since_step f (since f k) v.
Proof. intros. unfold since. rewrite fold_left_app. reflexivity. Qed.

(** The collected bits that [w] accounts for, and the unused ones. *)
Definition taken (f : eit_section -> bool) (w : list ev) (i seg j : Z) : Prop :=
  exists e, In (inl e) w /\ f e = true /\ table_index e = i /\ segment_index e = seg /\ section_index e = j.

Definition spare (f : eit_section -> bool) (w : list ev) (i seg j : Z) : Prop :=
  (exists e, In (inl e) w /\ f e = true /\ table_index e = i /\
     (last_segment_index e < seg \/ segment_index e = seg /\ last_section_index e < j)) \/
  (i = 0 /\ exists t, In (inr t) w /\ seg < hour_of t / 3).

Definition small (x : Z) : Prop := forall j, 8 <= j -> Z.testbit x j = false.

Record xinv (f : eit_section -> bool) (w : list ev) (g : group_progress) : Prop := mkXinv {
  xi_none : w = [] -> gp_last g = -1;
  xi_head : w <> [] -> exists e w', w = inl e :: w' /\ f e = true /\ gp_last g = last_table_index e;
  xi_collected : w <> [] -> forall i seg j, 0 <= i < kNumTables -> 0 <= seg < kNumSegments -> 0 <= j < 8 ->
    (Z.testbit (tp_collected (gp_tables g i) seg) j = true <-> taken f w i seg j);
  xi_unused : w <> [] -> forall i seg j, 0 <= i <= gp_last g -> 0 <= seg < kNumSegments -> 0 <= j < 8 ->
    (Z.testbit (tp_unused (gp_tables g i) seg) j = true <-> spare f w i seg j);
  xi_behind : w <> [] -> forall i, gp_last g < i < kNumTables -> tp_completed (gp_tables g i) = true;
  xi_small : forall i seg, small (tp_collected (gp_tables g i) seg) /\ small (tp_unused (gp_tables g i) seg);
  xi_table : w <> [] -> forall i, 0 <= i <= gp_last g -> tp_completed (gp_tables g i) =
    tp_CheckCompleted (tp_collected (gp_tables g i)) (tp_unused (gp_tables g i));
  xi_group : w <> [] -> gp_completed g = gp_CheckCompleted (gp_tables g);
  xi_full : w <> [] -> forall i seg, gp_last g < i < kNumTables -> 0 <= seg < kNumSegments ->
    tp_unused (gp_tables g i) seg = 0xFF }.

Lemma xinv_init : forall f, xinv f [] gp_init.
Proof.
  intros f. constructor; try congruence; cbn; auto.
  intros i seg. split; intros j Hj; apply Z.testbit_0_l.
Qed.

Lemma small_ff : small 0xFF.
Proof. intros j Hj. apply Z.bits_above_log2; cbn; lia. Qed.

Lemma small_0 : small 0.
Proof. intros j Hj. apply Z.testbit_0_l. Qed.

Lemma full_ff : forall x, small x -> (forall j, 0 <= j < 8 -> Z.testbit x j = true) -> x = 0xFF.
Proof.
  intros x S F. apply Z.bits_inj'. intros j Hj.
  destruct (Z_lt_le_dec j 8); [rewrite F, ff_bit by lia; reflexivity|].
  rewrite S by lia. symmetry. apply small_ff. lia.
Qed.

Lemma check_iff : forall c u, (forall seg, small (c seg) /\ small (u seg)) ->
  (tp_CheckCompleted c u = true <->
   forall seg j, 0 <= seg < kNumSegments -> 0 <= j < 8 ->
     Z.testbit (c seg) j = true \/ Z.testbit (u seg) j = true).
Proof.
  intros c u S. split.
  - intros H seg j Hs Hj. exact (CheckCompleted_full c u (fun _ => 0) false H seg j Hs Hj).
  - intros H. apply CheckCompleted_true. intros seg Hs. apply full_ff.
    + intros j Hj. rewrite Z.lor_spec. destruct (S seg) as [S1 S2]. rewrite S1, S2 by auto. reflexivity.
    + intros j Hj. rewrite Z.lor_spec. apply orb_true_iff. auto.
Qed.

Lemma small_Update : forall t e seg,
  small (tp_collected t seg) -> small (tp_unused t seg) ->
  small (tp_collected (tp_Update t e) seg) /\ small (tp_unused (tp_Update t e) seg).
Proof.
  intros t e seg S1 S2. split; intros j Hj.
  - rewrite tp_Update_collected by lia. rewrite S1 by auto. cbn [orb].
    pose proof (section_index_range e). destruct (Z.eqb_spec j (section_index e)); [lia|apply andb_false_r].
  - cbn [tp_Update tp_unused]. pose proof (last_section_index_range e).
    rewrite fold_bits_span by lia. rewrite fold_set_span.
    destruct (Z.ltb_spec j 8); [lia|]. rewrite andb_false_r, orb_false_r.
    destruct (_ && _); [apply small_ff; auto|auto].
Qed.

Lemma small_UpdateUnused : forall t time seg,
  small (tp_unused t seg) -> small (tp_unused (tp_UpdateUnused t time) seg).
Proof.
  intros t time seg S j Hj. rewrite tp_UpdateUnused_unused. destruct (_ && _); [apply small_ff; auto|auto].
Qed.

Lemma small_restarted : forall g e i seg, (forall i seg, small (tp_collected (gp_tables g i) seg) /\ small (tp_unused (gp_tables g i) seg)) ->
  small (tp_collected (restarted g e i) seg) /\ small (tp_unused (restarted g e i) seg).
Proof.
  intros g e i seg S. rewrite restarted_at. destruct (_ && _); [|apply S].
  assert (A : small (tp_collected (tp_Reset (gp_tables g i)) seg)).
  { rewrite tp_Reset_collected. destruct (_ && _); [apply small_0|apply S]. }
  assert (B : small (tp_unused (tp_Reset (gp_tables g i)) seg)).
  { rewrite tp_Reset_unused. destruct (_ && _); [apply small_0|apply S]. }
  destruct (_ <=? _); [|auto]. split; [exact A|].
  rewrite tp_Unuse_unused. destruct (_ && _); [apply small_ff|exact B].
Qed.

Lemma xinv_update : forall f w g e, xinv f w g -> f e = true ->
  xinv f (since_step f w (inl e)) (gp_Update g e).
Proof.
  intros f w g e I Fe.
  pose proof (section_index_range e) as Rs. pose proof (last_section_index_range e) as Rl.
  pose proof (table_index_range e) as Rt. pose proof (last_table_index_range e) as Rlt.
  set (base := fun i => if gp_CheckConsistency g e then gp_tables g i else restarted g e i).
  assert (T : forall i, gp_tables (gp_Update g e) i = if i =? table_index e then tp_Update (base i) e else base i).
  { intros i. rewrite gp_Update_tables. reflexivity. }
  set (v := if gp_CheckConsistency g e then w else []).
  assert (V : since_step f w (inl e) = v ++ [inl e]).
  { cbn [since_step]. rewrite Fe. unfold v, gp_CheckConsistency.
    destruct w as [|x w'].
    - rewrite (xi_none _ _ _ I eq_refl). reflexivity.
    - destruct (xi_head _ _ _ I) as (e0 & w0 & E & F0 & L); [discriminate|]. injection E as -> ->.
      rewrite L. pose proof (last_table_index_range e0). destruct (Z.ltb_spec (last_table_index e0) 0); [lia|].
      cbn [negb andb]. destruct (last_table_index e0 =? last_table_index e); reflexivity. }
  assert (Sm : forall i seg, small (tp_collected (base i) seg) /\ small (tp_unused (base i) seg)).
  { intros i seg. unfold base. destruct (gp_CheckConsistency g e); [apply (xi_small _ _ _ I)|].
    apply small_restarted. apply (xi_small _ _ _ I). }
  assert (Cc : gp_CheckConsistency g e = true -> w <> [] /\ gp_last g = last_table_index e).
  { unfold gp_CheckConsistency. intros C. apply andb_true_iff in C as [C1 C2]. apply Z.eqb_eq in C2.
    split; [|exact C2]. intros ->. rewrite (xi_none _ _ _ I eq_refl) in C1. discriminate. }
  assert (Bc : forall i seg j, 0 <= i < kNumTables -> 0 <= seg < kNumSegments -> 0 <= j < 8 ->
             (Z.testbit (tp_collected (base i) seg) j = true <-> taken f v i seg j)).
  { intros i seg j Hi Hs Hj. unfold base, v. destruct (gp_CheckConsistency g e) eqn:C.
    - apply (xi_collected _ _ _ I); auto. apply Cc; auto.
    - rewrite restarted_at.
      destruct (Z.leb_spec 0 i); destruct (Z.ltb_spec i kNumTables); cbn [andb]; try lia.
      assert (Z0 : tp_collected (tp_Reset (gp_tables g i)) seg = 0).
      { rewrite tp_Reset_collected.
        destruct (Z.leb_spec 0 seg); destruct (Z.ltb_spec seg kNumSegments); cbn [andb]; auto; lia. }
      assert (Z1 : Z.testbit (tp_collected (if last_table_index e + 1 <=? i then tp_Unuse (tp_Reset (gp_tables g i))
                      else tp_Reset (gp_tables g i)) seg) j = false).
      { destruct (_ <=? _);
          [change (tp_collected (tp_Unuse (tp_Reset (gp_tables g i))) seg) with (tp_collected (tp_Reset (gp_tables g i)) seg)|];
          rewrite Z0; apply Z.testbit_0_l. }
      rewrite Z1. split; [discriminate|]. intros (e' & [] & _). }
  assert (Bu : forall i seg j, 0 <= i <= last_table_index e -> 0 <= seg < kNumSegments -> 0 <= j < 8 ->
             (Z.testbit (tp_unused (base i) seg) j = true <-> spare f v i seg j)).
  { intros i seg j Hi Hs Hj. unfold base, v. destruct (gp_CheckConsistency g e) eqn:C.
    - destruct (Cc eq_refl) as [C1 C2]. apply (xi_unused _ _ _ I); auto. lia.
    - rewrite restarted_at. unfold kNumTables.
      destruct (Z.leb_spec 0 i); destruct (Z.ltb_spec i 8); cbn [andb]; try lia.
      destruct (Z.leb_spec (last_table_index e + 1) i); [lia|].
      rewrite tp_Reset_unused.
      destruct (Z.leb_spec 0 seg); destruct (Z.ltb_spec seg kNumSegments); cbn [andb]; try lia.
      rewrite Z.testbit_0_l. split; [discriminate|].
      intros [(e' & [] & _)|(_ & t & [] & _)]. }
  assert (Bf : forall i seg, last_table_index e < i < kNumTables -> 0 <= seg < kNumSegments ->
             tp_unused (base i) seg = 0xFF).
  { intros i seg Hi Hs. unfold base. destruct (gp_CheckConsistency g e) eqn:C.
    - destruct (Cc eq_refl) as [C1 C2]. apply (xi_full _ _ _ I); auto. lia.
    - rewrite restarted_at.
      destruct (Z.leb_spec 0 i); destruct (Z.ltb_spec i kNumTables); cbn [andb]; try lia.
      destruct (Z.leb_spec (last_table_index e + 1) i); [|lia]. rewrite tp_Unuse_unused.
      destruct (Z.leb_spec 0 seg); destruct (Z.ltb_spec seg kNumSegments); cbn [andb]; try lia. }
  assert (Bb : forall i, last_table_index e < i < kNumTables -> tp_completed (base i) = true).
  { intros i Hi. unfold base. destruct (gp_CheckConsistency g e) eqn:C.
    - destruct (Cc eq_refl) as [C1 C2]. apply (xi_behind _ _ _ I); auto. lia.
    - rewrite restarted_at.
      destruct (Z.leb_spec 0 i); destruct (Z.ltb_spec i kNumTables); cbn [andb]; try lia.
      destruct (Z.leb_spec (last_table_index e + 1) i); [|lia]. reflexivity. }
  assert (Ff : forall i seg, last_table_index e < i < kNumTables -> 0 <= seg < kNumSegments ->
             tp_unused (gp_tables (gp_Update g e) i) seg = 0xFF).
  { intros i seg Hi Hs. rewrite T. destruct (Z.eqb_spec i (table_index e)) as [->|]; [|apply Bf; auto].
    apply full_ff.
    - apply small_Update; apply Sm.
    - intros j Hj. rewrite tp_Update_unused by auto. rewrite Bf by auto. rewrite ff_bit by auto.
      destruct (_ && _); reflexivity. }
  rewrite V.
  assert (NE : v ++ [inl e] <> []) by (destruct v; discriminate).
  constructor.
  - intros X. contradiction.
  - intros _. cbn [gp_Update gp_last]. unfold v. destruct (gp_CheckConsistency g e) eqn:C.
    + destruct (Cc eq_refl) as [C1 C2]. destruct (xi_head _ _ _ I C1) as (e0 & w' & -> & F0 & L).
      exists e0, (w' ++ [inl e]). split; [reflexivity|]. split; [exact F0|]. congruence.
    + exists e, []. auto.
  - intros _ i seg j Hi Hs Hj. rewrite T.
    assert (X : taken f (v ++ [inl e]) i seg j <->
              taken f v i seg j \/ table_index e = i /\ segment_index e = seg /\ section_index e = j).
    { split.
      - intros (e' & Hin & F' & R'). apply in_app_or in Hin as [Hin|[Hin|[]]]; [left; exists e'; auto|].
        injection Hin as <-. right; auto.
      - intros [(e' & Hin & R')|R']; [exists e'; split; [apply in_or_app; auto|auto]|].
        exists e. split; [apply in_or_app; right; left; auto|auto]. }
    rewrite X, <- (Bc i seg j Hi Hs Hj). destruct (Z.eqb_spec i (table_index e)) as [->|Hne].
    + rewrite tp_Update_collected by lia. rewrite orb_true_iff, andb_true_iff, !Z.eqb_eq. intuition.
    + split; [auto|]. intros [K|(K & _)]; [exact K|congruence].
  - intros _ i seg j Hi Hs Hj. cbn [gp_Update gp_last] in Hi. rewrite T.
    assert (X : spare f (v ++ [inl e]) i seg j <->
              spare f v i seg j \/ table_index e = i /\ (last_segment_index e < seg \/ segment_index e = seg /\ last_section_index e < j)).
    { split.
      - intros [(e' & Hin & F' & R')|(Hi0 & t & Hin & R')].
        + apply in_app_or in Hin as [Hin|[Hin|[]]]; [left; left; exists e'; auto|].
          injection Hin as <-. right; auto.
        + apply in_app_or in Hin as [Hin|[Hin|[]]]; [|discriminate]. left; right. eauto.
      - intros [[(e' & Hin & R')|(Hi0 & t & Hin & R')]|R'].
        + left. exists e'. split; [apply in_or_app; auto|auto].
        + right. split; [auto|]. exists t. split; [apply in_or_app; auto|auto].
        + left. exists e. split; [apply in_or_app; right; left; auto|auto]. }
    rewrite X, <- (Bu i seg j Hi Hs Hj). destruct (Z.eqb_spec i (table_index e)) as [->|Hne].
    + rewrite tp_Update_unused by auto. rewrite orb_true_iff, andb_true_iff, Z.eqb_eq, Z.leb_le.
      destruct (Z.leb_spec (last_segment_index e + 1) seg) as [G|G];
        destruct (Z.ltb_spec seg kNumSegments) as [G'|G']; cbn [andb];
        try (exfalso; clear - Hs G'; lia).
      * split; [|auto]. intros _. right. split; [auto|left; lia].
      * split.
        -- intros [K|(K1 & K2)]; [auto|]. right. split; [auto|right; lia].
        -- intros [K|(_ & [K|(K1 & K2)])]; [auto|lia|]. right. split; [auto|lia].
    + split; [auto|]. intros [K|(K & _)]; [exact K|congruence].
  - intros _ i Hi. cbn [gp_Update gp_last] in Hi.
    pose proof (fun seg => Ff i seg Hi) as Fi. rewrite T in Fi. rewrite T.
    destruct (Z.eqb_spec i (table_index e)) as [->|]; [|apply Bb; auto].
    cbn [tp_Update tp_completed]. apply CheckCompleted_true. intros seg Hs.
    specialize (Fi seg Hs). cbn [tp_Update tp_unused] in Fi. rewrite Fi.
    apply full_ff.
    + intros j Hj. rewrite Z.lor_spec, small_ff by auto.
      pose proof (proj1 (small_Update (base (table_index e)) e seg (proj1 (Sm _ _)) (proj2 (Sm _ _))) j Hj) as S1.
      cbn [tp_Update tp_collected] in S1. rewrite S1. reflexivity.
    + intros j Hj. rewrite Z.lor_spec, ff_bit by auto. apply orb_true_r.
  - intros i seg. rewrite T. destruct (_ =? _); [apply small_Update; apply Sm|apply Sm].
  - intros _ i Hi. cbn [gp_Update gp_last] in Hi. rewrite T. destruct (_ =? _); [reflexivity|].
    unfold base. destruct (gp_CheckConsistency g e) eqn:C.
    + destruct (Cc eq_refl) as [C1 C2]. apply (xi_table _ _ _ I); auto. lia.
    + rewrite restarted_at. unfold kNumTables.
      destruct (Z.leb_spec 0 i); destruct (Z.ltb_spec i 8); cbn [andb]; try lia.
      destruct (Z.leb_spec (last_table_index e + 1) i); [lia|].
      cbn [tp_Reset tp_completed]. symmetry. apply not_true_iff_false. intros H2.
      unfold tp_CheckCompleted in H2. rewrite forallb_forall in H2.
      assert (P0 : In 0 (span 0 kNumSegments)) by (apply In_span; change kNumSegments with 32; lia).
      specialize (H2 0 P0).
      rewrite tp_Reset_collected, tp_Reset_unused in H2. discriminate.
  - intros _. reflexivity.
  - intros _ i seg Hi Hs. cbn [gp_Update gp_last] in Hi. apply Ff; auto.
Qed.

Lemma xinv_other : forall f w g e, xinv f w g -> f e = false -> xinv f (since_step f w (inl e)) g.
Proof.
  intros f w g e I Fe. cbn [since_step]. rewrite Fe. destruct w as [|x w']; [exact I|].
  set (w := x :: w') in *. assert (NE : w <> []) by discriminate.
  assert (X : forall i seg j, taken f (w ++ [inl e]) i seg j <-> taken f w i seg j).
  { intros. split.
    - intros (e' & Hin & F' & R'). apply in_app_or in Hin as [Hin|[Hin|[]]]; [exists e'; auto|]. congruence.
    - intros (e' & Hin & R'). exists e'. split; [apply in_or_app; auto|auto]. }
  assert (Y : forall i seg j, spare f (w ++ [inl e]) i seg j <-> spare f w i seg j).
  { intros. split.
    - intros [(e' & Hin & F' & R')|(Hi0 & t & Hin & R')].
      + apply in_app_or in Hin as [Hin|[Hin|[]]]; [left; exists e'; auto|]. congruence.
      + apply in_app_or in Hin as [Hin|[Hin|[]]]; [|discriminate]. right. eauto.
    - intros [(e' & Hin & R')|(Hi0 & t & Hin & R')].
      + left. exists e'. split; [apply in_or_app; auto|auto].
      + right. split; [auto|]. exists t. split; [apply in_or_app; auto|auto]. }
  constructor.
  - intros E. destruct w; discriminate.
  - intros _. destruct (xi_head _ _ _ I NE) as (e0 & w0 & E & F0 & L). exists e0, (w0 ++ [inl e]). rewrite E. auto.
  - intros _ i seg j Hi Hs Hj. rewrite X. apply (xi_collected _ _ _ I); auto.
  - intros _ i seg j Hi Hs Hj. rewrite Y. apply (xi_unused _ _ _ I); auto.
  - intros _. apply (xi_behind _ _ _ I NE).
  - apply (xi_small _ _ _ I).
  - intros _. apply (xi_table _ _ _ I NE).
  - intros _. apply (xi_group _ _ _ I NE).
  - intros _. apply (xi_full _ _ _ I NE).
Qed.

Lemma xinv_time : forall f w g t, xinv f w g -> xinv f (since_step f w (inr t)) (gp_UpdateUnused g t).
Proof.
  intros f w g t I. cbn [since_step].
  assert (T : forall i, gp_tables (gp_UpdateUnused g t) i =
              if i =? 0 then tp_UpdateUnused (gp_tables g i) t else gp_tables g i).
  { intros i. cbn [gp_UpdateUnused gp_tables]. unfold upd. destruct (Z.eqb_spec i 0) as [->|]; reflexivity. }
  assert (Sm : forall i seg, small (tp_collected (gp_tables (gp_UpdateUnused g t) i) seg) /\
                 small (tp_unused (gp_tables (gp_UpdateUnused g t) i) seg)).
  { intros i seg. rewrite T. destruct (xi_small _ _ _ I i seg). destruct (i =? 0); [|auto].
    split; [auto|apply small_UpdateUnused; auto]. }
  destruct w as [|x w'].
  - constructor; try congruence.
    + intros _. exact (xi_none _ _ _ I eq_refl).
    + exact Sm.
  - set (w := x :: w') in *. assert (NE : w <> []) by discriminate.
    assert (L : gp_last (gp_UpdateUnused g t) = gp_last g) by reflexivity.
    assert (L0 : 0 <= gp_last g).
    { destruct (xi_head _ _ _ I NE) as (e0 & w0 & _ & _ & L1). rewrite L1. apply last_table_index_range. }
    constructor.
    + intros E. destruct w; discriminate.
    + intros _. destruct (xi_head _ _ _ I NE) as (e0 & w0 & E & F0 & L1). exists e0, (w0 ++ [inr t]). rewrite E. auto.
    + intros _ i seg j Hi Hs Hj.
      assert (X : taken f (w ++ [inr t]) i seg j <-> taken f w i seg j).
      { split.
        - intros (e' & Hin & F' & R'). apply in_app_or in Hin as [Hin|[Hin|[]]]; [exists e'; auto|]. congruence.
        - intros (e' & Hin & R'). exists e'. split; [apply in_or_app; auto|auto]. }
      rewrite X, <- (xi_collected _ _ _ I NE i seg j Hi Hs Hj). rewrite T. destruct (i =? 0); reflexivity.
    + intros _ i seg j Hi Hs Hj. rewrite L in Hi.
      assert (Y : spare f (w ++ [inr t]) i seg j <-> spare f w i seg j \/ (i = 0 /\ seg < hour_of t / 3)).
      { split.
        - intros [(e' & Hin & F' & R')|(Hi0 & t' & Hin & R')].
          + apply in_app_or in Hin as [Hin|[Hin|[]]]; [left; left; exists e'; auto|]. congruence.
          + apply in_app_or in Hin as [Hin|[Hin|[]]]; [left; right; eauto|]. injection Hin as <-. right. auto.
        - intros [[(e' & Hin & R')|(Hi0 & t' & Hin & R')]|(Hi0 & R')].
          + left. exists e'. split; [apply in_or_app; auto|auto].
          + right. split; [auto|]. exists t'. split; [apply in_or_app; auto|auto].
          + right. split; [auto|]. exists t. split; [apply in_or_app; right; left; auto|auto]. }
      rewrite Y, <- (xi_unused _ _ _ I NE i seg j Hi Hs Hj), T.
      destruct (Z.eqb_spec i 0) as [->|].
      * rewrite tp_UpdateUnused_unused.
        destruct (Z.leb_spec 0 seg); destruct (Z.ltb_spec seg (hour_of t / 3)); cbn [andb]; try lia.
        -- rewrite ff_bit by auto. intuition.
        -- intuition lia.
      * intuition lia.
    + intros _ i Hi. rewrite L in Hi. rewrite T. destruct (Z.eqb_spec i 0); [lia|].
      apply (xi_behind _ _ _ I NE); auto.
    + exact Sm.
    + intros _ i Hi. rewrite L in Hi. rewrite T. destruct (Z.eqb_spec i 0); [reflexivity|].
      apply (xi_table _ _ _ I NE); auto.
    + intros _. reflexivity.
    + intros _ i seg Hi Hs. rewrite L in Hi. rewrite T. destruct (Z.eqb_spec i 0); [lia|].
      apply (xi_full _ _ _ I NE); auto.
Qed.

(** A group is finished exactly if nothing is missing since it names its last
    table. *)
Definition whole (f : eit_section -> bool) (w : list ev) : Prop :=
  forall e w', w = inl e :: w' -> forall i seg j, 0 <= i <= last_table_index e ->
    0 <= seg < kNumSegments -> 0 <= j < 8 -> taken f w i seg j \/ spare f w i seg j.

Lemma xinv_completed : forall f w g, xinv f w g -> (gp_IsCompleted g = true <-> whole f w).
Proof.
  intros f w g I. unfold gp_IsCompleted. destruct w as [|x w0].
  - rewrite (xi_none _ _ _ I eq_refl). cbn. split; [|auto]. intros _ e w' E. discriminate.
  - set (w := x :: w0) in *. assert (NE : w <> []) by discriminate.
    destruct (xi_head _ _ _ I NE) as (e & w' & E & Fe & L). pose proof (last_table_index_range e) as R.
    destruct (Z.ltb_spec (gp_last g) 0) as [|Lpos]; [lia|].
    rewrite (xi_group _ _ _ I NE). unfold gp_CheckCompleted. rewrite forallb_forall.
    assert (B : forall i seg j, 0 <= i <= last_table_index e -> 0 <= seg < kNumSegments -> 0 <= j < 8 ->
              (Z.testbit (tp_collected (gp_tables g i) seg) j = true \/ Z.testbit (tp_unused (gp_tables g i) seg) j = true
               <-> taken f w i seg j \/ spare f w i seg j)).
    { intros i seg j Hi Hs Hj. rewrite (xi_collected _ _ _ I NE) by (auto; unfold kNumTables; lia).
      rewrite (xi_unused _ _ _ I NE) by (auto; lia). reflexivity. }
    split.
    + intros H e' w'' E' i seg j Hi Hs Hj. rewrite E in E'. injection E' as <- <-. apply B; auto.
      assert (C : tp_completed (gp_tables g i) = true) by (apply H, In_span; unfold kNumTables; lia).
      rewrite (xi_table _ _ _ I NE) in C by lia. exact (proj1 (check_iff _ _ (fun seg => xi_small _ _ _ I i seg)) C seg j Hs Hj).
    + intros H i Hi. apply In_span in Hi.
      destruct (Z_lt_le_dec (gp_last g) i); [apply (xi_behind _ _ _ I NE); lia|].
      rewrite (xi_table _ _ _ I NE) by lia. apply (check_iff _ _ (fun seg => xi_small _ _ _ I i seg)).
      intros seg j Hs Hj. apply B; [lia|auto|auto|]. apply (H e w' E); [lia|auto|auto].
Qed.

(** * All services *)

Definition inhalf (k : Z) (b : bool) (e : eit_section) : bool :=
  (service_triple e =? k) && Bool.eqb (IsBasic e) b.

Definition all_whole (h : list ev) : Prop := forall k b, whole (inhalf k b) (since (inhalf k b) h).

Definition fin (h : list ev) : Prop :=
  exists a e b, h = a ++ inl e :: map inr b /\ all_whole (a ++ [inl e]).

Record hinv (h : list ev) (c : collect_progress) : Prop := mkHinv {
  hi_map : is_map (cp_services c);
  hi_groups : forall k b, xinv (inhalf k b) (since (inhalf k b) h) (half c k b);
  hi_done : cp_completed c = true <-> fin h }.

Lemma hinv_init : hinv [] cp_init.
Proof.
  constructor.
  - exact I.
  - intros k b. unfold half, cp_get. cbn. destruct b; apply xinv_init.
  - cbn. split; [discriminate|]. intros (a & e & b & E & _). destruct a; discriminate.
Qed.

Lemma hinv_update : forall h c e, hinv h c -> hinv (h ++ [inl e]) (cp_Update c e).
Proof.
  intros h c e I.
  assert (G : forall k b, xinv (inhalf k b) (since (inhalf k b) (h ++ [inl e])) (half (cp_Update c e) k b)).
  { intros k b. rewrite since_snoc. pose proof (hi_groups _ _ I k b) as Gk.
    unfold half in *. rewrite cp_get_update. rewrite (Z.eqb_sym k).
    destruct (Z.eqb_spec (service_triple e) k) as [<-|Hk].
    - unfold sp_Update. destruct (IsBasic e) eqn:Eb; destruct b; cbn [sp_basic sp_extra];
        solve [apply xinv_update; [exact Gk|unfold inhalf; rewrite Z.eqb_refl, Eb; reflexivity]
              |apply xinv_other; [exact Gk|unfold inhalf; rewrite Z.eqb_refl, Eb; reflexivity]].
    - apply xinv_other; [exact Gk|]. unfold inhalf. destruct (Z.eqb_spec (service_triple e) k); [contradiction|reflexivity]. }
  constructor.
  - cbn [cp_Update cp_services]. apply is_map_minsert. exact (hi_map _ _ I).
  - exact G.
  - assert (M : cp_completed (cp_Update c e) = true <-> forall k b, gp_IsCompleted (half (cp_Update c e) k b) = true).
    { cbn [cp_Update cp_completed]. rewrite forallb_forall. unfold half, cp_get.
      set (m := cp_services (cp_Update c e)). 
      assert (Mm : is_map m) by (apply is_map_minsert; exact (hi_map _ _ I)).
      change (minsert (service_triple e) (sp_Update match mfind (service_triple e) (cp_services c) with
                | Some s => s | None => sp_init end e) (cp_services c)) with m.
      split.
      - intros H k b. destruct (mfind k m) as [s|] eqn:F; [|destruct b; reflexivity].
        apply mfind_In in F; [|exact Mm]. apply H in F. cbn [snd] in F. unfold sp_IsCompleted in F.
        apply andb_true_iff in F as [F1 F2]. destruct b; auto.
      - intros H [k s] Hin. apply mfind_In in Hin; [|exact Mm]. cbn [snd]. unfold sp_IsCompleted.
        pose proof (H k true) as H1. pose proof (H k false) as H2. rewrite Hin in H1, H2. rewrite H1, H2. reflexivity. }
    rewrite M. split.
    + intros H. exists h, e, []. split; [reflexivity|]. intros k b. apply (xinv_completed _ _ _ (G k b)). apply H.
    + intros (a & e' & b & E & W) k b0. apply (xinv_completed _ _ _ (G k b0)).
      destruct b as [|t b] using rev_ind.
      * cbn [map] in E. apply app_inj_tail in E as [-> E]. injection E as ->. apply W.
      * rewrite map_app in E. cbn [map] in E. rewrite app_comm_cons, app_assoc in E.
        apply app_inj_tail in E as [_ E]. discriminate.
Qed.

Lemma hinv_time : forall h c t, hinv h c -> hinv (h ++ [inr t]) (cp_UpdateUnused c t).
Proof.
  intros h c t I. constructor.
  - cbn [cp_UpdateUnused cp_services]. apply (is_map_map _ _ (fun s => sp_UpdateUnused s t)). exact (hi_map _ _ I).
  - intros k b. rewrite since_snoc. unfold half, cp_get. cbn [cp_UpdateUnused cp_services].
    rewrite (mfind_map _ _ (fun s => sp_UpdateUnused s t)).
    pose proof (hi_groups _ _ I k b) as G. unfold half, cp_get in G.
    destruct (mfind k (cp_services c)) as [s|] eqn:F; cbn [option_map].
    + unfold sp_UpdateUnused. destruct b; cbn [sp_basic sp_extra]; apply xinv_time; exact G.
    + assert (N : since (inhalf k b) h = []).
      { destruct (since (inhalf k b) h) as [|x w] eqn:E; [reflexivity|exfalso].
        destruct (xi_head _ _ _ G) as (e & w' & _ & _ & L); [discriminate|].
        pose proof (last_table_index_range e). destruct b; cbn in L; lia. }
      rewrite N. cbn [since_step]. destruct b; apply xinv_init.
  - cbn [cp_UpdateUnused cp_completed]. rewrite (hi_done _ _ I). split.
    + intros (a & e & b & -> & W). exists a, e, (b ++ [t]). split; [|exact W].
      rewrite map_app, <- app_assoc. reflexivity.
    + intros (a & e & b & E & W). destruct b as [|t' b] using rev_ind.
      * cbn [map] in E. apply app_inj_tail in E as [_ E]. discriminate.
      * exists a, e, b. split; [|exact W]. rewrite map_app in E. cbn [map] in E.
        rewrite app_comm_cons, app_assoc in E. apply app_inj_tail in E as [E _]. exact E.
Qed.

(** * Where the present announcement of a half begins *)

Definition flast (f : eit_section -> bool) (k : list ev) : option eit_section :=
  fold_left (fun acc v => match v with inl e => if f e then Some e else acc | inr _ => acc end) k None.

Lemma flast_snoc : forall f k v, flast f (k ++ [v]) =
  match v with inl e => if f e then Some e else flast f k | inr _ => flast f k end.
Proof. intros. unfold flast. rewrite fold_left_app. reflexivity. Qed.

Lemma flast_split : forall f k e,
  (flast f k = Some e <->
   exists a b, k = a ++ inl e :: b /\ f e = true /\ forall z, In (inl z) b -> f z = false).
Proof.
  intros f k e. induction k as [|v k IH] using rev_ind.
  - split; [discriminate|]. intros (a & b & E & _). destruct a; discriminate.
  - rewrite flast_snoc.
    assert (Old : match v with inl z => f z = false | inr _ => True end ->
              (flast f k = Some e <-> exists a b, k ++ [v] = a ++ inl e :: b /\ f e = true /\
                 forall z, In (inl z) b -> f z = false)).
    { intros Hv. rewrite IH. split.
      - intros (a & b & -> & F & N). exists a, (b ++ [v]). split; [rewrite <- app_assoc; reflexivity|].
        split; [exact F|]. intros z Hz. apply in_app_or in Hz as [Hz|[->|[]]]; [auto|exact Hv].
      - intros (a & b & E & F & N). destruct b as [|z b] using rev_ind.
        + apply app_inj_tail in E as [-> ->]. congruence.
        + clear IHb. rewrite app_comm_cons, app_assoc in E. apply app_inj_tail in E as [-> ->].
          exists a, b. split; [reflexivity|]. split; [exact F|]. intros y Hy. apply N. apply in_or_app; auto. }
    destruct v as [x|t]; [|apply Old; exact I]. destruct (f x) eqn:Fx; [|apply Old; reflexivity].
    split.
    + intros E. injection E as <-. exists k, []. split; [reflexivity|]. split; [exact Fx|]. intros z [].
    + intros (a & b & E & F & N). destruct b as [|z b] using rev_ind.
      * apply app_inj_tail in E as [_ E]. injection E as ->. reflexivity.
      * clear IHb. rewrite app_comm_cons, app_assoc in E. apply app_inj_tail in E as [_ <-].
        rewrite (N x) in Fx by (apply in_or_app; right; left; auto). discriminate.
Qed.

Lemma since_last : forall f k,
  match flast f k with
  | None => since f k = []
  | Some e => exists e0 w, since f k = inl e0 :: w /\ last_table_index e0 = last_table_index e
  end.
Proof.
  intros f k. induction k as [|v k IH] using rev_ind; [reflexivity|].
  rewrite flast_snoc, since_snoc. unfold since_step. destruct v as [x|t].
  - destruct (f x).
    + destruct (since f k) as [|[e0|t0] w] eqn:E; [exists x, []; auto| |exists x, []; auto].
      destruct (Z.eqb_spec (last_table_index e0) (last_table_index x)) as [Q|Q].
      * exists e0, (w ++ [inl x]). auto.
      * exists x, []. auto.
    + destruct (flast f k) as [e|]; [|rewrite IH; reflexivity].
      destruct IH as (e0 & w & -> & Q). exists e0, (w ++ [inl x]). auto.
  - destruct (flast f k) as [e|]; [|rewrite IH; reflexivity].
    destruct IH as (e0 & w & -> & Q). exists e0, (w ++ [inr t]). auto.
Qed.

Definition ann (f : eit_section -> bool) (k : list ev) (e : eit_section) (w : list ev) : Prop :=
  exists pre, k = pre ++ inl e :: w /\ f e = true /\
    (forall y, In (inl y) w -> f y = true -> last_table_index y = last_table_index e) /\
    (forall y, flast f pre = Some y -> last_table_index y <> last_table_index e).

Lemma ann_since : forall f k e w, ann f k e w -> since f k = inl e :: w.
Proof.
  intros f k e w (pre & -> & Fe & Hw & Hp).
  induction w as [|v w IH] using rev_ind.
  - rewrite since_snoc. unfold since_step. rewrite Fe. pose proof (since_last f pre) as L.
    destruct (flast f pre) as [y|]; [|rewrite L; reflexivity].
    destruct L as (e0 & w & -> & Q). destruct (Z.eqb_spec (last_table_index e0) (last_table_index e)); [|reflexivity].
    exfalso. apply (Hp y eq_refl). congruence.
  - rewrite app_comm_cons, app_assoc, since_snoc, IH.
    + unfold since_step. destruct v as [x|t]; [|reflexivity].
      destruct (f x) eqn:Fx; [|reflexivity].
      rewrite (Hw x) by (auto; apply in_or_app; right; left; auto). rewrite Z.eqb_refl. reflexivity.
    + intros y Hy. apply Hw. apply in_or_app; auto.
Qed.

Lemma since_ann : forall f k e w, since f k = inl e :: w -> ann f k e w.
Proof.
  intros f k. induction k as [|v k IH] using rev_ind; intros e w H; [discriminate|].
  rewrite since_snoc in H. unfold since_step in H. pose proof (since_last f k) as L.
  assert (Old : forall e0 w0, since f k = inl e0 :: w0 -> inl e0 :: w0 ++ [v] = inl e :: w ->
            (forall x, v = inl x -> f x = true -> last_table_index x = last_table_index e0) -> ann f (k ++ [v]) e w).
  { intros e0 w0 E0 E1 Hv. injection E1 as -> <-. destruct (IH _ _ E0) as (pre & -> & Fe & Hw & Hp).
    exists pre. split; [rewrite <- app_assoc; reflexivity|]. split; [exact Fe|]. split; [|exact Hp].
    intros y Hy Fy. apply in_app_or in Hy as [Hy|[Hy|[]]]; auto. }
  assert (New : forall x, v = inl x -> f x = true -> [inl x] = inl e :: w ->
            (forall y, flast f k = Some y -> last_table_index y <> last_table_index x) -> ann f (k ++ [v]) e w).
  { intros x -> Fx E Hp. injection E as -> <-. exists k. split; [reflexivity|]. split; [exact Fx|].
    split; [intros y []|exact Hp]. }
  destruct v as [x|t].
  - destruct (f x) eqn:Fx.
    + destruct (since f k) as [|[e0|t0] w0] eqn:E0.
      * apply (New x); auto. intros y Hy. rewrite Hy in L. destruct L as (? & ? & L & _). discriminate.
      * destruct (Z.eqb_spec (last_table_index e0) (last_table_index x)) as [Q|Q].
        -- apply (Old e0 w0); auto. intros z Ez _. injection Ez as <-. auto.
        -- apply (New x); auto. intros y Hy. rewrite Hy in L. destruct L as (e1 & w1 & L & Q1).
           injection L as <- <-. congruence.
      * exfalso. destruct (flast f k); [|discriminate]. destruct L as (? & ? & L & _). discriminate.
    + destruct (since f k) as [|[e0|t0] w0] eqn:E0; [discriminate| |discriminate].
      apply (Old e0 w0); auto. intros z Ez Fz. congruence.
  - destruct (since f k) as [|[e0|t0] w0] eqn:E0; [discriminate| |discriminate].
    apply (Old e0 w0); auto. intros z Ez. discriminate.
Qed.

(** * From sections to marks *)

Section Marks.
Variable mjd : list Z -> option Z.
Variable o : eit_option.

Definition mrel (m : mark) (v : ev) : Prop :=
  match m, v with
  | MOut x, inl e => wire x /\ read o x e
  | MTot t, inr u => t = u
  | _, _ => False
  end.

Lemma mrel_out_r : forall m e, mrel m (inl e) -> exists x, m = MOut x /\ wire x /\ read o x e.
Proof. intros [x|t] e H; [exists x; auto|destruct H]. Qed.
Lemma mrel_out_l : forall x v, mrel (MOut x) v -> exists e, v = inl e /\ wire x /\ read o x e.
Proof. intros x [e|t] H; [exists e; auto|destruct H]. Qed.
Lemma mrel_tot_r : forall m t, mrel m (inr t) -> m = MTot t.
Proof. intros [x|u] t H; [destruct H|]. cbn in H. congruence. Qed.
Lemma mrel_tot_l : forall t v, mrel (MTot t) v -> v = inr t.
Proof. intros t [e|u] H; [destruct H|]. cbn in H. congruence. Qed.

Lemma inhalf_iff : forall x y ex ey, wire x -> wire y -> read o x ex -> read o y ey ->
  (inhalf (service_triple ex) (IsBasic ex) ey = true <-> same_half y x).
Proof.
  intros x y ex ey Wx Wy Rx Ry. rewrite <- (read_part o y x ey ex Wy Wx Ry Rx). unfold inhalf.
  rewrite andb_true_iff, Z.eqb_eq, eqb_true_iff. tauto.
Qed.

Lemma announced_ann : forall H h x w e, Forall2 mrel H h -> wire x -> read o x e -> announced H x w ->
  exists e' w', Forall2 mrel w w' /\ read o x e' /\ ann (inhalf (service_triple e) (IsBasic e)) h e' w'.
Proof.
  intros H h x w e F Wx Rx (pre & -> & Hw & Hp).
  destruct (Forall2_split _ _ _ _ _ _ _ F) as (pre' & v & w' & -> & F1 & Rv & F2).
  destruct (mrel_out_l _ _ Rv) as (e' & -> & _ & Rx'). exists e', w'. split; [exact F2|]. split; [exact Rx'|].
  exists pre'. split; [reflexivity|]. split; [apply (inhalf_iff x x e e'); auto; split; reflexivity|].
  destruct (read_fields _ _ _ Rx') as (_ & _ & X3 & _). split.
  - intros y Hy Fy. destruct (Forall2_In_r _ _ _ _ _ _ F2 Hy) as (m & Hm & Rm).
    destruct (mrel_out_r _ _ Rm) as (z & -> & Wz & Rz).
    destruct (read_fields _ _ _ Rz) as (_ & _ & Z3 & _). rewrite Z3, X3. apply Hw; [exact Hm|].
    apply (inhalf_iff x z e y); auto.
  - intros y Hy. apply flast_split in Hy as (a & b & -> & Fy & Nb).
    apply Forall2_app_inv_r in F1 as (a0 & r & Fa & Fr & ->). inversion Fr as [|m ? b0 ? Rm Fb]; subst.
    destruct (mrel_out_r _ _ Rm) as (z & -> & Wz & Rz).
    destruct (read_fields _ _ _ Rz) as (_ & _ & Z3 & _). rewrite Z3, X3.
    apply (Hp a0 z b0 eq_refl); [apply (inhalf_iff x z e y); auto|].
    intros u Hu Su. destruct (Forall2_In_l _ _ _ _ _ _ Fb Hu) as (v & Hv & Ru).
    destruct (mrel_out_l _ _ Ru) as (eu & -> & Wu & Reu).
    specialize (Nb eu Hv). discriminate (eq_trans (eq_sym (proj2 (inhalf_iff x u e eu Wx Wu Rx Reu) Su)) Nb).
Qed.

Lemma ann_announced : forall H h k b e w', Forall2 mrel H h -> ann (inhalf k b) h e w' ->
  exists x w, Forall2 mrel w w' /\ wire x /\ read o x e /\ announced H x w.
Proof.
  intros H h k b e w' F (pre' & -> & Fe & Hw & Hp).
  apply Forall2_app_inv_r in F as (pre & r & F1 & Fr & ->). inversion Fr as [|m ? w ? Rm F2]; subst.
  destruct (mrel_out_r _ _ Rm) as (x & -> & Wx & Rx). exists x, w. do 3 (split; [assumption|]).
  assert (Ek : inhalf (service_triple e) (IsBasic e) = inhalf k b).
  { unfold inhalf in Fe. apply andb_true_iff in Fe as [E1 E2]. apply Z.eqb_eq in E1. apply Bool.eqb_prop in E2.
    subst. reflexivity. }
  destruct (read_fields _ _ _ Rx) as (_ & _ & X3 & _).
  exists pre. split; [reflexivity|]. split.
  - intros y Hy Sy. destruct (Forall2_In_l _ _ _ _ _ _ F2 Hy) as (v & Hv & Rv).
    destruct (mrel_out_l _ _ Rv) as (ey & -> & Wy & Ry).
    destruct (read_fields _ _ _ Ry) as (_ & _ & Y3 & _). rewrite <- Y3, <- X3. apply Hw; [exact Hv|].
    rewrite <- Ek. apply (inhalf_iff x y e ey); auto.
  - intros a y b0 -> Sy Nb.
    destruct (Forall2_split _ _ _ _ _ _ _ F1) as (a' & v & b' & -> & Fa & Rv & Fb).
    destruct (mrel_out_l _ _ Rv) as (ey & -> & Wy & Ry).
    destruct (read_fields _ _ _ Ry) as (_ & _ & Y3 & _). rewrite <- Y3, <- X3. apply Hp.
    apply flast_split. exists a', b'. split; [reflexivity|].
    rewrite <- Ek. split; [apply (inhalf_iff x y e ey); auto|].
    intros z Hz. destruct (Forall2_In_r _ _ _ _ _ _ Fb Hz) as (m & Hm & Rm').
    destruct (mrel_out_r _ _ Rm') as (u & -> & Wu & Ru).
    apply not_true_iff_false. intros K. apply (Nb u Hm). apply (inhalf_iff x u e z); auto.
Qed.

(** One section number, in both views. *)
Definition accounted (x : section) (w : list mark) (i n : Z) : Prop :=
  (exists y, In (MOut y) (MOut x :: w) /\ service_of y = service_of x /\
     sn_tid y mod 16 = sn_tid x mod 16 / 8 * 8 + i /\ (sn_number y = n \/ denies y n)) \/
  (i = 0 /\ exists t, In (MTot t) w /\ n / 8 < segment_of t).

Lemma tid_parts : forall x y i, 0 <= i < 8 ->
  ((sn_tid y mod 16 <? 8) = (sn_tid x mod 16 <? 8) /\ sn_tid y mod 8 = i <->
   sn_tid y mod 16 = sn_tid x mod 16 / 8 * 8 + i).
Proof.
  intros x y i Hi.
  assert (M : sn_tid y mod 8 = (sn_tid y mod 16) mod 8).
  { rewrite (Z.div_mod (sn_tid y) 16) at 1 by lia.
    replace (16 * (sn_tid y / 16) + sn_tid y mod 16) with (sn_tid y mod 16 + (2 * (sn_tid y / 16)) * 8) by lia.
    apply Z.mod_add. lia. }
  rewrite <- half_div, M. pose proof (Z.div_mod (sn_tid y mod 16) 8). split.
  - intros [E1 E2]. lia.
  - intros E. assert (D : sn_tid y mod 16 / 8 = sn_tid x mod 16 / 8).
    { symmetry. apply Z.div_unique with i; lia. }
    split; [exact D|]. lia.
Qed.

Lemma accounted_iff : forall x e w w' i n, wire x -> read o x e -> Forall2 mrel w w' ->
  0 <= i < 8 -> 0 <= n < 256 ->
  let f := inhalf (service_triple e) (IsBasic e) in
  (accounted x w i n <-> taken f (inl e :: w') i (n / 8) (n mod 8) \/ spare f (inl e :: w') i (n / 8) (n mod 8)).
Proof.
  intros x e w w' i n Wx Rx F Hi Hn f.
  assert (F' : Forall2 mrel (MOut x :: w) (inl e :: w')) by (constructor; [split; auto|exact F]).
  assert (P : forall y ey, wire y -> read o y ey ->
            (f ey = true /\ table_index ey = i <->
             service_of y = service_of x /\ sn_tid y mod 16 = sn_tid x mod 16 / 8 * 8 + i)).
  { intros y ey Wy Ry. rewrite <- (tid_parts x y i Hi), <- (read_service o y x ey e Wy Wx Ry Rx).
    destruct (read_fields _ _ _ Ry) as (Y1 & Y2 & _). destruct (read_fields _ _ _ Rx) as (_ & X2 & _).
    rewrite <- Y1, <- Y2, <- X2. unfold f, inhalf. rewrite andb_true_iff, Z.eqb_eq, eqb_true_iff. tauto. }
  split.
  - intros [(y & Hy & S & T & K)|(Hi0 & t & Ht & K)].
    + destruct (Forall2_In_l _ _ _ _ _ _ F' Hy) as (v & Hv & Rv).
      destruct (mrel_out_l _ _ Rv) as (ey & -> & Wy & Ry).
      destruct (proj2 (P y ey Wy Ry) (conj S T)) as [Fy Ty].
      destruct (read_fields _ _ _ Ry) as (_ & _ & _ & Y4 & Y5 & Y6 & Y7 & _).
      destruct K as [K|K].
      * left. exists ey. do 3 (split; [assumption|]). rewrite Y4, Y5, K. auto.
      * right. left. exists ey. do 3 (split; [assumption|]). rewrite Y4, Y6, Y7. exact K.
    + right. right. split; [exact Hi0|]. exists t.
      destruct (Forall2_In_l _ _ _ _ _ _ F Ht) as (v & Hv & Rv). apply mrel_tot_l in Rv. subst v.
      split; [right; exact Hv|]. rewrite hour_segment. exact K.
  - intros [(ey & Hy & Fy & Ty & K1 & K2)|[(ey & Hy & Fy & Ty & K)|(Hi0 & t & Ht & K)]].
    + destruct (Forall2_In_r _ _ _ _ _ _ F' Hy) as (m & Hm & Rm).
      destruct (mrel_out_r _ _ Rm) as (y & -> & Wy & Ry).
      destruct (proj1 (P y ey Wy Ry) (conj Fy Ty)) as [S T].
      destruct (read_fields _ _ _ Ry) as (_ & _ & _ & Y4 & Y5 & _).
      left. exists y. do 3 (split; [assumption|]). left. apply number_parts. split; congruence.
    + destruct (Forall2_In_r _ _ _ _ _ _ F' Hy) as (m & Hm & Rm).
      destruct (mrel_out_r _ _ Rm) as (y & -> & Wy & Ry).
      destruct (proj1 (P y ey Wy Ry) (conj Fy Ty)) as [S T].
      destruct (read_fields _ _ _ Ry) as (_ & _ & _ & Y4 & _ & Y6 & Y7 & _).
      left. exists y. do 3 (split; [assumption|]). right. unfold denies. rewrite <- Y4, <- Y6, <- Y7. exact K.
    + right. split; [exact Hi0|]. exists t. destruct Ht as [Ht|Ht]; [discriminate|].
      destruct (Forall2_In_r _ _ _ _ _ _ F Ht) as (m & Hm & Rm). apply mrel_tot_r in Rm. subst m.
      split; [exact Hm|]. rewrite <- hour_segment. exact K.
Qed.

Lemma nothing_missing_iff : forall H h, Forall2 mrel H h -> (nothing_missing H <-> all_whole h).
Proof.
  intros H h F. split.
  - intros N k b e w' E i seg j Hi Hs Hj. rewrite E.
    destruct (ann_announced H h k b e w' F) as (x & w & Fw & Wx & Rx & A); [apply since_ann; exact E|].
    assert (Ek : inhalf (service_triple e) (IsBasic e) = inhalf k b).
    { destruct (since_ann _ _ _ _ E) as (pre & _ & Fe & _).
      unfold inhalf in Fe. apply andb_true_iff in Fe as [E1 E2]. apply Z.eqb_eq in E1. apply Bool.eqb_prop in E2.
      subst. reflexivity. }
    destruct (read_fields _ _ _ Rx) as (_ & _ & X3 & _). pose proof (last_table_index_range e).
    change kNumSegments with 32 in Hs.
    assert (Hn : 0 <= seg * 8 + j < 256) by lia.
    assert (D : (seg * 8 + j) / 8 = seg) by (symmetry; apply Z.div_unique with j; lia).
    assert (M : (seg * 8 + j) mod 8 = j) by (symmetry; apply Z.mod_unique with seg; lia).
    rewrite X3 in Hi.
    pose proof (N x w i (seg * 8 + j) A Hi Hn) as K.
    apply (accounted_iff x e w w' i (seg * 8 + j) Wx Rx Fw) in K; [|lia|lia].
    rewrite D, M, Ek in K. exact K.
  - intros Hw x w i n A Hi Hn.
    assert (Rx : wire x /\ exists e, read o x e).
    { destruct A as (pre & -> & _). destruct (Forall2_split _ _ _ _ _ _ _ F) as (pre' & v & w' & _ & _ & Rv & _).
      destruct (mrel_out_l _ _ Rv) as (e & -> & Wx & Rx). eauto. }
    destruct Rx as (Wx & e0 & Rx0).
    destruct (announced_ann H h x w e0 F Wx Rx0 A) as (e & w' & Fw & Rx & An).
    assert (e0 = e) by (destruct Rx0 as (_ & Q & _); destruct Rx as (_ & Q' & _); congruence). subst e0.
    apply ann_since in An. destruct (read_fields _ _ _ Rx) as (_ & _ & X3 & _). pose proof (last_table_index_range e).
    apply (accounted_iff x e w w' i n Wx Rx Fw); [lia|lia|].
    pose proof (Hw (service_triple e) (IsBasic e) e w' An i (n / 8) (n mod 8)) as K. rewrite An in K. apply K.
    + lia.
    + change kNumSegments with 32. split; [apply Z.div_pos; lia|apply Z.div_lt_upper_bound; lia].
    + apply Z.mod_pos_bound. lia.
Qed.

Lemma finished_iff : forall H h, Forall2 mrel H h -> (finished H <-> fin h).
Proof.
  intros H h F. split.
  - intros (a & x & b & -> & N).
    destruct (Forall2_split _ _ _ _ _ _ _ F) as (a' & v & b' & -> & Fa & Rv & Fb).
    destruct (mrel_out_l _ _ Rv) as (e & -> & Wx & Rx). exists a', e, b. split.
    + f_equal. f_equal. clear - Fb. revert b' Fb. induction b as [|t b IH]; intros b' Fb; inversion Fb as [|? v ? r Rv Fr]; subst; [reflexivity|].
      apply mrel_tot_l in Rv. subst v. cbn [map]. f_equal. apply IH; auto.
    + apply (nothing_missing_iff (a ++ [MOut x])); [|exact N]. apply Forall2_app; [exact Fa|]. constructor; [exact Rv|constructor].
  - intros (a' & e & b & -> & W).
    apply Forall2_app_inv_r in F as (a & r & Fa & Fr & ->). inversion Fr as [|m ? b0 ? Rm Fb]; subst.
    destruct (mrel_out_r _ _ Rm) as (x & -> & Wx & Rx). exists a, x, b. split.
    + f_equal. f_equal. clear - Fb. revert b0 Fb. induction b as [|t b IH]; intros b0 Fb; inversion Fb as [|m ? r ? Rv Fr]; subst; [reflexivity|].
      apply mrel_tot_r in Rv. subst m. cbn [map]. f_equal. apply IH; auto.
    + apply (nothing_missing_iff (a ++ [MOut x]) (a' ++ [inl e])); [|exact W]. apply Forall2_app; [exact Fa|]. constructor; [exact Rm|constructor].
Qed.

Lemma history_app : forall a b s s1, ec_deliver_all mjd o s a = Ok s1 ->
  history mjd o s (a ++ b) = history mjd o s a ++ history mjd o s1 b.
Proof.
  induction a as [|d a IH]; intros b s s1 H; cbn [app history ec_deliver_all] in *.
  - injection H as <-. reflexivity.
  - apply bind_ok in H as (s2 & H1 & H2). rewrite H1, (IH b s2 s1 H2), app_assoc. reflexivity.
Qed.

Lemma history_run : forall ds s, wires ds -> ec_deliver_all mjd o ec_init ds = Ok s ->
  exists h, Forall2 mrel (history mjd o ec_init ds) h /\ hinv h (ec_progress s).
Proof.
  intros ds. induction ds as [|d ds IH] using rev_ind; intros s W H.
  - cbn in H. injection H as <-. exists []. split; [constructor|apply hinv_init].
  - destruct (deliver_all_snoc _ _ _ _ _ _ H) as (s1 & H1 & H2).
    destruct (IH s1) as (h & F & I); [intros x Hx; apply W, in_or_app; auto|exact H1|].
    rewrite (history_app _ _ _ _ H1). cbn [history]. rewrite H2, app_nil_r.
    destruct d as [x|t]; cbn [ec_deliver] in H2.
    + destruct (handleSection_cases _ _ _ _ _ H2) as [(-> & _)|[(-> & _)|(S & e & doc & He & _ & _ & ->)]].
      * rewrite Z.eqb_refl, app_nil_r. eauto.
      * rewrite Z.eqb_refl, app_nil_r. eauto.
      * cbn [ec_out ec_progress]. rewrite zlen_app. change (zlen [doc]) with 1.
        destruct (Z.eqb_spec (zlen (ec_out s1) + 1) (zlen (ec_out s1))); [lia|].
        exists (h ++ [inl e]). split; [|apply hinv_update; exact I].
        apply Forall2_app; [exact F|]. constructor; [|constructor]. split; [apply W, in_or_app; right; left; auto|].
        split; [exact S|]. split; [exact He|]. apply EitSection_inv; [|exact He].
        destruct S as (_ & _ & S & _). exact S.
    + injection H2 as <-. destruct t as [t|].
      * exists (h ++ [inr t]). split; [|apply hinv_time; exact I].
        apply Forall2_app; [exact F|]. constructor; [reflexivity|constructor].
      * rewrite app_nil_r. eauto.
Qed.

Lemma completed_exact : forall ds s, wires ds -> ec_deliver_all mjd o ec_init ds = Ok s ->
  (cp_completed (ec_progress s) = true <-> finished (history mjd o ec_init ds)).
Proof.
  intros ds s W H. destruct (history_run ds s W H) as (h & F & I).
  rewrite (finished_iff _ _ F). exact (hi_done _ _ I).
Qed.

End Marks.
