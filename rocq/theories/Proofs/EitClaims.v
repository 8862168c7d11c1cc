(** The claims about collect-eits. *)
From Coq Require Import ZArith List Bool Lia.
From Verif Require Import Base.Outcome Base.Util Model.Sink Model.EitSection Model.EitCollector
  Proofs.EitSectionProofs Proofs.EitProofs Proofs.EitMain Spec.EitSpec.
Import ListNotations.
Open Scope Z_scope.

(** * When a section counts as collected *)

Lemma CheckCollected_spec : forall c e,
  cp_CheckCollected c e = true <->
  (0 <= gp_last (half c (service_triple e) (IsBasic e)) /\
   gp_last (half c (service_triple e) (IsBasic e)) = last_table_index e /\
   (forall i, section_index e <= i < last_section_index e ->
      tp_versions (gp_tables (half c (service_triple e) (IsBasic e)) (table_index e)) i <> 0xFF /\
      tp_versions (gp_tables (half c (service_triple e) (IsBasic e)) (table_index e)) i = ei_version e) /\
   Z.testbit (tp_collected (gp_tables (half c (service_triple e) (IsBasic e)) (table_index e)) (segment_index e))
     (section_index e) = true).
Proof.
  intros c e. unfold cp_CheckCollected, half, cp_get.
  destruct (mfind (service_triple e) (cp_services c)) as [s|].
  - unfold sp_CheckCollected.
    assert (G : forall g, gp_CheckCollected g e = true <->
      (0 <= gp_last g /\ gp_last g = last_table_index e /\
       (forall i, section_index e <= i < last_section_index e ->
          tp_versions (gp_tables g (table_index e)) i <> 0xFF /\
          tp_versions (gp_tables g (table_index e)) i = ei_version e) /\
       Z.testbit (tp_collected (gp_tables g (table_index e)) (segment_index e)) (section_index e) = true)).
    { intros g. unfold gp_CheckCollected.
      destruct (Z.ltb_spec (gp_last g) 0); [split; [discriminate|lia]|].
      destruct (Z.eqb_spec (gp_last g) (last_table_index e)); cbn [negb]; [|split; [discriminate|tauto]].
      unfold tp_CheckCollected. rewrite andb_true_iff, mask_bit by apply section_index_range.
      rewrite forallb_forall. split.
      - intros [A B]. split; [auto|]. split; [auto|]. split; [|exact B].
        intros i Hi. specialize (A i (proj2 (In_span _ _ _) Hi)).
        apply andb_true_iff in A as [A1 A2]. apply negb_true_iff, Z.eqb_neq in A1. apply Z.eqb_eq in A2. auto.
      - intros (_ & _ & A & B). split; [|exact B]. intros i Hi. apply In_span in Hi.
        destruct (A i Hi) as [A1 A2]. apply andb_true_iff. split; [apply negb_true_iff, Z.eqb_neq; auto|apply Z.eqb_eq; auto]. }
    destruct (IsBasic e); apply G.
  - split; [discriminate|]. intros (A & _). exfalso. destruct (IsBasic e); cbn in A; lia.
Qed.

(** * From parsed sections to sections *)

Lemma basic_mod : forall e, IsBasic e = (ei_tid e mod 16 <? 8).
Proof. intros. unfold IsBasic. rewrite land15. reflexivity. Qed.

Lemma nibble_parts : forall a b,
  (a mod 16 = b mod 16 <-> (a mod 16 <? 8) = (b mod 16 <? 8) /\ a mod 8 = b mod 8).
Proof.
  intros a b.
  assert (M : forall x, x mod 8 = (x mod 16) mod 8).
  { intros x. rewrite (Z.div_mod x 16) at 1 by lia.
    replace (16 * (x / 16) + x mod 16) with (x mod 16 + (2 * (x / 16)) * 8) by lia.
    apply Z.mod_add. lia. }
  rewrite (M a), (M b).
  pose proof (Z.mod_pos_bound a 16). pose proof (Z.mod_pos_bound b 16).
  split; [intros ->; auto|]. intros [H1 H2].
  pose proof (Z.div_mod (a mod 16) 8). pose proof (Z.div_mod (b mod 16) 8).
  assert (Qa : a mod 16 / 8 = if a mod 16 <? 8 then 0 else 1).
  { destruct (Z.ltb_spec (a mod 16) 8); symmetry; [apply Z.div_unique with (a mod 16); lia|].
    apply Z.div_unique with (a mod 16 - 8); lia. }
  assert (Qb : b mod 16 / 8 = if b mod 16 <? 8 then 0 else 1).
  { destruct (Z.ltb_spec (b mod 16) 8); symmetry; [apply Z.div_unique with (b mod 16); lia|].
    apply Z.div_unique with (b mod 16 - 8); lia. }
  rewrite H1 in Qa. lia.
Qed.

Lemma half_div : forall a b, (a mod 16 / 8 = b mod 16 / 8 <-> (a mod 16 <? 8) = (b mod 16 <? 8)).
Proof.
  assert (Q : forall a, a mod 16 / 8 = if a mod 16 <? 8 then 0 else 1).
  { intros a. pose proof (Z.mod_pos_bound a 16).
    destruct (Z.ltb_spec (a mod 16) 8); symmetry; [apply Z.div_unique with (a mod 16); lia|].
    apply Z.div_unique with (a mod 16 - 8); lia. }
  intros a b. rewrite (Q a), (Q b). destruct (a mod 16 <? 8); destruct (b mod 16 <? 8); split; congruence.
Qed.

Lemma hour_segment : forall t, hour_of t / 3 = segment_of t.
Proof.
  intros t. unfold hour_of, segment_of. f_equal.
  pose proof (Z.mod_pos_bound (t / 3600000) 24). pose proof (Z.mod_pos_bound t 3600000).
  pose proof (Z.div_mod t 3600000). pose proof (Z.div_mod (t / 3600000) 24).
  apply Z.div_unique with (t mod 3600000); [lia|].
  symmetry. apply Z.mod_unique with (t / 3600000 / 24); lia.
Qed.

Section Bridge.
Variable mjd : list Z -> option Z.
Variable o : eit_option.

Lemma read_fields : forall x e, read o x e ->
  table_index e = sn_tid x mod 8 /\ IsBasic e = (sn_tid x mod 16 <? 8) /\
  last_table_index e = last_of x /\ segment_index e = sn_number x / 8 /\
  section_index e = sn_number x mod 8 /\ last_segment_index e = sn_last x / 8 /\
  last_section_index e = seg_last_of x mod 8 /\ ei_version e = sn_version x.
Proof.
  intros x e (_ & _ & P). destruct P as (_ & _ & P3 & _ & _ & P6 & P7 & P8 & P9 & P10 & _).
  unfold table_index, last_table_index, segment_index, section_index, last_segment_index, last_section_index.
  rewrite basic_mod, !land7, !shr3, P3, P6, P7, P8, P9, P10. unfold last_of. auto 10.
Qed.

Lemma read_service : forall a b ea eb, wire a -> wire b -> read o a ea -> read o b eb ->
  (service_triple ea = service_triple eb <-> service_of a = service_of b).
Proof.
  intros a b ea eb Wa Wb (Sa & _ & Pa) (Sb & _ & Pb).
  apply wire_key; auto; [destruct Sa as (_ & _ & X & _); exact X|destruct Sb as (_ & _ & X & _); exact X].
Qed.

Lemma read_part : forall a b ea eb, wire a -> wire b -> read o a ea -> read o b eb ->
  (service_triple ea = service_triple eb /\ IsBasic ea = IsBasic eb <-> same_half a b).
Proof.
  intros a b ea eb Wa Wb Ra Rb. rewrite (read_service a b ea eb Wa Wb Ra Rb).
  destruct (read_fields _ _ Ra) as (_ & Ba & _). destruct (read_fields _ _ Rb) as (_ & Bb & _).
  rewrite Ba, Bb. unfold same_half. rewrite half_div. tauto.
Qed.

Lemma read_table : forall a b ea eb, wire a -> wire b -> read o a ea -> read o b eb ->
  (service_triple ea = service_triple eb /\ IsBasic ea = IsBasic eb /\ table_index ea = table_index eb
   <-> same_table a b).
Proof.
  intros a b ea eb Wa Wb Ra Rb. rewrite (read_service a b ea eb Wa Wb Ra Rb).
  destruct (read_fields _ _ Ra) as (Ta & Ba & _). destruct (read_fields _ _ Rb) as (Tb & Bb & _).
  rewrite Ba, Bb, Ta, Tb. unfold same_table. rewrite nibble_parts. tauto.
Qed.

Lemma number_parts : forall a b : Z, a = b <-> a / 8 = b / 8 /\ a mod 8 = b mod 8.
Proof.
  intros a b. split; [intros ->; auto|]. intros [H1 H2].
  rewrite (Z.div_mod a 8), (Z.div_mod b 8) by lia. rewrite H1, H2. reflexivity.
Qed.

Lemma In_part : forall k b es e, In e (part k b es) <-> In e es /\ service_triple e = k /\ IsBasic e = b.
Proof.
  intros. unfold part. rewrite filter_In, andb_true_iff, Z.eqb_eq, eqb_true_iff. tauto.
Qed.

Lemma Forall2_In_r : forall A B (R : A -> B -> Prop) l m y, Forall2 R l m -> In y m -> exists x, In x l /\ R x y.
Proof.
  induction 1 as [|a b l m Hab H IH]; intros Hin; [destruct Hin|].
  destruct Hin as [<-|Hin]; [exists a; split; [left|]; auto|].
  destruct (IH Hin) as (x & Hx & Hr). exists x. split; [right|]; auto.
Qed.

Lemma Forall2_In_l : forall A B (R : A -> B -> Prop) l m x, Forall2 R l m -> In x l -> exists y, In y m /\ R x y.
Proof.
  induction 1 as [|a b l m Hab H IH]; intros Hin; [destruct Hin|].
  destruct Hin as [<-|Hin]; [exists b; split; [left|]; auto|].
  destruct (IH Hin) as (y & Hy & Hr). exists y. split; [right|]; auto.
Qed.

Lemma Forall2_split : forall A B (R : A -> B -> Prop) pre x post m, Forall2 R (pre ++ x :: post) m ->
  exists pre' y post', m = pre' ++ y :: post' /\ Forall2 R pre pre' /\ R x y /\ Forall2 R post post'.
Proof.
  intros A B R pre x post m H. apply Forall2_app_inv_l in H as (pre' & r & H1 & H2 & ->).
  inversion H2; subst. eauto 10.
Qed.


Lemma emitted_delivered : forall ds s x, In x (emitted mjd o s ds) -> In (DSection x) ds.
Proof.
  induction ds as [|d ds IH]; intros s x H; cbn [emitted] in H; [destruct H|].
  destruct (ec_deliver mjd o s d) as [s1|]; [|destruct H].
  apply in_app_or in H as [H|H]; [|right; eauto].
  destruct d as [y|]; [|destruct H]. destruct (_ =? _); [destruct H|].
  destruct H as [<-|[]]. left; auto.
Qed.

Hypothesis Hmjd : sane_mjd mjd.

(** If a section does not count as collected, it is written. *)
Lemma written : forall s x e, wire x -> read o x e -> consistent x ->
  cp_CheckCollected (ec_progress s) e = false ->
  exists s' d, ec_deliver mjd o s (DSection x) = Ok s' /\ ec_out s' = ec_out s ++ [d] /\ describes mjd x d.
Proof.
  intros s x e W (Sx & He & P) C Hc.
  assert (H6 : 6 <= zlen (sn_payload x)) by (destruct Sx as (_ & _ & X & _); exact X).
  destruct (doc_cases mjd Hmjd x e W H6 He) as [(_ & d & Hd & D)|(N & _)]; [|contradiction].
  destruct (ec_deliver mjd o s (DSection x)) as [s'|f] eqn:E.
  - exists s', d. split; [reflexivity|]. split; [|exact D].
    cbn [ec_deliver] in E.
    destruct (handleSection_cases _ _ _ _ _ E) as [(_ & N)|[(_ & _ & e' & H1 & H2)|(_ & e' & d' & H1 & H2 & H3 & ->)]].
    + contradiction.
    + congruence.
    + cbn [ec_out]. congruence.
  - exfalso. cbn [ec_deliver] in E. unfold ec_handleSection in E.
    destruct Sx as (S1 & S2 & S3 & S4 & S5 & S6).
    rewrite S1, S2 in E. cbn [negb] in E.
    match type of E with (if ?c then _ else _) = _ => destruct c; [discriminate|] end.
    unfold EIT_PAYLOAD_FIXED_SIZE in E. destruct (_ <? _); [discriminate|].
    rewrite He in E. cbn [bind] in E.
    destruct (_ && _); [discriminate|]. destruct (_ && _); [discriminate|].
    rewrite Hc in E. unfold ec_write in E. rewrite Hd in E. discriminate.
Qed.

Lemma not_written : forall s x e, read o x e -> cp_CheckCollected (ec_progress s) e = true ->
  ec_deliver mjd o s (DSection x) = Ok s.
Proof.
  intros s x e (Sx & He & P) Hc. cbn [ec_deliver]. unfold ec_handleSection.
  destruct (negb (sn_valid x)); [reflexivity|].
  match goal with |- (if ?c then _ else _) = _ => destruct c; [reflexivity|] end.
  destruct (sn_next x); [reflexivity|]. destruct (_ <? _); [reflexivity|].
  rewrite He. cbn [bind]. destruct (_ && _); [reflexivity|]. destruct (_ && _); [reflexivity|].
  rewrite Hc. reflexivity.
Qed.

Lemma schedule_read : forall x, schedule o x -> exists e, read o x e.
Proof.
  intros x S. assert (H6 : 6 <= zlen (sn_payload x)) by (destruct S as (_ & _ & X & _); exact X).
  destruct (EitSection_parsed x H6) as (e & He & P). exists e. split; [exact S|]. split; assumption.
Qed.

Lemma first_output : forall ds s x, wires ds -> wire x -> ec_deliver_all mjd o ec_init ds = Ok s ->
  schedule o x -> consistent x ->
  (forall y, In y (emitted mjd o ec_init ds) -> ~ same_section y x) ->
  exists s' d, ec_deliver mjd o s (DSection x) = Ok s' /\ ec_out s' = ec_out s ++ [d] /\ describes mjd x d.
Proof.
  intros ds s x Wd Wx Hrun Sx Cx Hnew.
  destruct (schedule_read x Sx) as (e & Rx).
  destruct (rinv_run _ _ _ _ Hrun) as (es & I).
  apply written with e; auto.
  destruct (cp_CheckCollected (ec_progress s) e) eqn:E; [exfalso|reflexivity].
  apply CheckCollected_spec in E as (_ & _ & _ & B).
  apply (gi_collected _ _ _ (ci_groups _ _ _ (ri_cinv _ _ _ _ _ I) _ _)) in B; [|apply section_index_range].
  destruct B as (e' & E1 & E2 & E3 & E4). apply In_part in E1 as (E1 & E5 & E6).
  destruct (Forall2_In_r _ _ _ _ _ _ (ri_read _ _ _ _ _ I) E1) as (y & Hy & Ry).
  assert (Wy : wire y) by (apply Wd; apply emitted_delivered with ec_init; exact Hy).
  apply (Hnew y Hy). split.
  - apply (read_table y x e' e Wy Wx Ry Rx). auto.
  - apply number_parts.
    destruct (read_fields _ _ Ry) as (_ & _ & _ & Y1 & Y2 & _).
    destruct (read_fields _ _ Rx) as (_ & _ & _ & X1 & X2 & _).
    rewrite <- Y1, <- Y2, <- X1, <- X2. auto.
Qed.

(** * Versions *)

Lemma recorded_app : forall a b i x,
  recorded (a ++ b) i x =
  match find (fun e => (table_index e =? i) && (section_index e <=? x) && (x <=? last_section_index e)) a with
  | Some e => ei_version e
  | None => recorded b i x
  end.
Proof.
  induction a as [|e a IH]; intros b i x; cbn [app recorded find]; [reflexivity|].
  destruct (_ && _ && _); [reflexivity|apply IH].
Qed.

Lemma recorded_split : forall h1 e h2 i x,
  table_index e = i -> section_index e <= x <= last_section_index e ->
  (forall y, In y h2 -> table_index y = i -> section_index y <= x <= last_section_index y -> ei_version y = ei_version e) ->
  recorded (rev (h1 ++ e :: h2)) i x = ei_version e.
Proof.
  intros h1 e h2 i x Ht Hx Hn. rewrite rev_app_distr. cbn [rev]. rewrite <- app_assoc.
  rewrite recorded_app.
  destruct (find _ (rev h2)) as [y|] eqn:F.
  - apply find_some in F as [F1 F2]. apply in_rev in F1.
    apply andb_true_iff in F2 as [F2 F4]. apply andb_true_iff in F2 as [F2 F3].
    apply Z.eqb_eq in F2. apply Z.leb_le in F3, F4. apply Hn; auto.
  - cbn [app recorded]. rewrite Ht, Z.eqb_refl.
    destruct (Z.leb_spec (section_index e) x); destruct (Z.leb_spec x (last_section_index e)); try lia. reflexivity.
Qed.

Lemma part_split : forall k b pre e post, service_triple e = k -> IsBasic e = b ->
  part k b (pre ++ e :: post) = part k b pre ++ e :: part k b post.
Proof.
  intros k b pre e post Hk Hb. unfold part. rewrite filter_app. cbn [filter].
  rewrite Hk, Hb, Z.eqb_refl, eqb_reflx. reflexivity.
Qed.

Lemma new_version : forall ds s x pre y post, wires ds -> wire x ->
  ec_deliver_all mjd o ec_init ds = Ok s -> schedule o x -> consistent x ->
  sn_number x mod 8 < seg_last_of x mod 8 ->
  emitted mjd o ec_init ds = pre ++ y :: post ->
  same_table y x -> sn_number y mod 8 <= sn_number x mod 8 <= seg_last_of y mod 8 ->
  sn_version y <> sn_version x ->
  (forall z, In z post -> same_table z x -> ~ (sn_number z mod 8 <= sn_number x mod 8 <= seg_last_of z mod 8)) ->
  exists s' d, ec_deliver mjd o s (DSection x) = Ok s' /\ ec_out s' = ec_out s ++ [d] /\ describes mjd x d.
Proof.
  intros ds s x pre y post Wd Wx Hrun Sx Cx Hlt Hem Hst Hcov Hver Hlate.
  destruct (schedule_read x Sx) as (e & Rx).
  destruct (rinv_run _ _ _ _ Hrun) as (es & I).
  apply written with e; auto.
  destruct (cp_CheckCollected (ec_progress s) e) eqn:E; [exfalso|reflexivity].
  apply CheckCollected_spec in E as (_ & _ & V & _).
  assert (Wem : forall z, In z (emitted mjd o ec_init ds) -> wire z).
  { intros z Hz. apply Wd. apply emitted_delivered with ec_init. exact Hz. }
  pose proof (ri_read _ _ _ _ _ I) as F. rewrite Hem in F, Wem.
  destruct (Forall2_split _ _ _ _ _ _ _ F) as (pre' & ey & post' & -> & F1 & Ry & F2).
  destruct (read_fields _ _ Rx) as (X1 & X2 & X3 & X4 & X5 & X6 & X7 & X8).
  destruct (read_fields _ _ Ry) as (Y1 & Y2 & Y3 & Y4 & Y5 & Y6 & Y7 & Y8).
  assert (Wy : wire y) by (apply Wem; apply in_or_app; right; left; auto).
  destruct (proj2 (read_table y x ey e Wy Wx Ry Rx) Hst) as (T1 & T2 & T3).
  specialize (V (section_index e)). rewrite X5, X7 in V. specialize (V ltac:(lia)). destruct V as [_ V].
  rewrite (gi_versions _ _ _ (ci_groups _ _ _ (ri_cinv _ _ _ _ _ I) _ _)) in V.
  rewrite part_split in V by auto.
  rewrite (recorded_split _ ey) in V; [rewrite X8, Y8 in V; congruence|auto|lia|].
  intros w Hw Tw Cw. exfalso. apply In_part in Hw as (Hw & Kw & Bw).
  destruct (Forall2_In_r _ _ _ _ _ _ F2 Hw) as (z & Hz & Rz).
  assert (Wz : wire z) by (apply Wem; apply in_or_app; right; right; auto).
  destruct (read_fields _ _ Rz) as (Z1 & Z2 & Z3 & Z4 & Z5 & Z6 & Z7 & Z8).
  apply (Hlate z Hz).
  - apply (read_table z x w e Wz Wx Rz Rx). auto.
  - rewrite <- Z5, <- Z7. exact Cw.
Qed.

Lemma no_repeat : forall ds s x pre y post, wires ds -> wire x ->
  ec_deliver_all mjd o ec_init ds = Ok s -> schedule o x ->
  emitted mjd o ec_init ds = pre ++ y :: post ->
  same_section y x -> sn_version y = sn_version x -> seg_last_of y mod 8 = seg_last_of x mod 8 ->
  last_of y = last_of x ->
  (forall z, In z post -> same_half z x -> last_of z = last_of x) ->
  (forall z, In z post -> same_table z x -> sn_version z = sn_version x) ->
  ec_deliver mjd o s (DSection x) = Ok s.
Proof.
  intros ds s x pre y post Wd Wx Hrun Sx Hem (Hst & Hnum) Hver Hseg Hlast Hl Hv.
  destruct (schedule_read x Sx) as (e & Rx).
  destruct (rinv_run _ _ _ _ Hrun) as (es & I).
  apply not_written with e; auto.
  assert (Wem : forall z, In z (emitted mjd o ec_init ds) -> wire z).
  { intros z Hz. apply Wd. apply emitted_delivered with ec_init. exact Hz. }
  pose proof (ri_read _ _ _ _ _ I) as F. rewrite Hem in F, Wem.
  destruct (Forall2_split _ _ _ _ _ _ _ F) as (pre' & ey & post' & -> & F1 & Ry & F2).
  destruct (read_fields _ _ Rx) as (X1 & X2 & X3 & X4 & X5 & X6 & X7 & X8).
  destruct (read_fields _ _ Ry) as (Y1 & Y2 & Y3 & Y4 & Y5 & Y6 & Y7 & Y8).
  assert (Wy : wire y) by (apply Wem; apply in_or_app; right; left; auto).
  destruct (proj2 (read_table y x ey e Wy Wx Ry Rx) Hst) as (T1 & T2 & T3).
  pose proof (ci_groups _ _ _ (ri_cinv _ _ _ _ _ I) (service_triple e) (IsBasic e)) as G.
  rewrite part_split in G by auto.
  assert (Post : forall w, In w (part (service_triple e) (IsBasic e) post') ->
            exists z, In z post /\ wire z /\ read o z w /\ same_half z x /\ last_table_index w = last_of x).
  { intros w Hw. apply In_part in Hw as (Hw & Kw & Bw).
    destruct (Forall2_In_r _ _ _ _ _ _ F2 Hw) as (z & Hz & Rz).
    assert (Wz : wire z) by (apply Wem; apply in_or_app; right; right; auto).
    assert (Sz : same_half z x) by (apply (read_part z x w e Wz Wx Rz Rx); auto).
    exists z. do 4 (split; [solve [auto]|]).
    destruct (read_fields _ _ Rz) as (_ & _ & Z3 & _). rewrite Z3. auto. }
  apply CheckCollected_spec.
  assert (L : gp_last (half (ec_progress s) (service_triple e) (IsBasic e)) = last_table_index e).
  { rewrite (gi_last _ _ _ G).
    destruct (part (service_triple e) (IsBasic e) post') as [|w r] eqn:P using rev_ind.
    - rewrite rev_last. lia.
    - rewrite app_comm_cons, app_assoc, rev_last.
      destruct (Post w) as (z & _ & _ & _ & _ & Hz); [apply in_or_app; right; left; auto|]. lia. }
  split; [rewrite L; apply last_table_index_range|]. split; [exact L|].
  split.
  - intros i Hi. rewrite (gi_versions _ _ _ G).
    rewrite (recorded_split _ ey).
    + rewrite Y8, X8, Hver. split; [|reflexivity]. destruct Wx as (_ & _ & W & _). lia.
    + auto.
    + rewrite Y5, Y7, Hnum, Hseg, <- X5, <- X7. lia.
    + intros w Hw Tw _. destruct (Post w Hw) as (z & Hz & Wz & Rz & Sz & _).
      destruct (read_fields _ _ Rz) as (_ & _ & _ & _ & _ & _ & _ & Z8). rewrite Z8, Y8, Hver.
      apply Hv; auto. apply In_part in Hw as (Hw & Kw & Bw).
      apply (read_table z x w e Wz Wx Rz Rx). auto.
  - pose proof (gi_kept _ _ _ G _ ey _ eq_refl) as K. rewrite T3 in K.
    replace (segment_index e) with (segment_index ey) by congruence.
    replace (section_index e) with (section_index ey) by congruence.
    apply K. intros w Hw. destruct (Post w Hw) as (_ & _ & _ & _ & _ & Z3). congruence.
Qed.

(** * The exact condition for output *)

Lemma recorded_find : forall h i p v, recorded (rev h) i p = v -> v <> 0xFF ->
  exists h1 e h2, h = h1 ++ e :: h2 /\ table_index e = i /\ section_index e <= p <= last_section_index e /\
    ei_version e = v /\
    forall w, In w h2 -> table_index w = i -> ~ (section_index w <= p <= last_section_index w).
Proof.
  intros h i p v. induction h as [|e h IH] using rev_ind; intros H Hv; [cbn in H; congruence|].
  rewrite rev_last in H. cbn [recorded] in H.
  destruct ((table_index e =? i) && (section_index e <=? p) && (p <=? last_section_index e)) eqn:C.
  - apply andb_true_iff in C as [C C3]. apply andb_true_iff in C as [C1 C2].
    apply Z.eqb_eq in C1. apply Z.leb_le in C2, C3.
    exists h, e, []. do 4 (split; [solve [auto]|]). intros w [].
  - destruct (IH H Hv) as (h1 & e' & h2 & -> & A & B & D & E).
    exists h1, e', (h2 ++ [e]). split; [rewrite <- app_assoc; reflexivity|]. do 3 (split; [assumption|]).
    intros w Hw Tw Cw. apply in_app_or in Hw as [Hw|[<-|[]]]; [exact (E w Hw Tw Cw)|].
    rewrite Tw, Z.eqb_refl in C. cbn [andb] in C. apply andb_false_iff in C as [C|C]; apply Z.leb_gt in C; lia.
Qed.

Lemma filter_split : forall A (f : A -> bool) l h1 e h2, filter f l = h1 ++ e :: h2 ->
  exists l1 l2, l = l1 ++ e :: l2 /\ filter f l1 = h1 /\ filter f l2 = h2 /\ f e = true.
Proof.
  induction l as [|a l IH]; intros h1 e h2 H; cbn [filter] in H; [destruct h1; discriminate|].
  destruct (f a) eqn:F.
  - destruct h1 as [|b h1]; cbn [app] in H.
    + injection H as -> <-. exists [], l. auto.
    + injection H as -> H. destruct (IH _ _ _ H) as (l1 & l2 & -> & E1 & E2 & E3).
      exists (b :: l1), l2. cbn [filter app]. rewrite F, E1. auto.
  - destruct (IH _ _ _ H) as (l1 & l2 & -> & E1 & E2 & E3).
    exists (a :: l1), l2. cbn [filter app]. rewrite F. auto.
Qed.

Lemma Forall2_split_r : forall A B (R : A -> B -> Prop) l pre y post, Forall2 R l (pre ++ y :: post) ->
  exists pre' x post', l = pre' ++ x :: post' /\ Forall2 R pre' pre /\ R x y /\ Forall2 R post' post.
Proof.
  intros A B R l pre y post H. apply Forall2_app_inv_r in H as (pre' & r & H1 & H2 & ->).
  inversion H2; subst. eauto 10.
Qed.

Lemma collected_iff : forall ds s x e, wires ds -> wire x -> ec_deliver_all mjd o ec_init ds = Ok s ->
  read o x e ->
  (cp_CheckCollected (ec_progress s) e = true <-> repetition (emitted mjd o ec_init ds) x).
Proof.
  intros ds s x e Wd Wx Hrun Rx.
  destruct (rinv_run _ _ _ _ Hrun) as (es & I).
  assert (Wem : forall z, In z (emitted mjd o ec_init ds) -> wire z).
  { intros z Hz. apply Wd. apply emitted_delivered with ec_init. exact Hz. }
  pose proof (ri_read _ _ _ _ _ I) as F.
  pose proof (ci_groups _ _ _ (ri_cinv _ _ _ _ _ I) (service_triple e) (IsBasic e)) as G.
  clear I. revert F G Wem. generalize (emitted mjd o ec_init ds) as em. intros em F G Wem.
  destruct (read_fields _ _ Rx) as (X1 & X2 & X3 & X4 & X5 & X6 & X7 & X8).
  assert (V255 : sn_version x <> 0xFF) by (destruct Wx as (_ & _ & W & _); lia).
  rewrite CheckCollected_spec.
  (* a written section among those of the half *)
  assert (Locate : forall h1 a h2, part (service_triple e) (IsBasic e) es = h1 ++ a :: h2 ->
            exists em1 y em2 es2, em = em1 ++ y :: em2 /\ wire y /\ read o y a /\
              service_triple a = service_triple e /\ IsBasic a = IsBasic e /\ Forall2 (read o) em2 es2 /\
              part (service_triple e) (IsBasic e) es2 = h2).
  { intros h1 a h2 P. unfold part in P. apply filter_split in P as (es1 & es2 & -> & P1 & P2 & P3).
    apply andb_true_iff in P3 as [P3 P4]. apply Z.eqb_eq in P3. apply eqb_prop in P4.
    destruct (Forall2_split_r _ _ _ _ _ _ _ F) as (em1 & y & em2 & Hem & F1 & Ry & F2).
    exists em1, y, em2, es2. split; [exact Hem|].
    split; [apply Wem; rewrite Hem; apply in_or_app; right; left; auto|]. auto. }
  (* a later section of the same half *)
  assert (Later : forall em1 y em2 es2, em = em1 ++ y :: em2 ->
            Forall2 (read o) em2 es2 -> forall z, In z em2 -> same_half z x ->
            exists w, In w (part (service_triple e) (IsBasic e) es2) /\ read o z w).
  { intros em1 y em2 es2 Hm F2 z Hz Sz.
    destruct (Forall2_In_l _ _ _ _ _ _ F2 Hz) as (w & Hw & Rz). exists w. split; [|exact Rz].
    assert (Wz : wire z) by (apply Wem; rewrite Hm; apply in_or_app; right; right; auto).
    apply In_part. split; [auto|]. apply (read_part z x w e Wz Wx Rz Rx). exact Sz. }
  split.
  - intros (L0 & L1 & V & B). split.
    + apply (gi_held _ _ _ G) in B.
      * destruct B as (h1 & a & h2 & P & A1 & A2 & A3 & A4).
        destruct (Locate _ _ _ P) as (em1 & y & em2 & es2 & Hem & Wy & Ry & Ka & Ba & F2 & P2).
        destruct (read_fields _ _ Ry) as (Y1 & Y2 & Y3 & Y4 & Y5 & Y6 & Y7 & Y8).
        assert (Ly : last_of y = last_of x).
        { rewrite <- X3, <- L1, (gi_last _ _ _ G), P, <- Y3.
          destruct h2 as [|w h2] using rev_ind; [rewrite rev_last; reflexivity|].
          rewrite app_comm_cons, app_assoc, rev_last. symmetry. apply A4. apply in_or_app; right; left; auto. }
        exists em1, y, em2. split; [exact Hem|]. split; [|split; [exact Ly|]].
        -- split; [apply (read_table y x a e Wy Wx Ry Rx); auto|].
           apply number_parts. rewrite <- Y4, <- Y5, <- X4, <- X5. auto.
        -- intros z Hz Sz. destruct (Later em1 y em2 es2 Hem F2 z Hz Sz) as (w & Hw & Rz).
           rewrite P2 in Hw. destruct (read_fields _ _ Rz) as (_ & _ & Z3 & _).
           rewrite <- Z3, (A4 w Hw), Y3. exact Ly.
      * apply table_index_range.
      * rewrite X4. change kNumSegments with 32. destruct Wx as (_ & _ & _ & Wn & _). unfold byte in Wn.
        split; [apply Z.div_pos; lia|apply Z.div_lt_upper_bound; lia].
      * apply section_index_range.
    + intros p Hp. destruct (V p) as [_ Vp]; [lia|].
      rewrite (gi_versions _ _ _ G) in Vp. apply recorded_find in Vp; [|congruence].
      destruct Vp as (h1 & a & h2 & P & A1 & A2 & A3 & A4).
      destruct (Locate _ _ _ P) as (em1 & y & em2 & es2 & Hem & Wy & Ry & Ka & Ba & F2 & P2).
      destruct (read_fields _ _ Ry) as (Y1 & Y2 & Y3 & Y4 & Y5 & Y6 & Y7 & Y8).
      exists y. split; [|congruence]. exists em1, em2. split; [exact Hem|].
      split; [apply (read_table y x a e Wy Wx Ry Rx); auto|].
      split; [unfold covers; rewrite <- Y5, <- Y7; exact A2|].
      intros z Hz Sz Cz. assert (Wz : wire z) by (apply Wem; rewrite Hem; apply in_or_app; right; right; auto).
      destruct (Later em1 y em2 es2 Hem F2 z Hz) as (w & Hw & Rz).
      { destruct Sz as [Sz1 Sz2]. split; [exact Sz1|]. rewrite Sz2. reflexivity. }
      rewrite P2 in Hw. destruct (read_fields _ _ Rz) as (Z1 & Z2 & Z3 & Z4 & Z5 & Z6 & Z7 & Z8).
      apply (A4 w Hw).
      * apply (proj2 (read_table z x w e Wz Wx Rz Rx)). exact Sz.
      * unfold covers in Cz. rewrite Z5, Z7. exact Cz.
  - intros ((em1 & y & em2 & Hem & (Hst & Hnum) & Hlast & Hl) & Hv).
    assert (F' := F). rewrite Hem in F'.
    destruct (Forall2_split _ _ _ _ _ _ _ F') as (es1 & a & es2 & -> & F1 & Ry & F2).
    destruct (read_fields _ _ Ry) as (Y1 & Y2 & Y3 & Y4 & Y5 & Y6 & Y7 & Y8).
    assert (Wy : wire y) by (apply Wem; rewrite Hem; apply in_or_app; right; left; auto).
    destruct (proj2 (read_table y x a e Wy Wx Ry Rx) Hst) as (T1 & T2 & T3).
    rewrite part_split in G by auto.
    assert (Post : forall w, In w (part (service_triple e) (IsBasic e) es2) -> last_table_index w = last_of x).
    { intros w Hw. apply In_part in Hw as (Hw & Kw & Bw).
      destruct (Forall2_In_r _ _ _ _ _ _ F2 Hw) as (z & Hz & Rz).
      assert (Wz : wire z) by (apply Wem; rewrite Hem; apply in_or_app; right; right; auto).
      destruct (read_fields _ _ Rz) as (_ & _ & Z3 & _). rewrite Z3. apply Hl; [auto|].
      apply (read_part z x w e Wz Wx Rz Rx); auto. }
    assert (L : gp_last (half (ec_progress s) (service_triple e) (IsBasic e)) = last_table_index e).
    { rewrite (gi_last _ _ _ G).
      destruct (part (service_triple e) (IsBasic e) es2) as [|w r] eqn:P using rev_ind.
      - rewrite rev_last. lia.
      - rewrite app_comm_cons, app_assoc, rev_last. rewrite X3. apply Post. apply in_or_app; right; left; auto. }
    split; [rewrite L; apply last_table_index_range|]. split; [exact L|]. split.
    + intros p Hp. rewrite X5, X7 in Hp. destruct (Hv p Hp) as (b & (m1 & m2 & Hm & Hb & Cb & Nb) & Vb).
      rewrite (gi_versions _ _ _ G).
      assert (F3 := F). rewrite Hm in F3.
      destruct (Forall2_split _ _ _ _ _ _ _ F3) as (q1 & w & q2 & Eq & F4 & Rb & F5).
      assert (Wb : wire b) by (apply Wem; rewrite Hm; apply in_or_app; right; left; auto).
      destruct (read_fields _ _ Rb) as (B1 & B2 & B3 & B4 & B5 & B6 & B7 & B8).
      destruct (proj2 (read_table b x w e Wb Wx Rb Rx) Hb) as (U1 & U2 & U3).
      rewrite <- part_split by auto. rewrite Eq, part_split by auto.
      rewrite (recorded_split _ w).
      * rewrite B8, Vb, X8. auto.
      * auto.
      * unfold covers in Cb. rewrite B5, B7. exact Cb.
      * intros u Hu Tu Cu. exfalso. apply In_part in Hu as (Hu & Ku & Bu).
        destruct (Forall2_In_r _ _ _ _ _ _ F5 Hu) as (z & Hz & Rz).
        assert (Wz : wire z) by (apply Wem; rewrite Hm; apply in_or_app; right; right; auto).
        destruct (read_fields _ _ Rz) as (Z1 & Z2 & Z3 & Z4 & Z5 & Z6 & Z7 & Z8).
        apply (Nb z Hz).
        -- apply (read_table z x u e Wz Wx Rz Rx). auto.
        -- unfold covers. rewrite <- Z5, <- Z7. exact Cu.
    + pose proof (gi_kept _ _ _ G _ a _ eq_refl) as K. rewrite T3 in K.
      replace (segment_index e) with (segment_index a) by congruence.
      replace (section_index e) with (section_index a) by congruence.
      apply K. intros w Hw. rewrite (Post w Hw). congruence.
Qed.

(** A section that counts is written exactly when it is not a repetition. *)
Lemma exact_output : forall ds s x, wires ds -> wire x -> ec_deliver_all mjd o ec_init ds = Ok s ->
  schedule o x ->
  (repetition (emitted mjd o ec_init ds) x -> ec_deliver mjd o s (DSection x) = Ok s) /\
  (~ repetition (emitted mjd o ec_init ds) x -> consistent x ->
     exists s' d, ec_deliver mjd o s (DSection x) = Ok s' /\ ec_out s' = ec_out s ++ [d] /\ describes mjd x d).
Proof.
  intros ds s x Wd Wx Hrun Sx. destruct (schedule_read x Sx) as (e & Rx).
  pose proof (collected_iff ds s x e Wd Wx Hrun Rx) as C. split.
  - intros R. apply C in R. apply not_written with e; auto.
  - intros N Cx. apply written with e; auto. destruct (cp_CheckCollected (ec_progress s) e); [|reflexivity].
    exfalso. apply N, C. reflexivity.
Qed.

(** * Completion *)

Lemma completed_sound : forall ds s, wires ds -> ec_deliver_all mjd o ec_init ds = Ok s ->
  cp_completed (ec_progress s) = true -> all_there (emitted mjd o ec_init ds) (tots ds).
Proof.
  intros ds s Wd Hrun Hc pre x post i n Hem Hpost Hi Hn tid.
  destruct (rinv_run _ _ _ _ Hrun) as (es & I).
  assert (Wem : forall z, In z (emitted mjd o ec_init ds) -> wire z).
  { intros z Hz. apply Wd. apply emitted_delivered with ec_init. exact Hz. }
  pose proof (ri_read _ _ _ _ _ I) as F.
  assert (F' := F). rewrite Hem in F'.
  destruct (Forall2_split _ _ _ _ _ _ _ F') as (pre' & e & post' & Ees & F1 & Rx & F2).
  assert (Wx : wire x) by (apply Wem; rewrite Hem; apply in_or_app; right; left; auto).
  destruct (read_fields _ _ Rx) as (X1 & X2 & X3 & X4 & X5 & X6 & X7 & X8).
  pose proof (ci_done _ _ _ (ri_cinv _ _ _ _ _ I) Hc (service_triple e) (IsBasic e)) as C.
  assert (N : part (service_triple e) (IsBasic e) post' = []).
  { destruct (part _ _ post') as [|w l] eqn:P; [reflexivity|exfalso].
    assert (Hw : In w (part (service_triple e) (IsBasic e) post')) by (rewrite P; left; auto).
    apply In_part in Hw as (Hw & Kw & Bw).
    destruct (Forall2_In_r _ _ _ _ _ _ F2 Hw) as (z & Hz & Rz).
    assert (Wz : wire z) by (apply Wem; rewrite Hem; apply in_or_app; right; right; auto).
    apply (Hpost z Hz). apply (read_part x z e w Wx Wz Rx Rz). auto. }
  assert (R : rev (part (service_triple e) (IsBasic e) es) =
              e :: rev (part (service_triple e) (IsBasic e) pre')).
  { rewrite Ees, part_split, N by auto. apply rev_last. }
  assert (Hseg : 0 <= n / 8 < kNumSegments).
  { change kNumSegments with 32. split; [apply Z.div_pos; lia|apply Z.div_lt_upper_bound; lia]. }
  assert (Hj : 0 <= n mod 8 < 8) by (apply Z.mod_pos_bound; lia).
  assert (Htid : forall y ey, wire y -> read o y ey -> service_triple ey = service_triple e ->
             IsBasic ey = IsBasic e -> table_index ey = i ->
             service_of y = service_of x /\ sn_tid y mod 16 = tid).
  { intros y ey Wy Ry K B T. split; [apply (read_service y x ey e Wy Wx Ry Rx); auto|].
    destruct (read_fields _ _ Ry) as (Y1 & Y2 & _).
    pose proof (proj2 (half_div (sn_tid y) (sn_tid x)) ltac:(congruence)) as Hh.
    unfold tid. rewrite <- Hh.
    assert (M : sn_tid y mod 8 = (sn_tid y mod 16) mod 8).
    { rewrite (Z.div_mod (sn_tid y) 16) at 1 by lia.
      replace (16 * (sn_tid y / 16) + sn_tid y mod 16) with (sn_tid y mod 16 + (2 * (sn_tid y / 16)) * 8) by lia.
      apply Z.mod_add. lia. }
    pose proof (Z.div_mod (sn_tid y mod 16) 8). lia. }
  rewrite <- X3 in Hi.
  destruct (C e _ R i (n / 8) (n mod 8) Hi Hseg Hj) as [K|[K|K]].
  - destruct K as (w & Hw & T & S & J). apply In_part in Hw as (Hw & Kw & Bw).
    destruct (Forall2_In_r _ _ _ _ _ _ F Hw) as (y & Hy & Ry). pose proof (Wem y Hy) as Wy.
    destruct (Htid y w Wy Ry Kw Bw T) as [P Q].
    destruct (read_fields _ _ Ry) as (_ & _ & _ & Y4 & Y5 & _).
    left. exists y. do 3 (split; [solve [auto]|]). left. apply number_parts. split; congruence.
  - destruct K as (w & Hw & T & S). apply In_part in Hw as (Hw & Kw & Bw).
    destruct (Forall2_In_r _ _ _ _ _ _ F Hw) as (y & Hy & Ry). pose proof (Wem y Hy) as Wy.
    destruct (Htid y w Wy Ry Kw Bw T) as [P Q].
    destruct (read_fields _ _ Ry) as (_ & _ & _ & Y4 & _ & Y6 & Y7 & _).
    left. exists y. do 3 (split; [solve [auto]|]). right. unfold denies.
    rewrite Y4, Y6, Y7 in S. exact S.
  - right. destruct K as (K1 & t & K2 & K3). split; [auto|]. exists t. split; [auto|].
    rewrite <- hour_segment. exact K3.
Qed.

(** * Output *)

Lemma output_documents : forall ds s, wires ds -> ec_deliver_all mjd o ec_init ds = Ok s ->
  Forall2 (fun x d => In (DSection x) ds /\ schedule o x /\ describes mjd x d)
    (emitted mjd o ec_init ds) (ec_out s).
Proof.
  intros ds s Wd Hrun. destruct (rinv_run _ _ _ _ Hrun) as (es & I).
  assert (Del : forall x, In x (emitted mjd o ec_init ds) -> In (DSection x) ds)
    by (intros x; apply emitted_delivered).
  pose proof (ri_read _ _ _ _ _ I) as F. pose proof (ri_docs _ _ _ _ _ I) as D.
  revert Del F D. generalize (emitted mjd o ec_init ds) as em. generalize (ec_out s) as out. clear I Hrun.
  induction es as [|e es IH]; intros out em Del F D.
  - inversion F; subst. inversion D; subst. constructor.
  - inversion F as [|x ? em' ? Rx F']; subst. inversion D as [|? d ? out' Hd D']; subst.
    constructor.
    + destruct Rx as (S & He & P). split; [apply Del; left; auto|]. split; [exact S|].
      apply (doc_inv mjd Hmjd x e d); auto.
      * apply Wd, Del. left; auto.
      * destruct S as (_ & _ & X & _). exact X.
    + apply IH; auto. intros y Hy. apply Del. right; auto.
Qed.

End Bridge.
