(** collect-eits on a steady broadcast. *)
From Coq Require Import ZArith Lia List Bool.
From Verif Require Import Base.Outcome Base.Util Model.Sink Model.EitSection Model.EitCollector
  Proofs.EitSectionProofs Proofs.EitProofs Proofs.EitMain Proofs.EitClaims Proofs.EitTime Proofs.EitExact
  Spec.EitSpec Spec.CarouselSpec.
Import ListNotations.
Open Scope Z_scope.

(** The last element of a list with a property. *)
Lemma last_such : forall A (P : A -> Prop) (dec : forall y, {P y} + {~ P y}) l x, In x l -> P x ->
  exists pre y post, l = pre ++ y :: post /\ P y /\ forall z, In z post -> ~ P z.
Proof.
  intros A P dec. induction l as [|a l IH]; intros x Hx Px; [destruct Hx|].
  destruct (Exists_dec P l dec) as [E|N].
  - apply Exists_exists in E as (z & Hz & Pz). destruct (IH z Hz Pz) as (pre & y & post & -> & Py & L).
    exists (a :: pre), y, post. auto.
  - assert (a = x) as ->.
    { destruct Hx as [->|Hx]; [reflexivity|]. exfalso. apply N, Exists_exists. eauto. }
    exists [], x, l. split; [reflexivity|]. split; [exact Px|]. intros z Hz Pz. apply N, Exists_exists. eauto.
Qed.

Lemma service_dec : forall x y, {service_of x = service_of y} + {service_of x <> service_of y}.
Proof. intros. repeat decide equality. Qed.

Lemma same_table_dec : forall x y, {same_table x y} + {~ same_table x y}.
Proof.
  intros x y. unfold same_table. destruct (service_dec x y) as [S|S]; [|right; tauto].
  destruct (Z.eq_dec (sn_tid x mod 16) (sn_tid y mod 16)); [left; tauto|right; tauto].
Qed.

Lemma same_half_dec : forall x y, {same_half x y} + {~ same_half x y}.
Proof.
  intros x y. unfold same_half. destruct (service_dec x y) as [S|S]; [|right; tauto].
  destruct (Z.eq_dec (sn_tid x mod 16 / 8) (sn_tid y mod 16 / 8)); [left; tauto|right; tauto].
Qed.

Lemma covers_dec : forall y i, {covers y i} + {~ covers y i}.
Proof.
  intros y i. unfold covers. destruct (Z_le_dec (sn_number y mod 8) i); [|right; tauto].
  destruct (Z_le_dec i (seg_last_of y mod 8)); [left; tauto|right; tauto].
Qed.

Lemma section_dec : forall x y : section, {x = y} + {x <> y}.
Proof. intros. repeat decide equality. Qed.

Lemma mod_16_8 : forall t, (t mod 16) mod 8 = t mod 8.
Proof. intros t. change 16 with (8 * 2). rewrite Z.rem_mul_r by lia. rewrite Z.mul_comm, Z_mod_plus_full. apply Z.mod_mod. lia. Qed.

Section Carousel.
Variable mjd : list Z -> option Z.
Variable o : eit_option.
Hypothesis sane : sane_mjd mjd.

Lemma first_seen_in : forall ds out, first_seen o ds out -> forall x, In x out <-> came o ds x.
Proof.
  unfold came. induction 1 as [|ds out x F IH S N|ds out x F IH I|ds out d F IH N]; intros z.
  - split; [intros []|intros ([] & _)].
  - rewrite !in_app_iff, IH. cbn [In]. split.
    + intros [(A & B)|[<-|[]]]; auto.
    + intros ([A|[[= <-]|[]]] & B); auto.
  - rewrite in_app_iff, IH. cbn [In]. split; [tauto|]. intros ([A|[[= <-]|[]]] & B); [auto|]. apply IH, I.
  - rewrite in_app_iff, IH. cbn [In]. split; [tauto|]. intros ([A|[->|[]]] & B); [auto|]. exfalso. exact (N z eq_refl B).
Qed.

Lemma steady_sub : forall a b, steady o (a ++ b) -> steady o a.
Proof.
  intros a b (C & S). assert (M : forall x, came o a x -> came o (a ++ b) x).
  { intros x (A & B). split; [apply in_or_app; auto|exact B]. }
  split; [intros x Hx; apply C, M, Hx|]. intros x y Hx Hy. apply S; auto.
Qed.

Lemma wires_sub : forall a b, wires (a ++ b) -> wires a.
Proof. intros a b W x Hx. apply W, in_or_app; auto. Qed.

(** Among sections that are steady, one that was output is a repetition. *)
Lemma steady_repeats : forall ds out x, steady o ds -> first_seen o ds out -> In x out -> repetition out x.
Proof.
  intros ds out x (_ & S) F I. assert (Cx : came o ds x) by (apply (first_seen_in ds out F), I). split.
  - destruct (in_split x out I) as (pre & post & E). exists pre, x, post.
    split; [exact E|]. split; [repeat split|]. split; [reflexivity|].
    intros z Hz Hh. apply S; [|exact Cx|exact Hh].
    apply (first_seen_in ds out F). rewrite E. apply in_or_app. right. right. exact Hz.
  - intros i Hi.
    destruct (last_such _ (fun y => same_table y x /\ covers y i)) with (l := out) (x := x) as (pre & y & post & E & (T & V) & L).
    + intros y. destruct (same_table_dec y x); [|right; tauto]. destruct (covers_dec y i); [left|right]; tauto.
    + exact I.
    + split; [split; reflexivity|]. unfold covers. lia.
    + exists y. split.
      * exists pre, post. split; [exact E|]. split; [exact T|]. split; [exact V|].
        intros z Hz T' V'. exact (L z Hz (conj T' V')).
      * apply S; [|exact Cx|exact T]. apply (first_seen_in ds out F). rewrite E. apply in_elt.
Qed.

Lemma steady_new : forall ds out x, steady o (ds ++ [DSection x]) -> first_seen o ds out -> schedule o x -> ~ In x out ->
  ~ repetition out x.
Proof.
  intros ds out x (_ & S) F Sx N ((pre & y & post & E & SS & _) & _). apply N.
  assert (I : In y out) by (rewrite E; apply in_elt).
  destruct (first_seen_in ds out F y) as (M & _). destruct (M I) as (Dy & Sy).
  assert (y = x) as <-; [|exact I]. apply S; [| |exact SS].
  - split; [apply in_or_app; auto|exact Sy].
  - split; [apply in_elt|exact Sx].
Qed.

(** Sections whose lengths fit do not make the collector fail. *)
Lemma quiet_section : forall s x, ~ schedule o x -> ec_deliver mjd o s (DSection x) = Ok s.
Proof.
  intros s x N. cbn [ec_deliver]. unfold ec_handleSection.
  destruct (sn_valid x) eqn:Hv; cbn [negb]; [|reflexivity].
  match goal with |- (if ?b then _ else _) = _ => destruct b eqn:Hskip end; [reflexivity|].
  destruct (sn_next x) eqn:Hn; [reflexivity|].
  unfold EIT_PAYLOAD_FIXED_SIZE. destruct (Z.ltb_spec (zlen (sn_payload x)) 6) as [Hz|Hz]; [reflexivity|].
  destruct (EitSection_parsed x Hz) as (e & He & P). rewrite He. cbn [bind].
  assert (Hsid : ei_sid e = sid_of x) by (destruct P as (_ & P1 & _); exact P1). rewrite Hsid.
  destruct (negb (ss_IsEmpty (eo_sids o)) && negb (ss_Contain (eo_sids o) (sid_of x))) eqn:Hs; [reflexivity|].
  destruct (negb (ss_IsEmpty (eo_xsids o)) && ss_Contain (eo_xsids o) (sid_of x)) eqn:Hx; [reflexivity|].
  exfalso. apply N. unfold schedule. split; [exact Hv|]. split; [exact Hn|]. split; [exact Hz|]. split; [|split].
  - destruct (Z.leb_spec 80 (sn_tid x)); destruct (Z.leb_spec (sn_tid x) 95); cbn [andb] in Hskip;
      [left; apply negb_false_iff in Hskip; auto| | |];
      (destruct (Z.leb_spec 96 (sn_tid x)); destruct (Z.leb_spec (sn_tid x) 111); cbn [andb] in Hskip; try discriminate; try lia;
       right; apply negb_false_iff in Hskip; auto).
  - destruct (eo_sids o) as [|z l] eqn:E; [auto|]. right. cbn [ss_IsEmpty negb andb] in Hs.
    apply negb_false_iff in Hs. apply zmem_In in Hs. exact Hs.
  - intros X. destruct (eo_xsids o) as [|z l] eqn:E; [contradiction|]. cbn [ss_IsEmpty negb andb] in Hx.
    apply zmem_false in Hx. contradiction.
Qed.

Lemma schedule_dec : forall x, {schedule o x} + {~ schedule o x}.
Proof.
  intros x. unfold schedule.
  destruct (bool_dec (sn_valid x) true); [|right; tauto].
  destruct (bool_dec (sn_next x) false); [|right; tauto].
  destruct (Z_le_dec 6 (zlen (sn_payload x))); [|right; tauto].
  assert (T : {(0x50 <= sn_tid x <= 0x5F /\ eo_actual o = true \/ 0x60 <= sn_tid x <= 0x6F /\ eo_others o = true)} +
              {~ (0x50 <= sn_tid x <= 0x5F /\ eo_actual o = true \/ 0x60 <= sn_tid x <= 0x6F /\ eo_others o = true)}).
  { destruct (Z_le_dec 0x50 (sn_tid x)), (Z_le_dec (sn_tid x) 0x5F), (Z_le_dec 0x60 (sn_tid x)), (Z_le_dec (sn_tid x) 0x6F),
      (bool_dec (eo_actual o) true), (bool_dec (eo_others o) true); try (left; tauto); right; tauto. }
  destruct T; [|right; tauto].
  assert (S : {eo_sids o = [] \/ In (sid_of x) (eo_sids o)} + {~ (eo_sids o = [] \/ In (sid_of x) (eo_sids o))}).
  { destruct (list_eq_dec Z.eq_dec (eo_sids o) []); [left; tauto|].
    destruct (in_dec Z.eq_dec (sid_of x) (eo_sids o)); [left; tauto|right; tauto]. }
  destruct S; [|right; tauto].
  destruct (in_dec Z.eq_dec (sid_of x) (eo_xsids o)); [right; tauto|left; tauto].
Qed.

(** A steady broadcast is output section by section, each where it came first. *)
Lemma steady_run : forall ds, wires ds -> steady o ds ->
  exists s, ec_deliver_all mjd o ec_init ds = Ok s /\ first_seen o ds (emitted mjd o ec_init ds).
Proof.
  induction ds as [|d ds IH] using rev_ind; intros W S.
  { exists ec_init. split; [reflexivity|constructor]. }
  destruct (IH (wires_sub _ _ W) (steady_sub _ _ S)) as (s & R & F).
  rewrite deliver_all_app, R. cbn [bind].
  assert (Em : emitted mjd o ec_init (ds ++ [d]) = emitted mjd o ec_init ds ++ emitted mjd o s [d]) by (apply emitted_app, R).
  rewrite Em. destruct d as [x|t].
  - destruct (schedule_dec x) as [Sx|Nx].
    + assert (Wx : wire x) by (apply W, in_elt).
      destruct (exact_output mjd o sane ds s x (wires_sub _ _ W) Wx R Sx) as (Q1 & Q2).
      destruct (in_dec section_dec x (emitted mjd o ec_init ds)) as [I|N].
      * assert (E := Q1 (steady_repeats _ _ _ (steady_sub _ _ S) F I)).
        exists s. cbn [ec_deliver_all]. rewrite E. cbn [bind]. split; [reflexivity|].
        cbn [emitted]. rewrite E, Z.eqb_refl. cbn [app]. rewrite app_nil_r. apply seen_again; auto.
      * destruct (Q2 (steady_new _ _ _ S F Sx N)) as (s' & d & E & O & _).
        { apply S. split; [apply in_elt|exact Sx]. }
        exists s'. cbn [ec_deliver_all]. rewrite E. cbn [bind]. split; [reflexivity|].
        cbn [emitted]. rewrite E, O, zlen_app. change (zlen [d]) with 1.
        destruct (Z.eqb_spec (zlen (ec_out s) + 1) (zlen (ec_out s))); [lia|]. cbn [app]. apply seen_new; auto.
    + exists s. cbn [ec_deliver_all]. rewrite (quiet_section s x Nx). cbn [bind]. split; [reflexivity|].
      cbn [emitted]. rewrite (quiet_section s x Nx), Z.eqb_refl. cbn [app]. rewrite app_nil_r. apply seen_other; [exact F|].
      intros y [= <-]. exact Nx.
  - cbn [ec_deliver_all ec_deliver bind]. eexists. split; [reflexivity|].
    cbn [emitted ec_deliver app]. rewrite app_nil_r. apply seen_other; [exact F|]. intros y. discriminate.
Qed.

Lemma in_history : forall ds s y, In (MOut y) (history mjd o s ds) <-> In y (emitted mjd o s ds).
Proof.
  induction ds as [|d ds IH]; intros s y; cbn [history emitted]; [tauto|].
  destruct (ec_deliver mjd o s d) as [s1|]; [|tauto]. rewrite !in_app_iff, IH.
  destruct d as [x|[t|]]; [destruct (_ =? _)| |]; cbn [In]; intuition congruence.
Qed.

Lemma marks_last : forall h y, In (MOut y) h -> exists a x b, h = a ++ MOut x :: map MTot b.
Proof.
  intros h y H.
  destruct (last_such _ (fun m => match m with MOut _ => True | MTot _ => False end)) with (l := h) (x := MOut y)
    as (pre & m & post & E & P & L); [|exact H|exact I|].
  { intros [x|t]; [left|right]; tauto. }
  destruct m as [x|t]; [|contradiction]. subst h. clear H. exists pre, x.
  assert (Q : exists b, post = map MTot b).
  { clear -L. induction post as [|[z|t] post IH]; [exists []; reflexivity| |].
    - exfalso. exact (L (MOut z) (or_introl eq_refl) I).
    - destruct IH as (b & ->); [intros z Hz; apply L; right; exact Hz|]. exists (t :: b). reflexivity. }
  destruct Q as (b & ->). exists b. reflexivity.
Qed.

Lemma last_of_range : forall x, 0 <= last_of x < 8.
Proof. intros x. apply Z.mod_pos_bound. lia. Qed.

(** When everything came, the collection is finished. *)
Lemma steady_finished : forall ds s, wires ds -> steady o ds -> complete o ds ->
  ec_deliver_all mjd o ec_init ds = Ok s -> finished (history mjd o ec_init ds).
Proof.
  intros ds s W S ((x0 & C0) & C) R. destruct (steady_run ds W S) as (s' & _ & F).
  assert (H : forall y, In (MOut y) (history mjd o ec_init ds) <-> came o ds y).
  { intros y. rewrite in_history. apply (first_seen_in _ _ F). }
  destruct (marks_last (history mjd o ec_init ds) x0) as (a & x & b & E); [apply H, C0|].
  exists a, x, b. split; [exact E|].
  assert (H' : forall y, In (MOut y) (a ++ [MOut x]) <-> came o ds y).
  { intros y. rewrite <- H, E, !in_app_iff. cbn [In]. split; [tauto|]. intros [A|[A|A]]; auto.
    apply in_map_iff in A as (t & A & _). discriminate. }
  clear E H. destruct S as (_ & S).
  intros x' w i n (pre & E & _ & Fresh) Hi Hn. left.
  assert (Cx : came o ds x') by (apply H'; rewrite E; apply in_elt).
  destruct (C x' i n Cx Hi Hn) as (y & Cy & Sy & Ty & Ay).
  assert (Hf : same_half y x').
  { split; [exact Sy|]. rewrite Ty. pose proof (last_of_range x').
    rewrite Z.div_add_l by lia. rewrite (Z.div_small i 8) by lia. lia. }
  exists y. split; [|auto].
  pose proof (proj2 (H' y) Cy) as I. rewrite E in I. apply in_app_or in I as [I|I]; [exfalso|exact I].
  destruct (last_such _ (fun m => match m with MOut z => same_half z x' | MTot _ => False end)) with (l := pre) (x := MOut y)
    as (p1 & m & p2 & E2 & P & L); [|exact I|exact Hf|].
  { intros [z|t]; [apply same_half_dec|right; tauto]. }
  destruct m as [z|t]; [|contradiction].
  apply (Fresh p1 z p2 E2 P).
  - intros z' Hz'. exact (L (MOut z') Hz').
  - apply S; [|exact Cx|exact P]. apply H'. rewrite E, E2. apply in_or_app. left. apply in_elt.
Qed.

(** When the collection has everything, everything came. *)
Lemma steady_all_there : forall ds, wires ds -> steady o ds ->
  all_there (emitted mjd o ec_init ds) (tots ds) -> complete_but_past o ds.
Proof.
  intros ds W S A x i n Cx Hi Hn. destruct (steady_run ds W S) as (s' & _ & F). destruct S as (_ & S).
  assert (I : In x (emitted mjd o ec_init ds)) by (apply (first_seen_in _ _ F), Cx).
  destruct (last_such _ (fun z => same_half z x)) with (l := emitted mjd o ec_init ds) (x := x)
    as (pre & z & post & E & P & L); [intros z; apply same_half_dec|exact I|split; reflexivity|].
  assert (Cz : came o ds z) by (apply (first_seen_in _ _ F); rewrite E; apply in_elt).
  assert (Lz : last_of z = last_of x) by (apply S; auto).
  destruct P as (P1 & P2).
  destruct (A pre z post i n E) as [(y & Iy & Sy & Ty & Ay)|T]; [| lia |lia| |right; exact T].
  - intros y Hy (Q1 & Q2). apply (L y Hy). split; congruence.
  - left. exists y. split; [apply (first_seen_in _ _ F), Iy|]. split; [congruence|]. split; [rewrite Ty, P2; reflexivity|exact Ay].
Qed.

(** The command comes to its end if all deliveries can be handled. *)
Lemma loop_ok : forall ps n s s', (length ps < n)%nat -> ec_deliver_all mjd o s (concat ps) = Ok s' ->
  exists s2, feed_loop (list_source _) (eit_sink mjd o) n ps s = Some (Ok s2).
Proof.
  induction ps as [|p ps IH]; intros n s s' Hn R; (destruct n as [|n]; [cbn in Hn; lia|]); cbn [feed_loop sr_next list_source].
  - eauto.
  - change (sk_handle (eit_sink mjd o) s p) with (ec_HandlePacket mjd o s p).
    cbn [concat] in R. rewrite deliver_all_app in R. unfold ec_HandlePacket.
    destruct (ec_deliver_all mjd o s p) as [s1|]; [|discriminate]. cbn [bind] in R |- *.
    destruct (ec_IsCompleted o s1); [eauto|]. destruct (ec_CheckTimeout o s1); [eauto|].
    apply (IH n s1 s'); [cbn in Hn; lia|exact R].
Qed.
End Carousel.
