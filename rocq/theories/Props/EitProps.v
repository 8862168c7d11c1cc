(** C37 - C42, C45, C46, C59: collect-eits, the documents of EIT sections and the key
    of a service. *)
From Coq Require Import ZArith Lia List Bool.
From Verif Require Import Base.Outcome Base.Util Model.Sink Model.EitSection Model.EitCollector
  Proofs.EitSectionProofs Proofs.EitProofs Proofs.EitMain Proofs.EitClaims Proofs.EitTime Proofs.EitExact Spec.EitSpec.
Import ListNotations.
Open Scope Z_scope.

(** * Material for the examples *)

(** A decoder of start times. *)
Definition dates (l : list Z) : option Z :=
  match l with
  | [a; b; h; m; s] =>
      match length_of [h; m; s] with
      | Some t => Some ((a * 256 + b) mod 65536 * 86400000 + t mod 86400000)
      | None => None
      end
  | _ => None
  end.

Lemma dates_sane : sane_mjd dates.
Proof.
  intros l t H. unfold dates in H.
  destruct l as [|a [|b [|h [|m [|s [|]]]]]]; try discriminate.
  destruct (length_of [h; m; s]) as [u|]; [|discriminate]. injection H as <-.
  pose proof (Z.mod_pos_bound (a * 256 + b) 65536). pose proof (Z.mod_pos_bound u 86400000).
  change (2 ^ 44) with 17592186044416. lia.
Qed.

(** A section of service 1 of transport stream 2 of network 3 with one event. *)
Definition film : event := mkEv 0x1234 [0xEB; 0x7F; 0x20; 0x54; 0x00] [0x01; 0x36; 0x00] 1 false [0x4D; 0x00].

Definition eit (tid version number last seg_last last_tid : Z) : section :=
  mkSection true 0x12 tid 1 version false number last
    ([0; 2; 0; 3; seg_last; last_tid] ++ encode film) [9; 9; 9; 9].

Definition both : eit_option := mkEitOption [] [] 30000 false true true.

Ltac bytes := repeat (constructor; [unfold byte; lia|]); constructor.

Lemma eit_wire : forall tid v n l sl lt, byte tid -> 0 <= v < 32 -> byte n -> byte l -> byte sl -> byte lt ->
  wire (eit tid v n l sl lt).
Proof.
  intros tid v n l sl lt H1 H2 H3 H4 H5 H6. unfold wire, eit. cbn [sn_ext sn_tid sn_version sn_number sn_last sn_payload sn_crc].
  split; [lia|]. do 4 (split; [assumption|]).
  split; [|split; reflexivity].
  change (encode film) with [0x12; 0x34; 0xEB; 0x7F; 0x20; 0x54; 0x00; 0x01; 0x36; 0x00; 0x20; 0x02; 0x4D; 0x00].
  cbn [app]. repeat (constructor; [first [assumption|unfold byte; lia]|]). constructor.
Qed.

Lemma film_ok : event_ok film.
Proof.
  unfold event_ok, film; cbn [en_id en_time en_duration en_status en_descs].
  split; [lia|]. do 2 (split; [reflexivity|]). split; [bytes|]. split; [lia|reflexivity].
Qed.

Lemma eit_consists : forall tid v n l sl lt, consists (eit tid v n l sl lt) 2 3 sl lt [film] [].
Proof.
  intros. unfold consists, eit. cbn [sn_payload].
  split; [cbn [map concat]; rewrite !app_nil_r; reflexivity|]. do 2 (split; [lia|]).
  split; [constructor; [apply film_ok|constructor]|]. reflexivity.
Qed.

Lemma eit_consistent : forall tid v n l sl lt, consistent (eit tid v n l sl lt).
Proof. intros. do 6 eexists. apply eit_consists. Qed.

Ltac wires_tac :=
  let x := fresh in let H := fresh in
  intros x H; cbn [In] in H;
  repeat (destruct H as [H|H]; [first [discriminate H|injection H as <-; apply eit_wire; unfold byte; lia]|]); destruct H.

Ltac schedule_tac := unfold schedule, both, eit; cbn; repeat split; auto; try lia; vm_compute; congruence.

(** * C46: the key of a service *)

Theorem C46_key : forall a b ea eb, wire a -> wire b -> 6 <= zlen (sn_payload a) -> 6 <= zlen (sn_payload b) ->
  EitSection a = Ok ea -> EitSection b = Ok eb ->
  (service_triple ea = service_triple eb <->
   nid_of a = nid_of b /\ tsid_of a = tsid_of b /\ sid_of a = sid_of b).
Proof.
  intros a b ea eb Wa Wb Ha Hb Ea Eb.
  rewrite (wire_key a b ea eb Wa Wb Ha Hb (EitSection_inv _ _ Ha Ea) (EitSection_inv _ _ Hb Eb)).
  unfold service_of. split; [intros [= -> -> ->]; auto|intros (-> & -> & ->); reflexivity].
Qed.
Print Assumptions C46_key.

(** For every combination of 16-bit identifiers, whatever section they come
    from. *)
Theorem C46_triples : forall a b,
  0 <= ei_nid a < 65536 -> 0 <= ei_tsid a < 65536 -> 0 <= ei_sid a < 65536 ->
  0 <= ei_nid b < 65536 -> 0 <= ei_tsid b < 65536 -> 0 <= ei_sid b < 65536 ->
  (service_triple a = service_triple b <->
   ei_nid a = ei_nid b /\ ei_tsid a = ei_tsid b /\ ei_sid a = ei_sid b).
Proof. exact triple_inj. Qed.
Print Assumptions C46_triples.

Example C46_key_example : exists ea, EitSection (eit 0x50 1 0 8 0 0x50) = Ok ea /\ wire (eit 0x50 1 0 8 0 0x50) /\
  service_triple ea = 3 * 2 ^ 48 + 2 * 2 ^ 32 + 1 * 2 ^ 16.
Proof.
  eexists. split; [vm_compute; reflexivity|]. split; [apply eit_wire; unfold byte; lia|vm_compute; reflexivity].
Qed.

(** * C45: events *)

(** If the payload is put together from events, exactly these come out. *)
Theorem C45_roundtrip : forall mjd s e ts n sl lt evs rest, sane_mjd mjd ->
  zlen (sn_payload s) < 4096 -> EitSection s = Ok e -> consists s ts n sl lt evs rest ->
  MakeEitJson mjd e = Ok (mkEitDoc n ts (sn_ext s) (sn_tid s) (sn_number s) (sn_last s) sl (sn_version s)
                            (map (shown mjd) evs)).
Proof. intros mjd s e ts n sl lt evs rest H. exact (doc_consistent mjd H s e ts n sl lt evs rest). Qed.
Print Assumptions C45_roundtrip.

(** Decoding reads outside the section exactly when a length field is too
    large: in all other cases the document is the one of the section. *)
Theorem C45_partial : forall mjd s e, sane_mjd mjd -> wire s -> 6 <= zlen (sn_payload s) -> EitSection s = Ok e ->
  (consistent s /\ exists d, MakeEitJson mjd e = Ok d /\ describes mjd s d) \/
  (~ consistent s /\ MakeEitJson mjd e = Fail Undefined).
Proof. intros mjd s e H. exact (doc_cases mjd H s e). Qed.
Print Assumptions C45_partial.

(** An event that announces more descriptors than there are bytes. *)
Definition too_long : section :=
  mkSection true 0x12 0x50 1 1 false 0 0
    ([0; 2; 0; 3; 0; 0x50] ++ [0x12; 0x34; 0xEB; 0x7F; 0x20; 0x54; 0; 1; 0x36; 0; 0x2F; 0xFF]) [9; 9; 9; 9].

Theorem C45_refuted : exists s e, wire s /\ 6 <= zlen (sn_payload s) /\ EitSection s = Ok e /\
  forall mjd, sane_mjd mjd -> MakeEitJson mjd e = Fail Undefined.
Proof.
  assert (W : wire too_long).
  { unfold wire, too_long; cbn [sn_ext sn_tid sn_version sn_number sn_last sn_payload sn_crc].
    split; [lia|]. split; [unfold byte; lia|]. split; [lia|]. do 2 (split; [unfold byte; lia|]).
    split; [cbn; bytes|]. split; reflexivity. }
  destruct (EitSection_parsed too_long) as (e & He & _); [vm_compute; congruence|].
  exists too_long, e. split; [exact W|]. split; [vm_compute; congruence|]. split; [exact He|].
  intros mjd H. destruct (doc_cases mjd H too_long e W ltac:(vm_compute; congruence) He) as [(C & _)|(_ & R)]; [exfalso|exact R].
  destruct C as (ts & n & sl & lt & evs & rest & P & _ & _ & Hok & Hr).
  unfold too_long in P. cbn [sn_payload app] in P. injection P as _ _ _ _ _ _ P.
  destruct evs as [|ev evs].
  - cbn [map concat app] in P. subst rest. vm_compute in Hr. discriminate.
  - inversion Hok as [|? ? Hev _]; subst. cbn [map concat] in P.
    destruct Hev as (_ & H5 & H3 & _ & _ & _).
    unfold encode in P.
    destruct (en_time ev) as [|t1 [|t2 [|t3 [|t4 [|t5 [|]]]]]]; try (vm_compute in H5; discriminate);
      [|exfalso; rewrite !zlen_cons in H5; pose proof (zlen_nonneg _ l); lia].
    destruct (en_duration ev) as [|d1 [|d2 [|d3 [|]]]]; try (vm_compute in H3; discriminate);
      [|exfalso; rewrite !zlen_cons in H3; pose proof (zlen_nonneg _ l); lia].
    cbn [app] in P. injection P as _ _ _ _ _ _ _ _ _ _ _ P2 P3.
    symmetry in P3. apply app_eq_nil in P3 as [P3 _]. apply app_eq_nil in P3 as [P3 _].
    rewrite P3 in P2. vm_compute in P2. discriminate.
Qed.
Print Assumptions C45_refuted.

Example C45_roundtrip_example : exists e,
  EitSection (eit 0x50 1 0 8 0 0x50) = Ok e /\ wire (eit 0x50 1 0 8 0 0x50) /\
  consists (eit 0x50 1 0 8 0 0x50) 2 3 0 0x50 [film] [] /\
  MakeEitJson dates e = Ok (mkEitDoc 3 2 1 0x50 0 8 0 1
    [mkEvent 0x1234 (Some 1702122840000) (Some 5760000) false [0x4D; 0]]).
Proof.
  eexists. split; [vm_compute; reflexivity|]. split; [apply eit_wire; unfold byte; lia|].
  split; [apply eit_consists|]. vm_compute. reflexivity.
Qed.

(** * C37: nothing is lost *)

(** The exact rule: a schedule section of a selected service is output unless it
    is a [repetition] of what was output. *)
Theorem C37_exact : forall mjd o ds s x, sane_mjd mjd -> wires ds -> wire x ->
  ec_deliver_all mjd o ec_init ds = Ok s -> schedule o x ->
  (repetition (emitted mjd o ec_init ds) x -> ec_deliver mjd o s (DSection x) = Ok s) /\
  (~ repetition (emitted mjd o ec_init ds) x -> consistent x ->
     exists s' d, ec_deliver mjd o s (DSection x) = Ok s' /\ ec_out s' = ec_out s ++ [d] /\ describes mjd x d).
Proof. intros mjd o ds s x H. exact (exact_output mjd o H ds s x). Qed.
Print Assumptions C37_exact.

(** What was not output yet is output; tables 0x50 - 0x5F and 0x60 - 0x6F are
    told apart by their last four bits only. *)
Theorem C37_partial : forall mjd o ds s x, sane_mjd mjd -> wires ds -> wire x ->
  ec_deliver_all mjd o ec_init ds = Ok s -> schedule o x -> consistent x ->
  (forall y, In y (emitted mjd o ec_init ds) -> ~ same_section y x) ->
  exists s' d, ec_deliver mjd o s (DSection x) = Ok s' /\ ec_out s' = ec_out s ++ [d] /\ describes mjd x d.
Proof. intros mjd o ds s x H. exact (first_output mjd o H ds s x). Qed.
Print Assumptions C37_partial.

(** With only one of the two kinds selected the claim holds as it stands. *)
Theorem C37_one_kind : forall mjd o ds s x, sane_mjd mjd -> wires ds -> wire x ->
  ec_deliver_all mjd o ec_init ds = Ok s -> schedule o x -> consistent x ->
  eo_actual o = false \/ eo_others o = false ->
  (forall y, In y (emitted mjd o ec_init ds) ->
     ~ (service_of y = service_of x /\ sn_tid y = sn_tid x /\ sn_number y = sn_number x)) ->
  exists s' d, ec_deliver mjd o s (DSection x) = Ok s' /\ ec_out s' = ec_out s ++ [d] /\ describes mjd x d.
Proof.
  intros mjd o ds s x H Wd Wx R Sx Cx K N. apply (first_output mjd o H ds s x Wd Wx R Sx Cx).
  intros y Hy ((S1 & S2) & S3). apply (N y Hy).
  split; [exact S1|]. split; [|exact S3].
  pose proof (output_documents mjd o H ds s Wd R) as D.
  destruct (Forall2_In_l _ _ _ _ _ _ D Hy) as (d & _ & _ & Sy & _).
  destruct Sx as (_ & _ & _ & Tx & _). destruct Sy as (_ & _ & _ & Ty & _).
  assert (M : forall t, 0x50 <= t <= 0x5F -> t = 0x50 + t mod 16).
  { intros t Ht. pose proof (Z.div_mod t 16). assert (t / 16 = 5) by (symmetry; apply Z.div_unique with (t - 80); lia). lia. }
  assert (M2 : forall t, 0x60 <= t <= 0x6F -> t = 0x60 + t mod 16).
  { intros t Ht. pose proof (Z.div_mod t 16). assert (t / 16 = 6) by (symmetry; apply Z.div_unique with (t - 96); lia). lia. }
  destruct Tx as [[X1 X2]|[X1 X2]]; destruct Ty as [[Y1 Y2]|[Y1 Y2]]; destruct K as [K|K]; try congruence.
  - rewrite (M _ X1), (M _ Y1). lia.
  - rewrite (M2 _ X1), (M2 _ Y1). lia.
Qed.
Print Assumptions C37_one_kind.

(** With both kinds selected it fails: after a section of table 0x50, the one of
    table 0x60 with the same number is taken for a repetition. *)
Theorem C37_refuted : exists o ds s x, wires ds /\ wire x /\ schedule o x /\ consistent x /\
  ec_deliver_all dates o ec_init ds = Ok s /\
  (forall y, In y (emitted dates o ec_init ds) -> sn_tid y <> sn_tid x) /\
  ec_deliver dates o s (DSection x) = Ok s.
Proof.
  exists both, [DSection (eit 0x50 1 0 8 0 0x50)].
  destruct (ec_deliver_all dates both ec_init [DSection (eit 0x50 1 0 8 0 0x50)]) as [s|] eqn:E; [|vm_compute in E; discriminate].
  exists s, (eit 0x60 1 0 8 0 0x60).
  assert (W : wires [DSection (eit 0x50 1 0 8 0 0x50)]) by wires_tac.
  assert (Wx : wire (eit 0x60 1 0 8 0 0x60)) by (apply eit_wire; unfold byte; lia).
  assert (Sx : schedule both (eit 0x60 1 0 8 0 0x60)) by schedule_tac.
  do 3 (split; [assumption|]). split; [apply eit_consistent|]. split; [reflexivity|].
  assert (Em : emitted dates both ec_init [DSection (eit 0x50 1 0 8 0 0x50)] = [eit 0x50 1 0 8 0 0x50]) by (vm_compute; reflexivity).
  split.
  - intros y Hy. rewrite Em in Hy. destruct Hy as [<-|[]]. vm_compute. discriminate.
  - apply (exact_output dates both dates_sane _ _ _ W Wx E Sx). rewrite Em. split.
    + exists [], (eit 0x50 1 0 8 0 0x50), []. do 3 (split; [vm_compute; auto|]). intros z [].
    + intros i Hi. exfalso. change (0 <= i < 0) in Hi. lia.
Qed.
Print Assumptions C37_refuted.

(** The array accesses of the model are inside the arrays of the code. *)
Theorem C37_indices : forall s e, wire s -> 6 <= zlen (sn_payload s) -> EitSection s = Ok e ->
  0 <= segment_index e < 32 /\ 0 <= last_segment_index e < 32 /\ 0 <= section_index e < 8 /\
  0 <= last_section_index e < 8 /\ 0 <= table_index e < 8 /\ 0 <= last_table_index e < 8.
Proof.
  intros s e W H6 He. pose proof (EitSection_inv _ _ H6 He) as (_ & _ & _ & _ & _ & _ & P7 & P8 & _).
  destruct W as (_ & _ & _ & W1 & W2 & _). unfold byte in *.
  unfold segment_index, last_segment_index. rewrite P7, P8, !shr3.
  assert (D : forall b, 0 <= b < 256 -> 0 <= b / 8 < 32).
  { intros b Hb. split; [apply Z.div_pos; lia|apply Z.div_lt_upper_bound; lia]. }
  split; [apply D; auto|]. split; [apply D; auto|].
  split; [apply section_index_range|]. split; [apply last_section_index_range|].
  split; [apply table_index_range|apply last_table_index_range].
Qed.
Print Assumptions C37_indices.

(** Section 8 after section 0, and section 0 of another table. *)
Example C37_example : exists s s' d,
  ec_deliver_all dates both ec_init [DSection (eit 0x50 1 0 8 0 0x51); DSection (eit 0x51 1 0 0 0 0x51)] = Ok s /\
  schedule both (eit 0x50 1 8 8 8 0x51) /\ consistent (eit 0x50 1 8 8 8 0x51) /\
  (forall y, In y (emitted dates both ec_init [DSection (eit 0x50 1 0 8 0 0x51); DSection (eit 0x51 1 0 0 0 0x51)]) ->
     ~ same_section y (eit 0x50 1 8 8 8 0x51)) /\
  ec_deliver dates both s (DSection (eit 0x50 1 8 8 8 0x51)) = Ok s' /\ ec_out s' = ec_out s ++ [d].
Proof.
  do 3 eexists. split; [vm_compute; reflexivity|]. split; [schedule_tac|]. split; [apply eit_consistent|].
  split; [|split; vm_compute; reflexivity].
  intros y Hy [[_ H1] H2]. 
  assert (Em : emitted dates both ec_init [DSection (eit 0x50 1 0 8 0 0x51); DSection (eit 0x51 1 0 0 0 0x51)]
               = [eit 0x50 1 0 8 0 0x51; eit 0x51 1 0 0 0 0x51]) by (vm_compute; reflexivity).
  rewrite Em in Hy. destruct Hy as [<-|[<-|[]]]; vm_compute in H1, H2; discriminate.
Qed.

(** * C38: new versions *)

(** A section in front of the last one of its segment is output again when its
    version differs from the one of the last output section at its position. *)
Theorem C38_partial : forall mjd o ds s x y, sane_mjd mjd -> wires ds -> wire x ->
  ec_deliver_all mjd o ec_init ds = Ok s -> schedule o x -> consistent x ->
  sn_number x mod 8 < seg_last_of x mod 8 ->
  last_covering (emitted mjd o ec_init ds) x (sn_number x mod 8) y -> sn_version y <> sn_version x ->
  exists s' d, ec_deliver mjd o s (DSection x) = Ok s' /\ ec_out s' = ec_out s ++ [d] /\ describes mjd x d.
Proof.
  intros mjd o ds s x y H Wd Wx R Sx Cx Hlt (pre & post & Hem & Hst & Hcov & Hl) Hv.
  exact (new_version mjd o H ds s x pre y post Wd Wx R Sx Cx Hlt Hem Hst Hcov Hv Hl).
Qed.
Print Assumptions C38_partial.

(** The last section of a segment, here a segment of one, is never output again,
    whatever its version. *)
Theorem C38_refuted : exists o ds s x, wires ds /\ wire x /\ schedule o x /\ consistent x /\
  ec_deliver_all dates o ec_init ds = Ok s /\
  (exists y, emitted dates o ec_init ds = [y] /\ service_of y = service_of x /\ sn_tid y = sn_tid x /\
     sn_number y = sn_number x /\ sn_version y <> sn_version x) /\
  ec_deliver dates o s (DSection x) = Ok s.
Proof.
  exists both, [DSection (eit 0x50 1 0 8 0 0x50)].
  destruct (ec_deliver_all dates both ec_init [DSection (eit 0x50 1 0 8 0 0x50)]) as [s|] eqn:E; [|vm_compute in E; discriminate].
  exists s, (eit 0x50 2 0 8 0 0x50).
  assert (W : wires [DSection (eit 0x50 1 0 8 0 0x50)]) by wires_tac.
  assert (Wx : wire (eit 0x50 2 0 8 0 0x50)) by (apply eit_wire; unfold byte; lia).
  assert (Sx : schedule both (eit 0x50 2 0 8 0 0x50)) by schedule_tac.
  do 3 (split; [assumption|]). split; [apply eit_consistent|]. split; [reflexivity|].
  assert (Em : emitted dates both ec_init [DSection (eit 0x50 1 0 8 0 0x50)] = [eit 0x50 1 0 8 0 0x50]) by (vm_compute; reflexivity).
  split.
  - exists (eit 0x50 1 0 8 0 0x50). split; [exact Em|]. do 3 (split; [reflexivity|]). discriminate.
  - apply (exact_output dates both dates_sane _ _ _ W Wx E Sx). rewrite Em. split.
    + exists [], (eit 0x50 1 0 8 0 0x50), []. do 3 (split; [vm_compute; auto|]). intros z [].
    + intros i Hi. exfalso. change (0 <= i < 0) in Hi. lia.
Qed.
Print Assumptions C38_refuted.

Example C38_partial_example : exists s s' d,
  ec_deliver_all dates both ec_init [DSection (eit 0x50 1 0 8 1 0x50)] = Ok s /\
  wires [DSection (eit 0x50 1 0 8 1 0x50)] /\ schedule both (eit 0x50 2 0 8 1 0x50) /\
  last_covering (emitted dates both ec_init [DSection (eit 0x50 1 0 8 1 0x50)]) (eit 0x50 2 0 8 1 0x50) 0 (eit 0x50 1 0 8 1 0x50) /\
  ec_deliver dates both s (DSection (eit 0x50 2 0 8 1 0x50)) = Ok s' /\ ec_out s' = ec_out s ++ [d].
Proof.
  do 3 eexists. split; [vm_compute; reflexivity|]. split; [wires_tac|]. split; [schedule_tac|].
  split; [|split; vm_compute; reflexivity].
  exists [], []. split; [vm_compute; reflexivity|]. split; [split; reflexivity|].
  split; [vm_compute; split; congruence|]. intros z [].
Qed.

(** * C39: no repetition *)

(** As long as the sections of the table that are output keep the version and
    those of the half the last table, a section is not output again. *)
Theorem C39_partial : forall mjd o ds s x pre y post, sane_mjd mjd -> wires ds -> wire x ->
  ec_deliver_all mjd o ec_init ds = Ok s -> schedule o x ->
  emitted mjd o ec_init ds = pre ++ y :: post ->
  same_section y x -> sn_version y = sn_version x -> seg_last_of y mod 8 = seg_last_of x mod 8 ->
  last_of y = last_of x ->
  (forall z, In z post -> same_half z x -> last_of z = last_of x) ->
  (forall z, In z post -> same_table z x -> sn_version z = sn_version x) ->
  ec_deliver mjd o s (DSection x) = Ok s.
Proof. intros mjd o ds s x pre y post _. exact (no_repeat mjd o ds s x pre y post). Qed.
Print Assumptions C39_partial.

(** Two segments of different versions: section 0, then section 8, then section 0
    once more, unchanged. *)
Definition alternating : list delivery := [DSection (eit 0x50 1 0 8 1 0x50); DSection (eit 0x50 2 8 8 9 0x50)].

Theorem C39_refuted : exists o ds s s' x d, wires ds /\ wire x /\ schedule o x /\
  ec_deliver_all dates o ec_init ds = Ok s /\
  (exists z, emitted dates o ec_init ds = [x; z] /\ sn_number z <> sn_number x) /\
  ec_deliver dates o s (DSection x) = Ok s' /\ ec_out s' = ec_out s ++ [d].
Proof.
  exists both, alternating. do 2 eexists. exists (eit 0x50 1 0 8 1 0x50). eexists.
  split; [wires_tac|]. split; [apply eit_wire; unfold byte; lia|]. split; [schedule_tac|].
  split; [vm_compute; reflexivity|]. split.
  - exists (eit 0x50 2 8 8 9 0x50). split; [vm_compute; reflexivity|discriminate].
  - split; vm_compute; reflexivity.
Qed.
Print Assumptions C39_refuted.

Example C39_partial_example : exists s,
  ec_deliver_all dates both ec_init [DSection (eit 0x50 1 0 8 1 0x50); DSection (eit 0x50 1 8 8 9 0x50)] = Ok s /\
  emitted dates both ec_init [DSection (eit 0x50 1 0 8 1 0x50); DSection (eit 0x50 1 8 8 9 0x50)]
    = [] ++ eit 0x50 1 0 8 1 0x50 :: [eit 0x50 1 8 8 9 0x50] /\
  schedule both (eit 0x50 1 0 8 1 0x50) /\
  (forall z, In z [eit 0x50 1 8 8 9 0x50] -> last_of z = last_of (eit 0x50 1 0 8 1 0x50) /\ sn_version z = 1).
Proof.
  eexists. split; [vm_compute; reflexivity|]. split; [vm_compute; reflexivity|]. split; [schedule_tac|].
  intros z [<-|[]]. vm_compute. auto.
Qed.

(** * C40, C41: the end *)

(** The answer to one packet.  [t] is the stream time since the last output. *)
Lemma answer : forall mjd o ds s p s' go t, sane_mjd mjd -> wires (ds ++ p) ->
  ec_deliver_all mjd o ec_init ds = Ok s -> ec_HandlePacket mjd o s p = Ok (s', go) ->
  passed mjd o (ds ++ p) t -> eo_streaming o = false ->
  (eo_time_limit o <= t -> go = false) /\
  (go = false -> t < eo_time_limit o -> all_there (emitted mjd o ec_init (ds ++ p)) (tots (ds ++ p))).
Proof.
  intros mjd o ds s p s' go t H W R E P St. destruct (handle_packet mjd o _ _ _ _ E) as [E1 E2].
  assert (R' : ec_deliver_all mjd o ec_init (ds ++ p) = Ok s') by (rewrite deliver_all_app, R; exact E1).
  pose proof (passed_elapsed mjd o _ _ _ P R') as Q. rewrite Q, St in E2. cbn [negb andb] in E2. subst go.
  split.
  - intros L. apply Z.leb_le in L. rewrite L, orb_true_r. reflexivity.
  - intros G L. apply negb_false_iff, orb_true_iff in G as [G|G]; [|apply Z.leb_le in G; lia].
    apply (completed_sound mjd o (ds ++ p) s' W R' G).
Qed.

(** C40: if the collection ends before the time limit, everything is there. *)
Theorem C40_partial : forall mjd o ds s p s' go t, sane_mjd mjd -> wires (ds ++ p) ->
  ec_deliver_all mjd o ec_init ds = Ok s -> ec_HandlePacket mjd o s p = Ok (s', go) ->
  passed mjd o (ds ++ p) t -> eo_streaming o = false ->
  go = false -> t < eo_time_limit o -> all_there (emitted mjd o ec_init (ds ++ p)) (tots (ds ++ p)).
Proof. intros mjd o ds s p s' go t H W R E P St. apply (answer mjd o ds s p s' go t H W R E P St). Qed.
Print Assumptions C40_partial.

(** "Denied" includes denials that a later section has taken back: table 0x50
    first consists of section 0 only, a new version extends it to section 16;
    when table 0x51 arrives the collection ends without section 16. *)
Definition extended : list delivery :=
  [DSection (eit 0x50 1 0 0 0 0x51); DSection (eit 0x50 2 8 16 8 0x51)].

Theorem C40_refuted : exists o ds s p s' x, wires (ds ++ p) /\ eo_streaming o = false /\ 0 < eo_time_limit o /\
  tots (ds ++ p) = [] /\
  ec_deliver_all dates o ec_init ds = Ok s /\ ec_HandlePacket dates o s p = Ok (s', false) /\
  In x (emitted dates o ec_init (ds ++ p)) /\ sn_tid x = 0x50 /\ sn_version x = 2 /\ sn_last x = 16 /\
  (forall y, In y (emitted dates o ec_init (ds ++ p)) -> sn_number y <> 16 /\ (sn_tid y = 0x50 -> sn_version y = 2 -> y = x)).
Proof.
  exists both, extended. eexists. exists [DSection (eit 0x51 1 0 0 0 0x51)]. eexists. exists (eit 0x50 2 8 16 8 0x51).
  split; [wires_tac|]. split; [reflexivity|]. split; [reflexivity|]. split; [reflexivity|].
  split; [vm_compute; reflexivity|]. split; [vm_compute; reflexivity|].
  assert (Em : emitted dates both ec_init (extended ++ [DSection (eit 0x51 1 0 0 0 0x51)])
               = [eit 0x50 1 0 0 0 0x51; eit 0x50 2 8 16 8 0x51; eit 0x51 1 0 0 0 0x51]) by (vm_compute; reflexivity).
  rewrite Em. split; [right; left; reflexivity|]. do 3 (split; [reflexivity|]).
  intros y [<-|[<-|[<-|[]]]]; (split; [discriminate|]); intros H1 H2; try discriminate; reflexivity.
Qed.
Print Assumptions C40_refuted.

Example C40_partial_example : exists s s',
  ec_deliver_all dates both ec_init [DSection (eit 0x50 1 0 8 0 0x50)] = Ok s /\
  ec_HandlePacket dates both s [DSection (eit 0x50 1 8 8 8 0x50)] = Ok (s', false) /\
  passed dates both ([DSection (eit 0x50 1 0 8 0 0x50)] ++ [DSection (eit 0x50 1 8 8 8 0x50)]) 0 /\
  0 < eo_time_limit both.
Proof.
  do 2 eexists. split; [vm_compute; reflexivity|]. split; [vm_compute; reflexivity|].
  split; [apply passed_none; reflexivity|reflexivity].
Qed.

(** C41: when the limit is reached the collection ends, and if it ends although
    something is missing the limit is reached. *)
Theorem C41_timeout : forall mjd o ds s p s' go t, sane_mjd mjd -> wires (ds ++ p) ->
  ec_deliver_all mjd o ec_init ds = Ok s -> ec_HandlePacket mjd o s p = Ok (s', go) ->
  passed mjd o (ds ++ p) t -> eo_streaming o = false ->
  ~ all_there (emitted mjd o ec_init (ds ++ p)) (tots (ds ++ p)) ->
  (go = false <-> eo_time_limit o <= t).
Proof.
  intros mjd o ds s p s' go t H W R E P St N. destruct (answer mjd o ds s p s' go t H W R E P St) as [A B].
  split; [|exact A]. intros G. destruct (Z_lt_le_dec t (eo_time_limit o)); [|assumption].
  exfalso. apply N. auto.
Qed.
Print Assumptions C41_timeout.

(** Also when everything is there, reaching the limit ends the collection. *)
Theorem C41_limit : forall mjd o ds s p s' go t, sane_mjd mjd -> wires (ds ++ p) ->
  ec_deliver_all mjd o ec_init ds = Ok s -> ec_HandlePacket mjd o s p = Ok (s', go) ->
  passed mjd o (ds ++ p) t -> eo_streaming o = false -> eo_time_limit o <= t -> go = false.
Proof. intros mjd o ds s p s' go t H W R E P St. apply (answer mjd o ds s p s' go t H W R E P St). Qed.
Print Assumptions C41_limit.

(** The time is defined at every point of every run. *)
Theorem C41_defined : forall mjd o ds s, ec_deliver_all mjd o ec_init ds = Ok s ->
  (exists t, passed mjd o ds t) /\ (forall t u, passed mjd o ds t -> passed mjd o ds u -> t = u).
Proof.
  intros mjd o ds s R. split; [exact (passed_exists mjd o ds s R)|].
  intros t u P Q. rewrite <- (passed_elapsed mjd o _ _ _ P R). apply (passed_elapsed mjd o _ _ _ Q R).
Qed.
Print Assumptions C41_defined.

(** Without any TOT a positive limit never ends the collection. *)
Theorem C41_no_tot : forall mjd o ds s p s' go, sane_mjd mjd -> wires (ds ++ p) ->
  ec_deliver_all mjd o ec_init ds = Ok s -> ec_HandlePacket mjd o s p = Ok (s', go) ->
  eo_streaming o = false -> 0 < eo_time_limit o -> tots (ds ++ p) = [] ->
  go = false -> all_there (emitted mjd o ec_init (ds ++ p)) [].
Proof.
  intros mjd o ds s p s' go H W R E St L T G. rewrite <- T.
  exact (proj2 (answer mjd o ds s p s' go 0 H W R E (passed_none mjd o _ T) St) G L).
Qed.
Print Assumptions C41_no_tot.

(** In streaming mode no packet ends the collection. *)
Theorem C41_streaming : forall mjd o s p s' go, eo_streaming o = true ->
  ec_HandlePacket mjd o s p = Ok (s', go) -> go = true.
Proof.
  intros mjd o s p s' go St E. destruct (handle_packet mjd o _ _ _ _ E) as [_ ->]. rewrite St. reflexivity.
Qed.
Print Assumptions C41_streaming.

(** A whole run: the packets are handled up to the first one after which the
    limit is reached or everything is there. *)
Theorem C41_run : forall mjd o ps n code s, sane_mjd mjd -> wires (concat ps) -> eo_streaming o = false ->
  FeedPackets (list_source _) (eit_sink mjd o) n ps ec_init = Some (Ok (code, s)) ->
  code = 0 /\ exists handled rest, ps = handled ++ rest /\
    ec_deliver_all mjd o ec_init (concat handled) = Ok s /\
    (forall k t, (0 < k < length handled)%nat -> passed mjd o (concat (firstn k handled)) t -> t < eo_time_limit o) /\
    (rest <> [] -> exists t, passed mjd o (concat handled) t /\
       (eo_time_limit o <= t \/ all_there (emitted mjd o ec_init (concat handled)) (tots (concat handled)))).
Proof.
  intros mjd o ps n code s H W St F. destruct (feed_run mjd o ps n code s F) as (C & handled & rest & E & R & K & Q).
  split; [exact C|]. exists handled, rest. split; [exact E|]. split; [exact R|].
  assert (Wh : wires (concat handled)).
  { intros x Hx. apply W. rewrite E, concat_app. apply in_or_app; auto. }
  split.
  - intros k t Hk P.
    assert (Rk : exists sk, ec_deliver_all mjd o ec_init (concat (firstn k handled)) = Ok sk).
    { rewrite <- (firstn_skipn k handled), concat_app, deliver_all_app in R.
      destruct (ec_deliver_all mjd o ec_init (concat (firstn k handled))) as [sk|]; [eauto|discriminate]. }
    destruct Rk as (sk & Rk). pose proof (K k sk Hk Rk) as G.
    rewrite <- (passed_elapsed mjd o _ _ _ P Rk). destruct G as [G|[_ G]]; [congruence|exact G].
  - intros Hr. destruct Q as [[Q _]|[_ Q]]; [contradiction|].
    destruct (passed_exists mjd o _ _ R) as (t & P). exists t. split; [exact P|].
    pose proof (passed_elapsed mjd o _ _ _ P R) as T.
    destruct (cp_completed (ec_progress s)) eqn:Cp.
    + right. apply (completed_sound mjd o (concat handled) s Wh R Cp).
    + left. destruct (Z_lt_le_dec t (eo_time_limit o)) as [L|L]; [|exact L].
      exfalso. apply Q. right. split; [exact Cp|]. rewrite T. exact L.
Qed.
Print Assumptions C41_run.

(** A section, a TOT, and a TOT thirty seconds later; section 8 is missing. *)
Example C41_example : exists s s',
  ec_deliver_all dates both ec_init [DSection (eit 0x50 1 0 8 0 0x50); DTot (Some 1000)] = Ok s /\
  ec_HandlePacket dates both s [DTot (Some 31000)] = Ok (s', false) /\
  passed dates both ([DSection (eit 0x50 1 0 8 0 0x50); DTot (Some 1000)] ++ [DTot (Some 31000)]) (31000 - 1000) /\
  wires [DSection (eit 0x50 1 0 8 0 0x50)].
Proof.
  do 2 eexists. split; [vm_compute; reflexivity|]. split; [vm_compute; reflexivity|].
  split; [|wires_tac].
  eapply (passed_first dates both [DSection (eit 0x50 1 0 8 0 0x50)] [DTot (Some 31000)] _ 1000 31000);
    try reflexivity.
Qed.

(** * C59: exactly when the collection ends *)

(** The answer to a packet is "stop" exactly if the time is up or at the last
    output nothing was missing. *)
Theorem C59_end : forall mjd o ds s p s' go t, wires (ds ++ p) ->
  ec_deliver_all mjd o ec_init ds = Ok s -> ec_HandlePacket mjd o s p = Ok (s', go) ->
  passed mjd o (ds ++ p) t -> eo_streaming o = false ->
  (go = false <-> finished (history mjd o ec_init (ds ++ p)) \/ eo_time_limit o <= t).
Proof.
  intros mjd o ds s p s' go t W R E P St. destruct (handle_packet mjd o _ _ _ _ E) as [E1 E2].
  assert (R' : ec_deliver_all mjd o ec_init (ds ++ p) = Ok s') by (rewrite deliver_all_app, R; exact E1).
  rewrite (passed_elapsed mjd o _ _ _ P R'), St in E2. cbn [negb andb] in E2. subst go.
  rewrite <- (completed_exact mjd o (ds ++ p) s' W R'), negb_false_iff, orb_true_iff, Z.leb_le. reflexivity.
Qed.
Print Assumptions C59_end.

(** A whole run: the packets are handled up to the first one after which that
    is so, and not beyond. *)
Theorem C59_run : forall mjd o ps n code s, wires (concat ps) -> eo_streaming o = false ->
  FeedPackets (list_source _) (eit_sink mjd o) n ps ec_init = Some (Ok (code, s)) ->
  let ends (qs : list (list delivery)) :=
    finished (history mjd o ec_init (concat qs)) \/
    exists t, passed mjd o (concat qs) t /\ eo_time_limit o <= t in
  exists handled rest, ps = handled ++ rest /\ ec_deliver_all mjd o ec_init (concat handled) = Ok s /\
    (forall k, (0 < k < length handled)%nat -> ~ ends (firstn k handled)) /\
    (rest <> [] -> ends handled).
Proof.
  intros mjd o ps n code s W St F ends. destruct (feed_run mjd o ps n code s F) as (C & handled & rest & E & R & K & Q).
  exists handled, rest. split; [exact E|]. split; [exact R|].
  assert (G : forall qs sq, (forall x, In x (concat qs) -> In x (concat ps)) ->
            ec_deliver_all mjd o ec_init (concat qs) = Ok sq -> (ends qs <-> ~ goes o sq)).
  { intros qs sq Hin Rq. unfold ends, goes.
    assert (Wq : wires (concat qs)) by (intros x Hx; apply W, Hin, Hx).
    rewrite <- (completed_exact mjd o _ _ Wq Rq). destruct (passed_exists mjd o _ _ Rq) as (t & P).
    pose proof (passed_elapsed mjd o _ _ _ P Rq) as T. rewrite T, St. split.
    - intros [X|(u & U & L)] [Y|[Y1 Y2]]; try congruence.
      rewrite <- (passed_elapsed mjd o _ _ _ U Rq) in L. lia.
    - intros X. destruct (cp_completed (ec_progress sq)); [auto|]. right. exists t. split; [exact P|].
      destruct (Z_lt_le_dec t (eo_time_limit o)); [|assumption]. exfalso. apply X. auto. }
  split.
  - intros k Hk Hend.
    assert (Rk : exists sk, ec_deliver_all mjd o ec_init (concat (firstn k handled)) = Ok sk).
    { rewrite <- (firstn_skipn k handled), concat_app, deliver_all_app in R.
      destruct (ec_deliver_all mjd o ec_init (concat (firstn k handled))) as [sk|]; [eauto|discriminate]. }
    destruct Rk as (sk & Rk). apply (G (firstn k handled) sk) in Hend; auto.
    + apply Hend. exact (K k sk Hk Rk).
    + intros x Hx. rewrite E, concat_app. apply in_or_app. left.
      rewrite <- (firstn_skipn k handled), concat_app. apply in_or_app; auto.
  - intros Hr. destruct Q as [[Q _]|[_ Q]]; [contradiction|]. apply (G handled s); auto.
    intros x Hx. rewrite E, concat_app. apply in_or_app; auto.
Qed.
Print Assumptions C59_run.

(** Two tables; the last section of the second one completes the collection. *)
Definition two_tables : list delivery :=
  [DSection (eit 0x50 1 0 8 0 0x51); DTot (Some 1000); DSection (eit 0x51 1 0 0 0 0x51)].

Example C59_example : exists s s1 s2,
  wires (two_tables ++ [DSection (eit 0x50 1 8 8 8 0x51)]) /\
  ec_deliver_all dates both ec_init two_tables = Ok s /\
  ec_HandlePacket dates both s [] = Ok (s1, true) /\
  ec_HandlePacket dates both s [DSection (eit 0x50 1 8 8 8 0x51)] = Ok (s2, false) /\
  history dates both ec_init (two_tables ++ [DSection (eit 0x50 1 8 8 8 0x51)]) =
    [MOut (eit 0x50 1 0 8 0 0x51); MTot 1000; MOut (eit 0x51 1 0 0 0 0x51); MOut (eit 0x50 1 8 8 8 0x51)].
Proof.
  do 3 eexists. split; [unfold two_tables; wires_tac|].
  split; [vm_compute; reflexivity|]. split; [vm_compute; reflexivity|].
  split; [vm_compute; reflexivity|]. vm_compute. reflexivity.
Qed.

(** * C42: only what was asked for *)

Theorem C42_output : forall mjd o ds s, sane_mjd mjd -> wires ds -> ec_deliver_all mjd o ec_init ds = Ok s ->
  Forall2 (fun x d => In (DSection x) ds /\ schedule o x /\ describes mjd x d)
    (emitted mjd o ec_init ds) (ec_out s).
Proof. intros mjd o ds s H. exact (output_documents mjd o H ds s). Qed.
Print Assumptions C42_output.

Example C42_example : exists s,
  ec_deliver_all dates (mkEitOption [1] [7] 30000 false true false) ec_init
    [DSection (eit 0x50 1 0 8 0 0x50); DSection (eit 0x60 1 0 8 0 0x50); DSection (eit 0x4E 1 0 8 0 0x50)] = Ok s /\
  ec_out s = [mkEitDoc 3 2 1 0x50 0 8 0 1 [mkEvent 0x1234 (Some 1702122840000) (Some 5760000) false [0x4D; 0]]].
Proof. eexists. split; vm_compute; reflexivity. Qed.
