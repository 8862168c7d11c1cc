(** C70: collect-eits on a steady broadcast. *)
From Coq Require Import ZArith Lia List Bool.
From Verif Require Import Base.Outcome Base.Util Model.Sink Model.EitSection Model.EitCollector
  Proofs.EitSectionProofs Proofs.EitProofs Proofs.EitMain Proofs.EitClaims Proofs.EitTime Proofs.EitExact Proofs.CarouselProofs
  Spec.EitSpec Spec.CarouselSpec Props.EitProps.
Import ListNotations.
Open Scope Z_scope.

(** Every section asked for is output once, where it came first, and nothing else
    is output; no section makes the collector fail. *)
Theorem C70_once : forall mjd o ds, sane_mjd mjd -> wires ds -> steady o ds ->
  exists s xs, ec_deliver_all mjd o ec_init ds = Ok s /\ first_seen o ds xs /\ Forall2 (describes mjd) xs (ec_out s).
Proof.
  intros mjd o ds M W S. destruct (steady_run mjd o M ds W S) as (s & R & F).
  exists s, (emitted mjd o ec_init ds). split; [exact R|]. split; [exact F|].
  pose proof (output_documents mjd o M ds s W R) as D.
  revert D. generalize (emitted mjd o ec_init ds) (ec_out s). induction 1 as [|x d xs out (_ & _ & H) _ IH]; constructor; auto.
Qed.
Print Assumptions C70_once.

(** A whole run comes to its end.  It does not go on after a packet with which
    everything came of whatever had come; it stops before the end of the input
    only if that is so, save for past hours, or the time limit has passed
    without anything new. *)
Theorem C70_run : forall mjd o ps n, sane_mjd mjd -> wires (concat ps) -> steady o (concat ps) -> eo_streaming o = false ->
  (length ps < n)%nat ->
  exists s xs handled rest, FeedPackets (list_source _) (eit_sink mjd o) n ps ec_init = Some (Ok (0, s)) /\
    ps = handled ++ rest /\ first_seen o (concat handled) xs /\ Forall2 (describes mjd) xs (ec_out s) /\
    (forall k, (0 < k < length handled)%nat -> ~ complete o (concat (firstn k handled))) /\
    (rest <> [] -> complete_but_past o (concat handled) \/
                   exists t, passed mjd o (concat handled) t /\ eo_time_limit o <= t).
Proof.
  intros mjd o ps n M W S St Hn. destruct (steady_run mjd o M _ W S) as (sa & Ra & _).
  destruct (loop_ok mjd o ps n ec_init sa Hn Ra) as (s & L).
  assert (Fd : FeedPackets (list_source _) (eit_sink mjd o) n ps ec_init = Some (Ok (0, s))).
  { unfold FeedPackets. cbn [sk_start eit_sink]. rewrite L. reflexivity. }
  destruct (C41_run mjd o ps n 0 s M W St Fd) as (_ & h1 & r1 & E1 & R1 & _ & Q1).
  destruct (C59_run mjd o ps n 0 s W St Fd) as (h2 & r2 & E2 & R2 & K2 & Q2).
  destruct (feed_run mjd o ps n 0 s Fd) as (_ & h & r & E & R & K & Q).
  clear h1 r1 E1 R1 Q1 h2 r2 E2 R2 K2 Q2.
  rewrite E, concat_app in S, W.
  assert (Sh := steady_sub o _ _ S). assert (Wh := wires_sub _ _ W).
  destruct (steady_run mjd o M _ Wh Sh) as (s' & R' & F).
  exists s, (emitted mjd o ec_init (concat h)), h, r. split; [exact Fd|]. split; [exact E|]. split; [exact F|]. split; [|split].
  - pose proof (output_documents mjd o M _ s Wh R) as D.
    revert D. generalize (emitted mjd o ec_init (concat h)) (ec_out s). induction 1 as [|x d xs out (_ & _ & H) _ IH]; constructor; auto.
  - intros k Hk C.
    assert (Hs : concat h = concat (firstn k h) ++ concat (skipn k h)) by (rewrite <- concat_app, firstn_skipn; reflexivity).
    rewrite Hs in Sh, Wh. assert (Sk := steady_sub o _ _ Sh). assert (Wk := wires_sub _ _ Wh).
    destruct (steady_run mjd o M _ Wk Sk) as (sk & Rk & _).
    pose proof (steady_finished mjd o M _ sk Wk Sk C Rk) as Fin. apply (completed_exact mjd o _ sk Wk Rk) in Fin.
    destruct (K k sk Hk Rk) as [X|[X _]]; congruence.
  - intros Hr. destruct Q as [[Q _]|[_ Q]]; [contradiction|].
    destruct (passed_exists mjd o _ _ R) as (t & P). pose proof (passed_elapsed mjd o _ _ _ P R) as T.
    destruct (Z_lt_le_dec t (eo_time_limit o)) as [Lt|Le]; [left|right; eauto].
    apply (steady_all_there mjd o M _ Wh Sh). apply (completed_sound mjd o _ s Wh R).
    destruct (cp_completed (ec_progress s)) eqn:C; [reflexivity|]. exfalso. apply Q. right. split; [exact C|lia].
Qed.
Print Assumptions C70_run.

(** Two tables of a service, with repetitions, packet by packet: the run ends with
    the first packet after which both have come. *)
Definition carousel : list (list delivery) :=
  [[DSection (eit 0x50 1 0 8 0 0x51)]; [DSection (eit 0x50 1 8 8 8 0x51)]; []; [DSection (eit 0x50 1 0 8 0 0x51)];
   [DSection (eit 0x51 2 0 0 0 0x51)]; [DSection (eit 0x50 1 0 8 0 0x51)]].

Lemma carousel_came : forall x, came both (concat carousel) x ->
  x = eit 0x50 1 0 8 0 0x51 \/ x = eit 0x50 1 8 8 8 0x51 \/ x = eit 0x51 2 0 0 0 0x51.
Proof.
  intros x (H & _). unfold carousel in H. cbn [concat app In] in H.
  repeat (destruct H as [H|H]; [injection H as <-; auto|]). destruct H.
Qed.

Lemma carousel_sched : forall k v n l sl, (k = 0x50 \/ k = 0x51) -> schedule both (eit k v n l sl 0x51).
Proof.
  intros k v n l sl K. unfold schedule, both, eit. cbn [sn_valid sn_next sn_payload sn_tid eo_actual eo_others eo_sids eo_xsids].
  do 2 (split; [reflexivity|]). split; [vm_compute; congruence|]. split; [left; split; [lia|reflexivity]|]. split; [auto|intros []].
Qed.

Example C70_case : exists s, sane_mjd dates /\ wires (concat carousel) /\ steady both (concat carousel) /\
  FeedPackets (list_source _) (eit_sink dates both) 7 carousel ec_init = Some (Ok (0, s)) /\
  map ed_number (ec_out s) = [0; 8; 0] /\ map ed_tid (ec_out s) = [0x50; 0x50; 0x51] /\
  ~ complete both (concat (firstn 4 carousel)) /\ complete both (concat (firstn 5 carousel)).
Proof.
  eexists. split; [exact dates_sane|]. split; [unfold carousel; cbn [concat app]; wires_tac|]. split.
  { split.
    - intros x Hx. apply carousel_came in Hx as [-> | [-> | ->]]; apply eit_consistent.
    - intros x y Hx Hy. apply carousel_came in Hx as [-> | [-> | ->]]; apply carousel_came in Hy as [-> | [-> | ->]];
        (split; [intros _; reflexivity|]); split; try reflexivity; try (intros (_ & H); vm_compute in H; discriminate);
        try (intros ((_ & H) & _); vm_compute in H; discriminate). }
  split; [vm_compute; reflexivity|]. do 2 (split; [vm_compute; reflexivity|]). split.
  - intros (_ & C). destruct (C (eit 0x50 1 0 8 0 0x51) 1 0) as (y & (Hy & _) & _ & T & _).
    + split; [cbn; auto|apply carousel_sched; auto].
    + vm_compute. split; congruence.
    + lia.
    + cbn [firstn carousel concat app In] in Hy.
      repeat (destruct Hy as [Hy|Hy]; [injection Hy as <-; vm_compute in T; discriminate|]). destruct Hy.
  - assert (A : forall k v n l sl, In (DSection (eit k v n l sl 0x51)) (concat (firstn 5 carousel)) -> (k = 0x50 \/ k = 0x51) ->
                came both (concat (firstn 5 carousel)) (eit k v n l sl 0x51)).
    { intros k v n l sl H K. split; [exact H|apply carousel_sched, K]. }
    split; [eexists; apply (A 0x50 1 0 8 0); [cbn; auto|auto]|].
    intros x i n Hx Hi Hn.
    assert (X : service_of x = service_of (eit 0x50 1 0 8 0 0x51) /\ sn_tid x mod 16 / 8 = 0 /\ last_of x = 1).
    { assert (Hx' : came both (concat carousel) x).
      { destruct Hx as (Hx & Sx). split; [|exact Sx]. rewrite <- (firstn_skipn 5 carousel), concat_app. apply in_or_app; auto. }
      apply carousel_came in Hx' as [-> | [-> | ->]]; (split; [reflexivity|split; vm_compute; reflexivity]). }
    destruct X as (X1 & X2 & X3). rewrite X3 in Hi. unfold accounted. rewrite X1, X2.
    assert (i = 0 \/ i = 1) as [->| ->] by lia.
    + destruct (Z_lt_le_dec n 8).
      * exists (eit 0x50 1 0 8 0 0x51). split; [apply A; [cbn; auto|auto]|]. do 2 (split; [reflexivity|]).
        destruct (Z.eq_dec n 0) as [-> | N]; [left; reflexivity|]. right. right.
        cbn [sn_number eit]. change (seg_last_of (eit 80 1 0 8 0 81)) with 0.
        rewrite (Z.div_small n), (Z.mod_small n) by lia. change (0 / 8) with 0. change (0 mod 8) with 0. lia.
      * exists (eit 0x50 1 8 8 8 0x51). split; [apply A; [cbn; auto|auto]|]. do 2 (split; [reflexivity|]).
        destruct (Z.eq_dec n 8) as [-> | N]; [left; reflexivity|]. right. unfold denies. cbn [sn_number sn_last eit].
        change (seg_last_of (eit 80 1 8 8 8 81)) with 8. change (8 / 8) with 1. change (8 mod 8) with 0.
        clear - l Hn N. pose proof (Z.div_mod n 8). pose proof (Z.mod_pos_bound n 8). lia.
    + exists (eit 0x51 2 0 0 0 0x51). split; [apply A; [cbn; auto 10|auto]|]. do 2 (split; [reflexivity|]).
      destruct (Z.eq_dec n 0) as [-> | N]; [left; reflexivity|]. right. unfold denies. cbn [sn_number sn_last eit].
      change (seg_last_of (eit 81 2 0 0 0 81)) with 0. change (0 / 8) with 0. change (0 mod 8) with 0.
      clear - Hn N. pose proof (Z.div_mod n 8). pose proof (Z.mod_pos_bound n 8). lia.
Qed.

(** * C71: does the collection wait for everything asked for? *)

(** When it ends before the input and before the time limit, every section of the
    broadcast was output that belongs to a half of the tables of a service of which
    something had come (save for past hours).  Missing for the full claim: services
    asked for of which nothing had come yet. *)
Theorem C71_partial : forall mjd o ps n, sane_mjd mjd -> wires (concat ps) -> steady o (concat ps) -> truthful o (concat ps) ->
  eo_streaming o = false -> (length ps < n)%nat ->
  exists s xs handled rest, FeedPackets (list_source _) (eit_sink mjd o) n ps ec_init = Some (Ok (0, s)) /\
    ps = handled ++ rest /\ Forall2 (describes mjd) xs (ec_out s) /\
    (rest <> [] -> (forall t, passed mjd o (concat handled) t -> t < eo_time_limit o) ->
     forall x, came o (concat ps) x -> (exists y, came o (concat handled) y /\ same_half y x) ->
       In x xs \/ (sn_tid x mod 8 = 0 /\ exists t, In t (tots (concat handled)) /\ sn_number x / 8 < segment_of t)).
Proof.
  intros mjd o ps n M W S Tr St Hn. destruct (C70_run mjd o ps n M W S St Hn) as (s & xs & h & r & Fd & E & F & D & _ & Q).
  exists s, xs, h, r. split; [exact Fd|]. split; [exact E|]. split; [exact D|].
  intros Hr Ht x Cx (y & Cy & (Y1 & Y2)). destruct (Q Hr) as [A|(t & P & L)]; [|specialize (Ht t P); lia].
  assert (Up : forall z, came o (concat h) z -> came o (concat ps) z).
  { intros z (Z1 & Z2). split; [|exact Z2]. rewrite E, concat_app. apply in_or_app; auto. }
  assert (Ly : last_of y = last_of x) by (apply (proj2 S); [apply Up, Cy|exact Cx|split; auto]).
  destruct (Tr x Cx) as (Tx & Dx).
  pose proof (Z.mod_pos_bound (sn_tid x) 8 ltac:(lia)) as B8.
  assert (Wx : wire x) by (apply W, Cx). assert (Bn : 0 <= sn_number x < 256) by apply Wx.
  assert (T16 : sn_tid x mod 16 = sn_tid x mod 16 / 8 * 8 + sn_tid x mod 8).
  { rewrite <- (mod_16_8 (sn_tid x)). pose proof (Z.div_mod (sn_tid x mod 16) 8). lia. }
  destruct (A y (sn_tid x mod 8) (sn_number x) Cy ltac:(lia) Bn) as [(z & Cz & Sz & Tz & Nz)|Past]; [left|right; exact Past].
  rewrite Y2, <- T16 in Tz. apply (first_seen_in o _ _ F).
  destruct Nz as [Nz|Nz].
  - assert (z = x) as <-; [|exact Cz]. apply (proj2 S); [apply Up, Cz|exact Cx|]. split; [split; congruence|exact Nz].
  - exfalso. apply (Dx z (Up z Cz)); [split; congruence|exact Nz].
Qed.
Print Assumptions C71_partial.

(** Asked for services 1 and 2, with service 1 complete before service 2 comes, the
    command ends without any section of service 2, long before the time limit. *)
Definition other_service : section :=
  mkSection true 0x12 0x50 2 1 false 0 0 ([0; 2; 0; 3; 0; 0x50] ++ encode film) [9; 9; 9; 9].
Definition services : list (list delivery) := [[DSection (eit 0x50 1 0 0 0 0x50)]; [DSection other_service]].
Definition one_and_two : eit_option := mkEitOption [1; 2] [] 30000 false true true.

Theorem C71_refuted : exists o ps s, In 1 (eo_sids o) /\ In 2 (eo_sids o) /\ wires (concat ps) /\ steady o (concat ps) /\
  truthful o (concat ps) /\ complete o (concat ps) /\ tots (concat ps) = [] /\ 0 < eo_time_limit o /\ eo_streaming o = false /\
  (exists x, came o (concat ps) x /\ sid_of x = 2) /\
  FeedPackets (list_source _) (eit_sink dates o) 3 ps ec_init = Some (Ok (0, s)) /\
  (forall d, In d (ec_out s) -> ed_sid d = 1).
Proof.
  exists one_and_two, services. eexists.
  assert (C : forall x, came one_and_two (concat services) x <-> x = eit 0x50 1 0 0 0 0x50 \/ x = other_service).
  { intros x. split.
    - intros (H & _). unfold services in H. cbn [concat app In] in H. destruct H as [H|[H|[]]]; injection H as <-; auto.
    - intros [-> | ->]; (split; [cbn; auto|]); unfold schedule, one_and_two, other_service, eit;
        cbn [sn_valid sn_next sn_payload sn_tid eo_actual eo_others eo_sids eo_xsids];
        (do 2 (split; [reflexivity|]); split; [vm_compute; congruence|]; split; [left; split; [lia|reflexivity]|]; split; [right; cbn; auto|intros []]). }
  assert (W2 : wire other_service).
  { destruct (eit_wire 0x50 1 0 0 0 0x50) as (_ & H); [unfold byte; lia..|]. split; [cbn; lia|exact H]. }
  split; [cbn; auto|]. split; [cbn; auto|]. split.
  { intros x H. unfold services in H. cbn [concat app In] in H.
    destruct H as [H|[H|[]]]; injection H as <-; [apply eit_wire; unfold byte; lia|exact W2]. }
  split.
  { split.
    - intros x Hx. apply C in Hx as [-> | ->]; [apply eit_consistent|].
      exists 2, 3, 0, 0x50, [film], []. unfold consists, other_service. cbn [sn_payload].
      split; [cbn [map concat]; rewrite !app_nil_r; reflexivity|]. do 2 (split; [lia|]).
      split; [constructor; [apply film_ok|constructor]|]. reflexivity.
    - intros x y Hx Hy. apply C in Hx as [-> | ->]; apply C in Hy as [-> | ->];
        (split; [intros _; reflexivity|]); (split; [intros _; reflexivity|]); try reflexivity;
        (intros ((H & _) & _); vm_compute in H; discriminate). }
  split.
  { intros x Hx. split.
    - apply C in Hx as [-> | ->]; vm_compute; congruence.
    - intros y Hy _. apply C in Hx as [-> | ->]; apply C in Hy as [-> | ->]; unfold denies; vm_compute;
        (intros [H|[_ H]]; discriminate H). }
  split.
  { split; [exists other_service; apply C; auto|].
    intros x i n Hx Hi Hn. exists x. split; [exact Hx|]. split; [reflexivity|].
    assert (last_of x = 0 /\ sn_tid x = 0x50 /\ sn_number x = 0 /\ sn_last x = 0 /\ seg_last_of x = 0) as (L & T & N & SL & G).
    { apply C in Hx as [-> | ->]; repeat split. }
    rewrite L in Hi. rewrite T. assert (i = 0) as -> by lia. split; [reflexivity|].
    unfold denies. rewrite N, SL, G. change (0 / 8) with 0. change (0 mod 8) with 0.
    clear - Hn. pose proof (Z.div_mod n 8). pose proof (Z.mod_pos_bound n 8). lia. }
  do 3 (split; [reflexivity|]). split; [exists other_service; split; [apply C; auto|reflexivity]|].
  split; [vm_compute; reflexivity|]. intros d [<-|[]]. reflexivity.
Qed.
Print Assumptions C71_refuted.

(** [C71_partial] on the broadcast of [C70_case]: the packet after the fifth is not
    handled, and everything was output. *)
Example C71_case : exists s, truthful both (concat carousel) /\
  FeedPackets (list_source _) (eit_sink dates both) 7 carousel ec_init = Some (Ok (0, s)) /\
  skipn 5 carousel <> [] /\ zlen (ec_out s) = 3.
Proof.
  eexists. split.
  { intros x Hx. split.
    - apply carousel_came in Hx as [-> | [-> | ->]]; vm_compute; congruence.
    - intros y Hy (_ & H). apply carousel_came in Hx as [-> | [-> | ->]]; apply carousel_came in Hy as [-> | [-> | ->]];
        try (vm_compute in H; discriminate H); unfold denies; vm_compute; (intros [D|[D1 D2]]; discriminate). }
  split; [vm_compute; reflexivity|]. split; [discriminate|vm_compute; reflexivity].
Qed.
