(** Stream time and the end of collect-eits. *)
From Coq Require Import ZArith List Bool Lia.
From Verif Require Import Base.Outcome Base.Util Model.Sink Model.EitSection Model.EitCollector
  Proofs.EitSectionProofs Proofs.EitProofs Proofs.EitMain Proofs.EitClaims Spec.EitSpec.
Import ListNotations.
Open Scope Z_scope.

Section Time.
Variable mjd : list Z -> option Z.
Variable o : eit_option.

Lemma last_tot_app : forall a b, last_tot (a ++ b) =
  match last_tot b with Some t => Some t | None => last_tot a end.
Proof.
  intros a b. unfold last_tot. rewrite tots_app, rev_app_distr.
  destruct (rev (tots b)); reflexivity.
Qed.

Lemma last_tot_none : forall ds, last_tot ds = None <-> tots ds = [].
Proof.
  intros ds. unfold last_tot. destruct (rev (tots ds)) as [|t r] eqn:E.
  - split; auto. intros _. rewrite <- (rev_involutive (tots ds)), E. reflexivity.
  - split; [discriminate|]. intros H. rewrite H in E. discriminate.
Qed.

Lemma run_time : forall ds s, ec_deliver_all mjd o ec_init ds = Ok s ->
  ec_has_timestamp s = (match tots ds with [] => false | _ => true end) /\
  ec_timestamp s = match last_tot ds with Some t => t | None => 0 end.
Proof.
  intros ds s H. destruct (rinv_run _ _ _ _ H) as (es & I).
  split; [exact (ri_has _ _ _ _ _ I)|exact (ri_time _ _ _ _ _ I)].
Qed.

(** While nothing is output and a TOT was seen before, the mark stays. *)
Lemma quiet_mark : forall b s s', ec_deliver_all mjd o s b = Ok s' -> emitted mjd o s b = [] ->
  ec_has_timestamp s = true -> ec_last_updated s' = ec_last_updated s.
Proof.
  induction b as [|d b IH]; intros s s' H E T.
  - cbn in H. congruence.
  - cbn [ec_deliver_all] in H. apply bind_ok in H as (s1 & H1 & H2).
    cbn [emitted] in E. rewrite H1 in E. apply app_eq_nil in E as [E1 E2].
    destruct d as [x|t].
    + assert (s1 = s).
      { apply (quiet_progress mjd o s x s1 H1). cbn [emitted]. rewrite H1, E1. reflexivity. }
      subst s1. eauto.
    + cbn [ec_deliver] in H1. injection H1 as <-. destruct t as [t|]; cbn [ec_HandleTot] in *; [|eauto].
      rewrite (IH _ _ H2 E2 eq_refl). cbn [ec_last_updated]. rewrite T. reflexivity.
Qed.

Lemma no_tot_mark : forall ds s, ec_deliver_all mjd o ec_init ds = Ok s -> tots ds = [] ->
  ec_last_updated s = 0.
Proof.
  intros ds. induction ds as [|d ds IH] using rev_ind; intros s H T.
  - cbn in H. injection H as <-. reflexivity.
  - destruct (deliver_all_snoc _ _ _ _ _ _ H) as (s1 & H1 & H2).
    rewrite tots_app in T. apply app_eq_nil in T as [T1 T2].
    destruct (run_time _ _ H1) as [_ Ht]. rewrite (proj2 (last_tot_none ds) T1) in Ht.
    destruct (emitted_one _ _ _ _ _ H2) as [(E & _)|(x & e & doc & -> & E & W & He & Hc & Hd & ->)].
    + destruct d as [x|[t|]]; [|discriminate|].
      * rewrite (quiet_progress _ _ _ _ _ H2 E). auto.
      * cbn in H2. injection H2 as <-. auto.
    + cbn [ec_last_updated]. exact Ht.
Qed.

Lemma passed_elapsed : forall ds t s, passed mjd o ds t -> ec_deliver_all mjd o ec_init ds = Ok s ->
  ec_timestamp s - ec_last_updated s = t.
Proof.
  intros ds t s P H. destruct (run_time _ _ H) as [_ Ht].
  inversion P as [ds' T|a x b sa s1 ref now Ha Hem H1 Hq Hla Hln|a b s1 ref now Ta H1 Hq Hln]; subst.
  - rewrite Ht, (proj2 (last_tot_none ds) T). rewrite (no_tot_mark _ _ H T). reflexivity.
  - rewrite Hln in Ht. rewrite Ht. f_equal.
    rewrite deliver_all_app, Ha in H. cbn [bind ec_deliver_all] in H. rewrite H1 in H. cbn [bind] in H.
    destruct (run_time _ _ Ha) as [Hh Hta]. rewrite Hla in Hta.
    destruct (emitted_one _ _ _ _ _ H1) as [(E & _)|(x' & e & doc & _ & E & W & He & Hc & Hd & ->)];
      [rewrite E in Hem; discriminate|].
    rewrite (quiet_mark _ _ _ H Hq).
    + cbn [ec_last_updated]. exact Hta.
    + cbn [ec_has_timestamp]. rewrite Hh. destruct (tots a) eqn:T; [|reflexivity].
      apply last_tot_none in T. congruence.
  - rewrite Hln in Ht. rewrite Ht. f_equal.
    change (a ++ DTot (Some ref) :: b) with (a ++ [DTot (Some ref)] ++ b) in H.
    rewrite app_assoc, deliver_all_app, H1 in H. cbn [bind] in H.
    destruct (deliver_all_snoc _ _ _ _ _ _ H1) as (s0 & H0 & H2).
    cbn [ec_deliver] in H2. injection H2 as <-. destruct (run_time _ _ H0) as [Hh _]. rewrite Ta in Hh.
    rewrite (quiet_mark _ _ _ H Hq); [|reflexivity].
    cbn [ec_HandleTot ec_last_updated]. rewrite Hh. reflexivity.
Qed.

Lemma emitted_snoc_nil : forall b d s s1, ec_deliver_all mjd o s b = Ok s1 ->
  emitted mjd o s b = [] -> emitted mjd o s1 [d] = [] -> emitted mjd o s (b ++ [d]) = [].
Proof. intros b d s s1 H E1 E2. rewrite (emitted_app _ _ _ _ _ _ H), E1, E2. reflexivity. Qed.

(** The elapsed time is always defined. *)
Lemma passed_exists : forall ds s, ec_deliver_all mjd o ec_init ds = Ok s -> exists t, passed mjd o ds t.
Proof.
  intros ds. induction ds as [|d ds IH] using rev_ind; intros s H.
  - exists 0. apply passed_none. reflexivity.
  - destruct (deliver_all_snoc _ _ _ _ _ _ H) as (s1 & H1 & H2).
    destruct (IH _ H1) as (t & P).
    destruct (emitted_one _ _ _ _ _ H2) as [(E & _)|(x & e & doc & -> & E & W & He & Hc & Hd & Hs)].
    + (* nothing output by d *)
      inversion P as [ds' T|a x b sa sx ref now Ha Hem Hx Hq Hla Hln|a b sx ref now Ta Hx Hq Hln]; subst.
      * destruct d as [x|[t'|]].
        -- exists 0. apply passed_none. rewrite tots_app, T. reflexivity.
        -- exists (t' - t'). apply (passed_first mjd o ds [] s); auto.
           rewrite last_tot_app. reflexivity.
        -- exists 0. apply passed_none. rewrite tots_app, T. reflexivity.
      * assert (N : exists now', last_tot ((a ++ DSection x :: b) ++ [d]) = Some now').
        { rewrite last_tot_app. destruct (last_tot [d]); eauto. }
        destruct N as (now' & N). exists (now' - ref).
        rewrite <- app_assoc in *. cbn [app] in *.
        apply (passed_output mjd o a x (b ++ [d]) sa sx); auto.
        assert (R : exists sb, ec_deliver_all mjd o sx b = Ok sb /\ sb = s1).
        { rewrite deliver_all_app, Ha in H1. cbn [bind ec_deliver_all] in H1. rewrite Hx in H1. cbn [bind] in H1. eauto. }
        destruct R as (sb & R & ->). apply emitted_snoc_nil with s1; auto.
      * assert (N : exists now', last_tot ((a ++ DTot (Some ref) :: b) ++ [d]) = Some now').
        { rewrite last_tot_app. destruct (last_tot [d]); eauto. }
        destruct N as (now' & N). exists (now' - ref).
        rewrite <- app_assoc in *. cbn [app] in *.
        apply (passed_first mjd o a (b ++ [d]) sx); auto.
        assert (R : ec_deliver_all mjd o sx b = Ok s1).
        { change (a ++ DTot (Some ref) :: b) with (a ++ [DTot (Some ref)] ++ b) in H1.
          rewrite app_assoc, deliver_all_app, Hx in H1. exact H1. }
        apply emitted_snoc_nil with s1; auto.
    + destruct (last_tot ds) as [ref|] eqn:L.
      * exists (ref - ref). apply (passed_output mjd o ds x [] s1 s ref ref); auto.
        rewrite last_tot_app. cbn. exact L.
      * exists 0. apply passed_none. apply last_tot_none in L. rewrite tots_app, L. reflexivity.
Qed.

(** * Running over packets *)

Lemma handle_packet : forall s p s' go, ec_HandlePacket mjd o s p = Ok (s', go) ->
  ec_deliver_all mjd o s p = Ok s' /\
  go = negb (negb (eo_streaming o) &&
             (cp_completed (ec_progress s') || (eo_time_limit o <=? ec_timestamp s' - ec_last_updated s'))).
Proof.
  intros s p s' go H. unfold ec_HandlePacket in H. apply bind_ok in H as (s1 & H1 & H2).
  unfold ec_IsCompleted, ec_CheckTimeout in H2.
  destruct (eo_streaming o); cbn [negb andb].
  - injection H2 as <- <-. auto.
  - destruct (cp_completed (ec_progress s1)) eqn:C.
    + injection H2 as <- <-. rewrite C. auto.
    + destruct (eo_time_limit o <=? ec_timestamp s1 - ec_last_updated s1) eqn:L;
        injection H2 as <- <-; rewrite C, L; auto.
Qed.

(** The condition for going on after the deliveries of the packets [ps]. *)
Definition goes (s : eit_state) : Prop :=
  eo_streaming o = true \/
  (cp_completed (ec_progress s) = false /\ ec_timestamp s - ec_last_updated s < eo_time_limit o).

Lemma goes_iff : forall s, goes s <->
  negb (negb (eo_streaming o) &&
        (cp_completed (ec_progress s) || (eo_time_limit o <=? ec_timestamp s - ec_last_updated s))) = true.
Proof.
  intros s. unfold goes.
  destruct (eo_streaming o); destruct (cp_completed (ec_progress s));
    destruct (Z.leb_spec (eo_time_limit o) (ec_timestamp s - ec_last_updated s)); cbn [negb andb orb];
    (split; [intros [X|[X1 X2]]; try discriminate; try lia; reflexivity|intros X; try discriminate; auto]).
Qed.

Lemma loop_run : forall ps n s s', feed_loop (list_source _) (eit_sink mjd o) n ps s = Some (Ok s') ->
  exists handled rest, ps = handled ++ rest /\
    ec_deliver_all mjd o s (concat handled) = Ok s' /\
    (forall k sk, (0 < k < length handled)%nat ->
       ec_deliver_all mjd o s (concat (firstn k handled)) = Ok sk -> goes sk) /\
    ((rest = [] /\ (handled = [] \/ goes s')) \/ (handled <> [] /\ ~ goes s')).
Proof.
  induction ps as [|p ps IH]; intros n s s' H; (destruct n as [|n]; [discriminate|]); cbn [feed_loop sr_next list_source] in H.
  - injection H as <-. exists [], []. cbn. do 2 (split; [reflexivity|]). split; [intros; lia|auto].
  - change (sk_handle (eit_sink mjd o) s p) with (ec_HandlePacket mjd o s p) in H.
    destruct (ec_HandlePacket mjd o s p) as [[s1 go]|] eqn:E; [|discriminate].
    destruct (handle_packet _ _ _ _ E) as [R G].
    destruct go.
    + symmetry in G. apply goes_iff in G.
      destruct (IH _ _ _ H) as (handled & rest & -> & R2 & K & Q).
      exists (p :: handled), rest. split; [reflexivity|].
      split; [cbn [concat]; rewrite deliver_all_app, R; exact R2|].
      split.
      * intros k sk Hk Hr. destruct k as [|k]; [lia|]. cbn [firstn concat] in Hr.
        rewrite deliver_all_app, R in Hr. cbn [bind] in Hr.
        destruct k as [|k].
        -- cbn in Hr. injection Hr as <-. exact G.
        -- apply (K (S k)); [cbn in Hk; lia|exact Hr].
      * destruct Q as [[-> [->|Q]]|[Q1 Q2]].
        -- left. split; auto. right. cbn in R2. injection R2 as <-. exact G.
        -- left. auto.
        -- right. split; [discriminate|auto].
    + injection H as <-. symmetry in G.
      exists [p], ps. split; [reflexivity|]. split; [cbn [concat]; rewrite app_nil_r; exact R|].
      split; [cbn; intros; lia|]. right. split; [discriminate|].
      intros X. apply goes_iff in X. congruence.
Qed.

Lemma feed_run : forall ps n code s,
  FeedPackets (list_source _) (eit_sink mjd o) n ps ec_init = Some (Ok (code, s)) ->
  code = 0 /\ exists handled rest, ps = handled ++ rest /\
    ec_deliver_all mjd o ec_init (concat handled) = Ok s /\
    (forall k sk, (0 < k < length handled)%nat ->
       ec_deliver_all mjd o ec_init (concat (firstn k handled)) = Ok sk -> goes sk) /\
    ((rest = [] /\ (handled = [] \/ goes s)) \/ (handled <> [] /\ ~ goes s)).
Proof.
  intros ps n code s H. unfold FeedPackets in H. cbn [sk_start eit_sink] in H.
  destruct (feed_loop (list_source _) (eit_sink mjd o) n ps ec_init) as [[s1|]|] eqn:E; try discriminate.
  cbn in H. injection H as <- <-. split; [reflexivity|]. eapply loop_run. exact E.
Qed.

End Time.
