From Coq Require Import ZArith Lia List Bool.
From Verif Require Import Base.Outcome Base.Util Model.Sink Model.Ts Model.ServiceFilter Spec.FilterSpec Proofs.FeedProofs.
Import ListNotations.
Open Scope Z_scope.

(** ** Looking a service up *)
Lemma latest_mfind : forall V (l : list (Z * V)) k,
  latest (fun e => if fst e =? k then Some (snd e) else None) l = mfind k l.
Proof.
  induction l as [|[a b] l IH]; intros k; cbn; auto.
  rewrite IH. rewrite (Z.eqb_sym a k). destruct (k =? a); auto.
Qed.

Lemma mfind_filter_nz : forall V (l : list (Z * V)) k, k <> 0 ->
  mfind k (filter (fun e => negb (fst e =? 0)) l) = mfind k l.
Proof.
  induction l as [|[a b] l IH]; intros k Hk; cbn; auto.
  destruct (Z.eqb_spec a 0); cbn.
  - subst. destruct (Z.eqb_spec k 0); [lia|]. auto.
  - rewrite IH by auto. reflexivity.
Qed.

Lemma mfind_filter_0 : forall V (l : list (Z * V)),
  mfind 0 (filter (fun e => negb (fst e =? 0)) l) = None.
Proof.
  induction l as [|[a b] l IH]; cbn; auto. destruct (Z.eqb_spec a 0); cbn; auto.
  destruct (Z.eqb_spec 0 a); [lia|auto].
Qed.

Lemma filter_rev : forall A (f : A -> bool) l, filter f (rev l) = rev (filter f l).
Proof.
  induction l as [|x l IH]; cbn; auto. rewrite filter_app, IH. cbn. destruct (f x); cbn; auto. apply app_nil_r.
Qed.

Lemma pmts_find : forall sid t, mfind sid (pat_pmts t) = pmt_pid_of sid t.
Proof.
  intros. unfold pat_pmts, pmt_pid_of. rewrite mfind_map_of, <- filter_rev.
  destruct (Z.eqb_spec sid 0).
  - subst. apply mfind_filter_0.
  - rewrite mfind_filter_nz by auto. rewrite latest_mfind. reflexivity.
Qed.

Lemma filter_sorted_none : forall V (m : list (Z * V)) lo k, msorted lo m -> k <= lo ->
  filter (fun e => fst e =? k) m = [].
Proof.
  induction m as [|[a b] m IH]; intros lo k H Hk; cbn in *; auto.
  destruct H. destruct (Z.eqb_spec a k); [lia|]. apply IH with a; auto; lia.
Qed.

Lemma filter_map_single : forall V (m : list (Z * V)) k v, is_map m -> mfind k m = Some v ->
  filter (fun e => fst e =? k) m = [(k, v)].
Proof.
  intros V m k v H. apply is_map_msorted in H as [lo H]. revert lo H.
  induction m as [|[a b] m IH]; intros lo H E; cbn in *; [discriminate|].
  destruct H as [H1 H2]. destruct (Z.eqb_spec k a).
  - subst. rewrite Z.eqb_refl. inversion E; subst. f_equal. apply filter_sorted_none with a; auto. lia.
  - destruct (Z.eqb_spec a k); [lia|]. apply IH with a; auto.
Qed.

Lemma pmts_single : forall sid t v, mfind sid (pat_pmts t) = Some v ->
  filter (fun e => fst e =? sid) (pat_pmts t) = [(sid, v)].
Proof. intros. apply filter_map_single; auto. apply map_of_is_map. Qed.

Lemma In_map_of_fst : forall V (l : list (Z * V)) k, In k (map fst (map_of l)) <-> In k (map fst l).
Proof.
  intros. split; intros H.
  - apply in_map_iff in H as [[a b] [E H]]. cbn in E. subst. apply In_map_of_mfind in H. rewrite mfind_map_of in H.
    assert (G : forall (m : list (Z * V)), mfind k m = Some b -> In k (map fst m)).
    { induction m as [|[c d] m IH]; cbn; [discriminate|]. destruct (Z.eqb_spec k c); auto. }
    apply G in H. rewrite map_rev in H. apply in_rev in H. auto.
  - assert (G : forall (m : list (Z * V)), In k (map fst m) -> exists v, mfind k m = Some v).
    { induction m as [|[c d] m IH]; cbn; [tauto|]. destruct (Z.eqb_spec k c); eauto. intros [|]; [lia|auto]. }
    destruct (G (rev l)) as [v Hv]. { rewrite map_rev. apply -> in_rev. auto. }
    rewrite <- mfind_map_of in Hv. apply In_map_of_mfind in Hv. apply in_map_iff. exists (k, v). auto.
Qed.

Lemma In_fold_zadd : forall l f x, In x (fold_left (fun f pid => zadd pid f) l f) <-> In x l \/ In x f.
Proof.
  induction l as [|a l IH]; intros f x; cbn; [tauto|]. rewrite IH, In_zadd. intuition.
Qed.

Lemma fold_fst : forall V (l : list (Z * V)) f,
  fold_left (fun f e => zadd (fst e) f) l f = fold_left (fun f pid => zadd pid f) (map fst l) f.
Proof. induction l as [|a l IH]; intros; cbn; auto. Qed.

(** ** The state as a function of the history *)
Section Sf.
Variable stage : nat.
Variable opt : service_filter_option.
Notation sid := (sfo_sid opt).
Notation limit := (sfo_time_limit opt).

Definition silent (h : history) : Prop := limit = None -> forall x, In x h -> a_tot x = None.

Record sf_rel (h : history) (s : sf_state) : Prop := mkSfRel {
  R_demux : forall pid, In pid (sf_demux s) <-> listens sid limit h pid;
  R_pat : sf_pat s = match latest (listing sid) h with Some (t, pid) => Some (only_service sid t pid) | None => None end;
  R_psi : forall pid, In pid (sf_psi s) <->
    exists t pmt_pid, latest (listing sid) h = Some (t, pmt_pid) /\ (In pid si_pids \/ pid = pmt_pid);
  R_content : forall pid, In pid (sf_content s) <->
    exists m, latest (service_pmt sid) h = Some m /\
     (pid = pmt_pcr_pid m \/ In pid (pmt_ca_pids m) \/ In pid (map fst (pmt_entries m)));
  R_emm : forall pid, In pid (sf_emm s) <-> exists c, latest a_cat h = Some c /\ In pid (cat_ca_pids c);
  R_pid : sf_pmt_pid s = match latest (listing sid) h with Some (_, pid) => pid | None => PID_NULL end;
  R_done : sf_done s = true <-> over sid limit h;
  R_error : sf_error s = true <-> exists x, In x h /\ missing sid x = true }.

Lemma latest_some_in : forall A B (f : A -> option B) h v, latest f h = Some v -> exists x, In x h /\ f x = Some v.
Proof.
  induction h as [|x h IH]; cbn; [discriminate|]. intros v H. destruct (f x) eqn:E.
  - inversion H; subst. eauto.
  - destruct (IH _ H) as [y [? ?]]. eauto.
Qed.

Lemma latest_none : forall A B (f : A -> option B) h, latest f h = None <-> forall x, In x h -> f x = None.
Proof.
  induction h as [|x h IH]; cbn; [split; auto; tauto|]. destruct (f x) eqn:E.
  - split; [discriminate|]. intros H. rewrite (H x) in E; auto.
  - rewrite IH. split; [intros H y [->|Hy]; auto|auto].
Qed.

Lemma rel_init : sf_rel [] (sf_init opt).
Proof.
  constructor; cbn; try reflexivity.
  - intros pid. unfold listens. cbn.
    assert (A : In pid (match limit with Some _ => zadd PID_TOT (zadd PID_CAT (zadd PID_PAT [])) | None => zadd PID_CAT (zadd PID_PAT []) end)
      <-> (pid = 0 \/ pid = 1 \/ pid = 20 /\ limit <> None)).
    { destruct limit; rewrite ?In_zadd; cbn; unfold PID_TOT, PID_CAT, PID_PAT; intuition congruence. }
    rewrite A. split.
    + intros H. right. left. split; auto. intros [x [t [[] _]]].
    + intros [[t H]|[[H _]|[_ [x [t [[] _]]]]]]; [discriminate|auto].
  - intros pid. split; [tauto|]. intros [t [q [H _]]]. discriminate.
  - intros pid. split; [tauto|]. intros [t [H _]]. discriminate.
  - intros pid. split; [tauto|]. intros [t [H _]]. discriminate.
  - unfold over. split; [discriminate|]. intros [[x [[] _]]|[x [t [l [[] _]]]]].
  - split; [discriminate|]. intros [x [[] _]].
Qed.

(** A table that says nothing leaves the state as it is. *)
Lemma rel_mute : forall h s x, sf_rel h s ->
  listing sid x = None -> missing sid x = false -> service_pmt sid x = None -> a_cat x = None ->
  (forall t l, a_tot x = Some t -> limit = Some l -> t < l) -> sf_rel (x :: h) s.
Proof.
  intros h s x [H1 H2 H3 H4 H5 H6 H7 H8] L M P C T. constructor.
  - intros pid. rewrite H1. unfold listens. cbn. rewrite L.
    assert (Q : (exists x0 t, (x = x0 \/ In x0 h) /\ listing sid x0 = Some (t, pid)) <-> (exists x0 t, In x0 h /\ listing sid x0 = Some (t, pid))).
    { split; [intros [y [t [[->|Hy] E]]]; [congruence|eauto]|intros [y [t [Hy E]]]; eauto]. }
    rewrite Q. reflexivity.
  - cbn. rewrite L. auto.
  - cbn. rewrite L. auto.
  - cbn. rewrite P. auto.
  - cbn. rewrite C. auto.
  - cbn. rewrite L. auto.
  - rewrite H7. unfold over. split.
    + intros [[y [Hy E]]|[y [t [l [Hy E]]]]]; [left; exists y; cbn; auto|right; exists y, t, l; cbn; tauto].
    + intros [[y [[<-|Hy] E]]|[y [t [l [[<-|Hy] [E1 [E2 E3]]]]]]]; try congruence.
      * left. eauto.
      * specialize (T _ _ E1 E2). lia.
      * right. exists y, t, l. auto.
  - rewrite H8. split; [intros [y [Hy E]]; exists y; cbn; auto|]. intros [y [[<-|Hy] E]]; [congruence|eauto].
Qed.

Lemma listing_usable : forall x, listing sid x = None -> missing sid x = false -> usable_pat x = None.
Proof. intros x. unfold listing, missing. destruct (usable_pat x); auto. destruct (pmt_pid_of sid p); discriminate. Qed.

Lemma rel_table : forall h s pid tb, sf_rel h s ->
  match a_tot (pid, tb_body tb), limit with
  | Some _, None => sf_handleTable opt s pid tb = Fail Uncaught
  | _, _ => exists s', sf_handleTable opt s pid tb = Ok s' /\ sf_rel ((pid, tb_body tb) :: h) s'
  end.
Proof.
  intros h s pid tb R. pose proof R as [H1 H2 H3 H4 H5 H6 H7 H8]. unfold sf_handleTable.
  destruct (tb_body tb) as [t|t|t|t|t|t|t|]; cbn [a_tot snd].
  - (* PAT *)
    cut (exists s', sf_HandlePat opt s pid t = Ok s' /\ sf_rel ((pid, TPat t) :: h) s'); [destruct limit; auto|].
    unfold sf_HandlePat. change PID_PAT with 0.
    destruct (Z.eqb_spec pid 0) as [->|Hp]; cbn [negb].
    2:{ exists s. split; auto. apply rel_mute; auto; try discriminate; unfold listing, missing, usable_pat;
        destruct t; auto; destruct (Z.eqb_spec pid 0); auto; lia. }
    destruct t as [t|]; [|exists s; split; auto; apply rel_mute; auto; discriminate].
    destruct (Z.eqb_spec (pat_tsid t) 0) as [Ht|Ht].
    { exists s. split; auto. apply rel_mute; auto; try discriminate; unfold listing, missing, usable_pat; cbn; rewrite Ht; auto. }
    assert (U : usable_pat (0, TPat (Some t)) = Some t).
    { cbn. destruct (Z.eqb_spec (pat_tsid t) 0); [lia|auto]. }
    destruct (mfind sid (pat_pmts t)) as [np|] eqn:E.
    + cbv zeta. rewrite (pmts_single _ _ _ E). cbn [mfind fst]. rewrite (Z.eqb_refl sid).
      change (zlen [(sid, np)] =? 1) with true. cbn [assert].
      eexists; split; [reflexivity|].
      assert (L : listing sid (0, TPat (Some t)) = Some (t, np)).
      { unfold listing. rewrite U, <- pmts_find, E. auto. }
      assert (M : missing sid (0, TPat (Some t)) = false).
      { unfold missing. rewrite U, <- pmts_find, E. auto. }
      constructor; cbn [sf_demux sf_pat sf_psi sf_content sf_emm sf_pmt_pid sf_done sf_error latest];
        rewrite ?L; auto.
      * intros p. rewrite In_zadd.
        assert (A : In p (if negb (sf_pmt_pid s =? PID_NULL) then zrem (sf_pmt_pid s) (sf_demux s) else sf_demux s) <->
                    ((sf_pmt_pid s <> PID_NULL -> p <> sf_pmt_pid s) /\ listens sid limit h p)).
        { destruct (Z.eqb_spec (sf_pmt_pid s) PID_NULL); cbn [negb]; rewrite ?In_zrem, H1; tauto. }
        rewrite A. clear A. rewrite H6. unfold listens at 2. cbn [latest]. rewrite L. cbn [In].
        assert (Q : (exists x t', ((0, TPat (Some t)) = x \/ In x h) /\ listing sid x = Some (t', p)) <->
                    (p = np \/ exists x t', In x h /\ listing sid x = Some (t', p))).
        { split.
          - intros [x [t' [[<-|Hx] Ex]]]; [left; congruence|right; eauto].
          - intros [->|[x [t' [Hx Ex]]]]; eauto. }
        rewrite Q. clear Q. unfold listens. unfold PID_NULL.
        destruct (Z.eq_dec p np) as [->|Hnp].
        { split; [intros _; left; eauto|auto]. }
        assert (N : (exists t0, Some (t, np) = Some (t0, p)) <-> False) by (split; [intros [? ?]; congruence|tauto]).
        rewrite N. clear N.
        destruct (latest (listing sid) h) as [[t0 p0]|] eqn:El.
        -- destruct (latest_some_in _ _ _ _ _ El) as [x0 [Hx0 Ex0]].
           split.
           ++ intros [?|[K [[t' K1]|[K1|K1]]]]; try lia; [|tauto|tauto].
              assert (Ep : p = p0) by congruence. destruct (Z.eq_dec p0 0x1FFF) as [Ez|Ez]; [|tauto].
              right; right. split; [lia|]. right. rewrite Ep. eauto.
           ++ intros [[]|[[K1 K2]|[K1 K2]]]; right.
              ** split; [|tauto]. intros _ ->. apply K2. right. eauto.
              ** split; [intros Q ->; lia|]. right. right. split; auto. destruct K2; [lia|auto].
        -- assert (Nn : ~ exists x t', In x h /\ listing sid x = Some (t', p)).
           { intros [x [t' [Hx Ex]]]. rewrite (proj1 (latest_none _ _ _ _) El x Hx) in Ex. discriminate. }
           split.
           ++ intros [?|[K [[t' K1]|[K1|K1]]]]; try lia; try discriminate; tauto.
           ++ intros [[]|[[K1 K2]|[K1 K2]]]; right; (split; [intros K; exfalso; apply K; reflexivity|]); tauto.
      * intros p. rewrite !In_zadd. unfold PID_PAT, PID_CAT, PID_NIT, PID_SDT, PID_EIT, PID_RST, PID_TOT, PID_BIT, PID_CDT.
        cbn [In]. unfold si_pids. cbn [In].
        split.
        -- intros K. exists t, np. split; auto. intuition.
        -- intros [t' [q [Eq K]]]. inversion Eq; subst. intuition.
      * rewrite H7. unfold over. cbn [In]. split.
        -- intros [[y [Hy Ey]]|[y [t' [l [Hy Ey]]]]]; [left; eauto|right; exists y, t', l; tauto].
        -- intros [[y [[<-|Hy] Ey]]|[y [t' [l [[<-|Hy] [E1 [E2 E3]]]]]]]; try congruence; try discriminate.
           ++ left; eauto.
           ++ right; exists y, t', l; auto.
      * rewrite H8. cbn [In]. split; [intros [y [Hy Ey]]; eauto|]. intros [y [[<-|Hy] Ey]]; [congruence|eauto].
    + eexists; split; [reflexivity|].
      assert (L : listing sid (0, TPat (Some t)) = None).
      { unfold listing. rewrite U, <- pmts_find, E. auto. }
      assert (M : missing sid (0, TPat (Some t)) = true).
      { unfold missing. rewrite U, <- pmts_find, E. auto. }
      constructor; cbn [sf_demux sf_pat sf_psi sf_content sf_emm sf_pmt_pid sf_done sf_error latest];
        rewrite ?L; auto.
      * intros p. rewrite H1. unfold listens. cbn [latest In]. rewrite L.
        assert (Q : (exists x t', ((0, TPat (Some t)) = x \/ In x h) /\ listing sid x = Some (t', p)) <->
                    (exists x t', In x h /\ listing sid x = Some (t', p))).
        { split; [intros [x [t' [[<-|Hx] Ex]]]; [congruence|eauto]|intros [x [t' [Hx Ex]]]; eauto]. }
        rewrite Q. reflexivity.
      * split; auto. intros _. left. exists (0, TPat (Some t)). cbn [In]. auto.
      * split; auto. intros _. exists (0, TPat (Some t)). cbn [In]. auto.
  - (* CAT *)
    cut (exists s', sf_HandleCat s t = Ok s' /\ sf_rel ((pid, TCat t) :: h) s'); [destruct limit; auto|].
    unfold sf_HandleCat. destruct t as [t|]; [|exists s; split; auto; apply rel_mute; auto; discriminate].
    eexists; split; [reflexivity|].
    assert (G : sf_rel ((pid, TCat None) :: h) s) by (apply rel_mute; auto; discriminate).
    destruct G as [G1 G2 G3 G4 G5 G6 G7 G8]. constructor; cbn [sf_demux sf_pat sf_psi sf_content sf_emm sf_pmt_pid sf_done sf_error].
    + intros p. rewrite G1. unfold listens. cbn [latest listing usable_pat In].
      assert (Q : forall b, (exists x t', ((pid, TCat b) = x \/ In x h) /\ listing sid x = Some (t', p)) <-> (exists x t', In x h /\ listing sid x = Some (t', p))).
      { intros b. split; [intros [x [t' [[<-|Hx] Ex]]]; [discriminate|eauto]|intros [x [t' [Hx Ex]]]; eauto]. }
      rewrite !Q. reflexivity.
    + exact G2.
    + exact G3.
    + exact G4.
    + intros p. rewrite In_fold_zadd. cbn. split; [intros [K|[]]; eauto|]. intros [c [E K]]. inversion E; subst. auto.
    + exact G6.
    + rewrite H7. unfold over. cbn [In]. split.
      * intros [[y [Hy Ey]]|[y [t' [l [Hy Ey]]]]]; [left; eauto|right; exists y, t', l; tauto].
      * intros [[y [[<-|Hy] Ey]]|[y [t' [l [[<-|Hy] [E1 [E2 E3]]]]]]]; try discriminate.
        -- left; eauto.
        -- right; exists y, t', l; auto.
    + rewrite H8. cbn [In]. split; [intros [y [Hy Ey]]; eauto|]. intros [y [[<-|Hy] Ey]]; [discriminate|eauto].
  - (* PMT *)
    cut (exists s', sf_HandlePmt opt s t = Ok s' /\ sf_rel ((pid, TPmt t) :: h) s'); [destruct limit; auto|].
    unfold sf_HandlePmt. destruct t as [t|]; [|exists s; split; auto; apply rel_mute; auto; discriminate].
    destruct (Z.eqb_spec (pmt_sid t) sid) as [Es|Es]; cbn [negb].
    2:{ exists s. split; auto. apply rel_mute; auto; try discriminate. unfold service_pmt. cbn.
        destruct (Z.eqb_spec (pmt_sid t) sid); [lia|auto]. }
    eexists; split; [reflexivity|].
    assert (G : sf_rel ((pid, TPmt None) :: h) s) by (apply rel_mute; auto; discriminate).
    destruct G as [G1 G2 G3 G4 G5 G6 G7 G8]. constructor; cbn [sf_demux sf_pat sf_psi sf_content sf_emm sf_pmt_pid sf_done sf_error].
    + intros p. rewrite G1. unfold listens. cbn [latest listing usable_pat In].
      assert (Q : forall b, (exists x t', ((pid, TPmt b) = x \/ In x h) /\ listing sid x = Some (t', p)) <-> (exists x t', In x h /\ listing sid x = Some (t', p))).
      { intros b. split; [intros [x [t' [[<-|Hx] Ex]]]; [discriminate|eauto]|intros [x [t' [Hx Ex]]]; eauto]. }
      rewrite !Q. reflexivity.
    + exact G2.
    + exact G3.
    + intros p. rewrite fold_fst, !In_fold_zadd, In_zadd. unfold pmt_streams. rewrite In_map_of_fst.
      cbn [latest]. unfold service_pmt at 1. cbn [snd]. destruct (Z.eqb_spec (pmt_sid t) sid); [|lia].
      split; [intros K; exists t; cbn in K; split; auto; tauto|]. intros [m [E K]]. inversion E; subst. tauto.
    + exact G5.
    + exact G6.
    + rewrite H7. unfold over. cbn [In]. split.
      * intros [[y [Hy Ey]]|[y [t' [l [Hy Ey]]]]]; [left; eauto|right; exists y, t', l; tauto].
      * intros [[y [[<-|Hy] Ey]]|[y [t' [l [[<-|Hy] [E1 [E2 E3]]]]]]]; try discriminate.
        -- left; eauto.
        -- right; exists y, t', l; auto.
    + rewrite H8. cbn [In]. split; [intros [y [Hy Ey]]; eauto|]. intros [y [[<-|Hy] Ey]]; [discriminate|eauto].
  - (* EIT *)
    destruct limit; exists s; split; auto; apply rel_mute; auto; discriminate.
  - (* TOT *)
    destruct t as [time|]; cbn [sf_HandleTot].
    2:{ destruct limit; exists s; (split; [reflexivity|]); apply rel_mute; auto; discriminate. }
    destruct limit as [l|] eqn:El; [|reflexivity].
    destruct (Z.ltb_spec time l) as [Hl|Hl].
    { exists s. split; auto. apply rel_mute; auto. rewrite El. intros ? ? [= <-] [= <-]. auto. }
    eexists; split; [reflexivity|].
    constructor; cbn [sf_demux sf_pat sf_psi sf_content sf_emm sf_pmt_pid sf_done sf_error]; auto.
    + intros p. rewrite H1. unfold listens. cbn [latest listing usable_pat In].
      assert (Q : (exists x t', ((pid, TTot (Some time)) = x \/ In x h) /\ listing sid x = Some (t', p)) <-> (exists x t', In x h /\ listing sid x = Some (t', p))).
      { split; [intros [x [t' [[<-|Hx] Ex]]]; [discriminate|eauto]|intros [x [t' [Hx Ex]]]; eauto]. }
      rewrite !Q, El. reflexivity.
    + split; auto. intros _. right. exists (pid, TTot (Some time)), time, l. cbn [In a_tot snd]. auto.
    + rewrite H8. cbn [In]. split; [intros [y [Hy Ey]]; eauto|]. intros [y [[<-|Hy] Ey]]; [discriminate|eauto].
  - destruct limit; exists s; split; auto; apply rel_mute; auto; discriminate.
  - destruct limit; exists s; split; auto; apply rel_mute; auto; discriminate.
  - destruct limit; exists s; split; auto; apply rel_mute; auto; discriminate.
Qed.

Lemma rel_tables : forall tbs h s pid, sf_rel h s -> silent h ->
  let h' := rev (map (fun t => (pid, tb_body t)) tbs) ++ h in
  (silent h' /\ exists s', handle_tables (sf_handleTable opt) s pid tbs = Ok s' /\ sf_rel h' s') \/
  (limit = None /\ (exists x t, In x h' /\ a_tot x = Some t) /\
     handle_tables (sf_handleTable opt) s pid tbs = Fail Uncaught).
Proof.
  induction tbs as [|tb tbs IH]; intros h s pid R S; cbn.
  - left. eauto.
  - pose proof (rel_table h s pid tb R) as T. rewrite <- app_assoc. cbn [app].
    destruct (a_tot (pid, tb_body tb)) as [t|] eqn:Et; [destruct limit as [l|] eqn:El|].
    + destruct T as [s1 [-> R1]]. cbn [bind]. rewrite <- El in *. apply IH; auto. intros N; congruence.
    + right. rewrite T. cbn. split; auto. split; auto. exists (pid, tb_body tb), t.
      split; auto. apply in_or_app. right. left. reflexivity.
    + assert (T' : exists s', sf_handleTable opt s pid tb = Ok s' /\ sf_rel ((pid, tb_body tb) :: h) s') by (destruct limit; auto).
      destruct T' as [s1 [-> R1]]. cbn [bind]. apply IH; auto.
      intros N x [<-|Hx]; auto.
Qed.

Lemma wanted_filter : forall h s pid, sf_rel h s ->
  (sf_CheckFilterForDrop s pid = false <-> wanted sid h pid).
Proof.
  intros h s pid [H1 H2 H3 H4 H5 H6 H7 H8]. unfold sf_CheckFilterForDrop, wanted.
  rewrite <- H3, <- H4, <- H5. rewrite <- !zmem_In.
  destruct (zmem pid (sf_content s)), (zmem pid (sf_psi s)), (zmem pid (sf_emm s)); split; intuition congruence.
Qed.

(** One packet. *)
Lemma handle_spec : forall k h s d p, sf_rel h s -> silent h -> exists h' a,
  heard sid limit stage h p h' /\ decide sid limit h' p a /\
  match a with
  | Crash f => sf_HandlePacket stage opt k (s, d) p = Fail f
  | Stop => exists s', sf_HandlePacket stage opt k (s, d) p = Ok ((s', d), false) /\ sf_rel h' s'
  | Skip => exists s', sf_HandlePacket stage opt k (s, d) p = Ok ((s', d), true) /\ sf_rel h' s' /\ silent h'
  | Send q => exists s', sf_rel h' s' /\ silent h' /\
      sf_HandlePacket stage opt k (s, d) p = (let* (d1, ok) := sk_handle k d q in Ok ((s', d1), ok))
  end.
Proof.
  intros k h s d p R S.
  assert (H : exists h', heard sid limit stage h p h' /\
    ((silent h' /\ exists s', handle_tables (sf_handleTable opt) s (p_pid p) (demux_feed (sf_demux s) stage p) = Ok s' /\ sf_rel h' s') \/
     (limit = None /\ (exists x t, In x h' /\ a_tot x = Some t) /\
      handle_tables (sf_handleTable opt) s (p_pid p) (demux_feed (sf_demux s) stage p) = Fail Uncaught))).
  { unfold demux_feed. destruct (zmem (p_pid p) (sf_demux s)) eqn:E.
    - eexists. split; [left; split; [apply (R_demux _ _ R); apply zmem_In; exact E|reflexivity]|]. apply rel_tables; auto.
    - exists h. split; [right; split; auto; rewrite <- (R_demux _ _ R); apply zmem_false; exact E|]. left. cbn. eauto. }
  destruct H as [h' [Hh [[S' [s' [E R']]]|[L [X E]]]]]; unfold sf_HandlePacket; rewrite E; cbn [bind].
  2:{ exists h', (Crash Uncaught). split; auto. split; [apply D_throw; auto|reflexivity]. }
  exists h'. destruct (sf_done s') eqn:Ed.
  { exists Stop. split; auto. split; [apply D_stop; auto; apply (R_done _ _ R'); auto|]. eauto. }
  assert (No : ~ over sid limit h') by (rewrite <- (R_done _ _ R'); congruence).
  destruct (sf_CheckFilterForDrop s' (p_pid p)) eqn:Ec.
  { exists Skip. split; auto. split; [apply D_skip; auto; rewrite <- (wanted_filter _ _ _ R'); congruence|]. eauto. }
  apply (wanted_filter _ _ _ R') in Ec.
  change PID_PAT with 0. destruct (Z.eqb_spec (p_pid p) 0) as [E0|E0].
  - rewrite (R_pat _ _ R'). destruct (latest (listing sid) h') as [[t q]|] eqn:El.
    + exists (Send (gen_pat p (only_service sid t q))). split; auto. split; [apply D_pat; auto|]. exists s'. auto.
    + exists (Crash AssertFail). split; auto. split; [apply D_no_pat; auto|reflexivity].
  - change PID_NULL with 0x1FFF. destruct (Z.eqb_spec (p_pid p) 0x1FFF) as [E1|E1]; cbn [negb assert].
    + exists (Crash AssertFail). split; auto. split; [apply D_null; auto|reflexivity].
    + exists (Send p). split; auto. split; [apply D_send; auto|]. exists s'. auto.
Qed.

Lemma loop_spec : forall k ps n h s d, (List.length ps < n)%nat -> sf_rel h s -> silent h ->
  exists out e he de, filtered sid limit stage k h d ps out e he de /\
  match e with
  | Crashed f => feed_loop (list_source packet) (service_filter stage opt k) n ps (s, d) = Some (Fail f)
  | _ => exists s', sf_rel he s' /\ feed_loop (list_source packet) (service_filter stage opt k) n ps (s, d) = Some (Ok (s', de))
  end.
Proof.
  intros k ps. induction ps as [|p ps IH]; intros n h s d Hn R S; (destruct n as [|n]; [cbn in Hn; lia|]).
  - exists [], Exhausted, h, d. split; [constructor|]. cbn. eauto.
  - cbn [feed_loop list_source sr_next sk_handle service_filter].
    destruct (handle_spec k h s d p R S) as [h' [a [Hh [D A]]]]. destruct a as [|q| |f].
    + destruct A as [s' [-> [R' S']]]. destruct (IH n h' s' d ltac:(cbn in Hn; lia) R' S') as [out [e [he [de [F E]]]]].
      exists out, e, he, de. split; [eapply F_skip; eauto|]. exact E.
    + destruct A as [s' [R' [S' ->]]]. destruct (sk_handle k d q) as [[d1 [|]]|f] eqn:Eq; cbn [bind].
      * destruct (IH n h' s' d1 ltac:(cbn in Hn; lia) R' S') as [out [e [he [de [F E]]]]].
        exists (q :: out), e, he, de. split; [eapply F_send; eauto|]. exact E.
      * exists [q], Refused, h', d1. split; [eapply F_refused; eauto|]. eauto.
      * exists [q], (Crashed f), h', d. split; [eapply F_sink_crash; eauto|]. reflexivity.
    + destruct A as [s' [-> R']]. exists [], Stopped, h', d. split; [eapply F_stop; eauto|]. eauto.
    + rewrite A. exists [], (Crashed f), h', d. split; [eapply F_crash; eauto|]. reflexivity.
Qed.

Lemma feed_spec : forall k ps n d d1, (List.length ps < n)%nat -> sk_start k d = Ok (d1, true) ->
  exists out e he de, filtered sid limit stage k [] d1 ps out e he de /\
  match e with
  | Crashed f => FeedPackets (list_source packet) (service_filter stage opt k) n ps (sf_init opt, d) = Some (Fail f)
  | _ => exists s', FeedPackets (list_source packet) (service_filter stage opt k) n ps (sf_init opt, d) =
      Some (let* d2 := sk_end k de in let* c := sk_exit k d2 in Ok (if (c =? 0) && sf_error s' then 1 else c, (s', d2))) /\
      (sf_error s' = true <-> exists x, In x he /\ missing sid x = true)
  end.
Proof.
  intros k ps n d d1 Hn Es. unfold FeedPackets. cbn [sk_start service_filter snd fst]. rewrite Es. cbn [bind].
  destruct (loop_spec k ps n [] (sf_init opt) d1 Hn rel_init) as [out [e [he [de [F E]]]]]; [intros _ x []|].
  exists out, e, he, de. split; auto.
  assert (G : forall s', sf_rel he s' -> feed_loop (list_source packet) (service_filter stage opt k) n ps (sf_init opt, d1) = Some (Ok (s', de)) ->
    match feed_loop (list_source packet) (service_filter stage opt k) n ps (sf_init opt, d1) with
    | Some r => Some (let* s2 := r in let* s3 := sk_end (service_filter stage opt k) s2 in
                  let* code := sk_exit (service_filter stage opt k) s3 in Ok (code, s3))
    | None => None end =
    Some (let* d2 := sk_end k de in let* c := sk_exit k d2 in Ok (if (c =? 0) && sf_error s' then 1 else c, (s', d2)))).
  { intros s' R ->. cbn [bind service_filter sk_end sk_exit snd fst]. destruct (sk_end k de) as [d2|]; cbn; auto.
    unfold sf_GetExitCode. cbn. destruct (sk_exit k d2) as [c|]; cbn; auto. unfold EXIT_SUCCESS, EXIT_FAILURE.
    destruct (c =? 0); cbn; auto. }
  destruct e.
  1-3: destruct E as [s' [R E]]; exists s'; split; [exact (G s' R E)|exact (R_error _ _ R)].
  rewrite E. reflexivity.
Qed.

End Sf.
