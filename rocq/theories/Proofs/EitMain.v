(** The whole collector against the history of its input. *)
From Coq Require Import ZArith List Bool Lia.
From Verif Require Import Base.Outcome Base.Util Model.Sink Model.EitSection Model.EitCollector
  Proofs.EitSectionProofs Proofs.EitProofs Spec.EitSpec.
Import ListNotations.
Open Scope Z_scope.

(** * All services *)

Lemma ginv_fresh : forall ts, ginv [] ts gp_init.
Proof.
  intros ts. destruct ginv_init as [A B C D E F G]. constructor; auto.
  intros i seg j Hs Hj H. cbn in H. rewrite Z.testbit_0_l in H. discriminate.
Qed.

(** The sections of one half of the tables of the service with key [k]. *)
Definition part (k : Z) (b : bool) (es : list eit_section) : list eit_section :=
  filter (fun e => (service_triple e =? k) && Bool.eqb (IsBasic e) b) es.

Definition half (c : collect_progress) (k : Z) (b : bool) : group_progress :=
  if b then sp_basic (cp_get c k) else sp_extra (cp_get c k).

(** Every number of every announced table was written or is excused. *)
Definition covered (h : list eit_section) (ts : list Z) : Prop :=
  forall e r, rev h = e :: r -> forall i seg j, 0 <= i <= last_table_index e ->
    0 <= seg < kNumSegments -> 0 <= j < 8 ->
    (exists x, In x h /\ table_index x = i /\ segment_index x = seg /\ section_index x = j) \/
    (exists x, In x h /\ table_index x = i /\
       (last_segment_index x < seg \/ segment_index x = seg /\ last_section_index x < j)) \/
    (i = 0 /\ exists t, In t ts /\ seg < hour_of t / 3).

Lemma covered_completed : forall h ts g, ginv h ts g -> gp_IsCompleted g = true -> covered h ts.
Proof.
  intros h ts g I H e r Hr i seg j Hi Hs Hj.
  pose proof (last_table_index_range e) as R.
  unfold gp_IsCompleted in H. pose proof (gi_last _ _ _ I) as L. rewrite Hr in L.
  destruct (Z.ltb_spec (gp_last g) 0); [lia|].
  assert (Hc : tp_completed (gp_tables g i) = true).
  { apply (gi_completed _ _ _ I H). unfold kNumTables. lia. }
  destruct (gi_full _ _ _ I i Hc seg j Hs Hj) as [B|B].
  - left. apply (gi_collected _ _ _ I) in B; [auto|lia].
  - right. destruct (gi_unused _ _ _ I i seg j Hs Hj B) as [K|[K|K]]; [left; auto|right; auto|lia].
Qed.

Lemma covered_mono : forall h ts t, covered h ts -> covered h (ts ++ [t]).
Proof.
  intros h ts t H e r Hr i seg j Hi Hs Hj.
  destruct (H e r Hr i seg j Hi Hs Hj) as [K|[K|(K1 & t' & K2 & K3)]]; [left; auto|right; left; auto|].
  right; right. split; auto. exists t'. split; auto. apply in_or_app; auto.
Qed.

Record cinv (es : list eit_section) (ts : list Z) (c : collect_progress) : Prop := mkCinv {
  ci_map : is_map (cp_services c);
  ci_keys : forall k, (exists e, In e es /\ service_triple e = k) <-> mfind k (cp_services c) <> None;
  ci_groups : forall k b, ginv (part k b es) ts (half c k b);
  ci_done : cp_completed c = true -> forall k b, covered (part k b es) ts }.

Lemma cinv_init : cinv [] [] cp_init.
Proof.
  constructor.
  - exact I.
  - intros k. cbn. split; [intros (e & [] & _)|congruence].
  - intros k b. unfold half, cp_get. cbn. destruct b; apply ginv_fresh.
  - discriminate.
Qed.

Lemma part_app : forall k b es e,
  part k b (es ++ [e]) = part k b es ++ (if (service_triple e =? k) && Bool.eqb (IsBasic e) b then [e] else []).
Proof.
  intros. unfold part. rewrite filter_app. cbn [filter]. reflexivity.
Qed.

Lemma cp_get_update : forall c e k,
  cp_get (cp_Update c e) k =
  if k =? service_triple e then sp_Update (cp_get c (service_triple e)) e else cp_get c k.
Proof.
  intros. unfold cp_get. cbn [cp_Update cp_services]. rewrite mfind_minsert.
  destruct (Z.eqb_spec k (service_triple e)); reflexivity.
Qed.

Lemma cinv_update : forall es ts c e, cinv es ts c -> cinv (es ++ [e]) ts (cp_Update c e).
Proof.
  intros es ts c e I.
  assert (G : forall k b, ginv (part k b (es ++ [e])) ts (half (cp_Update c e) k b)).
  { intros k b. rewrite part_app. pose proof (ci_groups _ _ _ I k b) as Gk.
    unfold half in *. rewrite cp_get_update. rewrite (Z.eqb_sym k).
    destruct (Z.eqb_spec (service_triple e) k) as [->|Hk]; cbn [andb].
    - unfold sp_Update. destruct (IsBasic e); destruct b; cbn [Bool.eqb sp_basic sp_extra];
        rewrite ?app_nil_r; try exact Gk; apply ginv_update; exact Gk.
    - rewrite app_nil_r. exact Gk. }
  constructor.
  - cbn [cp_Update cp_services]. apply is_map_minsert. exact (ci_map _ _ _ I).
  - intros k. cbn [cp_Update cp_services]. rewrite mfind_minsert.
    destruct (Z.eqb_spec k (service_triple e)) as [->|Hk].
    + split; [congruence|]. intros _. exists e. split; [apply in_or_app; right; left; auto|auto].
    + rewrite <- (ci_keys _ _ _ I). split.
      * intros (x & Hx & Hk'). apply in_app_or in Hx as [Hx|[<-|[]]]; [eauto|congruence].
      * intros (x & Hx & Hk'). exists x. split; [apply in_or_app; auto|auto].
  - exact G.
  - intros H k b. apply covered_completed with (half (cp_Update c e) k b); [apply G|].
    cbn [cp_Update cp_completed] in H. rewrite forallb_forall in H.
    unfold half, cp_get.
    destruct (mfind k (cp_services (cp_Update c e))) as [s|] eqn:F.
    + cbn [cp_Update cp_services] in F. apply mfind_In in F; [|apply is_map_minsert; exact (ci_map _ _ _ I)].
      apply H in F. cbn [snd] in F. unfold sp_IsCompleted in F. apply andb_true_iff in F as [F1 F2].
      destruct b; auto.
    + destruct b; reflexivity.
Qed.

Lemma mfind_map : forall A B (f : A -> B) m k,
  mfind k (map (fun p => (fst p, f (snd p))) m) = option_map f (mfind k m).
Proof.
  induction m as [|[k' v] m IH]; intros k; cbn [map mfind fst snd option_map]; [reflexivity|].
  destruct (k =? k'); [reflexivity|apply IH].
Qed.

Lemma is_map_map : forall A B (f : A -> B) m, is_map m -> is_map (map (fun p => (fst p, f (snd p))) m).
Proof.
  intros A B f m. assert (K : forall m lo, msorted lo m -> msorted lo (map (fun p => (fst p, f (snd p))) m)).
  { induction m0 as [|[k v] r IH]; intros lo H; cbn in *; [auto|]. destruct H; auto. }
  destruct m as [|[k v] r]; cbn; auto.
Qed.

Lemma cinv_unused : forall es ts c t, cinv es ts c -> cinv es (ts ++ [t]) (cp_UpdateUnused c t).
Proof.
  intros es ts c t I. constructor.
  - cbn [cp_UpdateUnused cp_services]. apply (is_map_map _ _ (fun s => sp_UpdateUnused s t)). exact (ci_map _ _ _ I).
  - intros k. cbn [cp_UpdateUnused cp_services].
    rewrite (mfind_map _ _ (fun s => sp_UpdateUnused s t)). rewrite (ci_keys _ _ _ I).
    destruct (mfind k (cp_services c)); cbn [option_map]; split; congruence.
  - intros k b. unfold half, cp_get. cbn [cp_UpdateUnused cp_services].
    rewrite (mfind_map _ _ (fun s => sp_UpdateUnused s t)).
    pose proof (ci_groups _ _ _ I k b) as G. unfold half, cp_get in G.
    destruct (mfind k (cp_services c)) as [s|] eqn:F; cbn [option_map].
    + unfold sp_UpdateUnused. destruct b; cbn [sp_basic sp_extra]; apply ginv_unused; exact G.
    + assert (N : part k b es = []).
      { destruct (part k b es) as [|x l] eqn:P; [reflexivity|]. exfalso.
        assert (X : In x (part k b es)) by (rewrite P; left; auto).
        unfold part in X. apply filter_In in X as [X1 X2]. apply andb_true_iff in X2 as [X2 _]. apply Z.eqb_eq in X2.
        assert (Y : mfind k (cp_services c) <> None) by (apply (ci_keys _ _ _ I); eauto). congruence. }
      rewrite N. destruct b; apply ginv_fresh.
  - cbn [cp_UpdateUnused cp_completed]. intros H k b. apply covered_mono. apply (ci_done _ _ _ I H).
Qed.

(** * The run of the collector *)

Section Run.
Variable mjd : list Z -> option Z.
Variable o : eit_option.

Lemma handleSection_cases : forall s sec s', ec_handleSection mjd o s sec = Ok s' ->
  (s' = s /\ ~ schedule o sec) \/
  (s' = s /\ schedule o sec /\ exists e, EitSection sec = Ok e /\ cp_CheckCollected (ec_progress s) e = true) \/
  (schedule o sec /\ exists e d, EitSection sec = Ok e /\ cp_CheckCollected (ec_progress s) e = false /\
     MakeEitJson mjd e = Ok d /\
     s' = mkEitState (ec_has_timestamp s) (ec_timestamp s) (ec_timestamp s)
            (cp_Update (ec_progress s) e) (ec_out s ++ [d])).
Proof.
  intros s sec s' H. unfold ec_handleSection in H.
  destruct (sn_valid sec) eqn:Hv; cbn [negb] in H;
    [|injection H as <-; left; split; [auto|intros (X & _); congruence]].
  match type of H with (if ?x then _ else _) = _ => destruct x eqn:Hskip end.
  { injection H as <-. left. split; [auto|]. intros (_ & _ & _ & X & _).
    destruct X as [[X1 X2]|[X1 X2]].
    - destruct (Z.leb_spec 80 (sn_tid sec)); destruct (Z.leb_spec (sn_tid sec) 95); cbn [andb] in Hskip; try lia.
      rewrite X2 in Hskip. discriminate.
    - destruct (Z.leb_spec 80 (sn_tid sec)); destruct (Z.leb_spec (sn_tid sec) 95); cbn [andb] in Hskip; try lia.
      destruct (Z.leb_spec 96 (sn_tid sec)); destruct (Z.leb_spec (sn_tid sec) 111); cbn [andb] in Hskip; try lia.
      rewrite X2 in Hskip. discriminate. }
  assert (Htid : 0x50 <= sn_tid sec <= 0x5F /\ eo_actual o = true \/ 0x60 <= sn_tid sec <= 0x6F /\ eo_others o = true).
  { destruct (Z.leb_spec 80 (sn_tid sec)); destruct (Z.leb_spec (sn_tid sec) 95); cbn [andb] in Hskip.
    - left. apply negb_false_iff in Hskip. auto.
    - destruct (Z.leb_spec 96 (sn_tid sec)); destruct (Z.leb_spec (sn_tid sec) 111); cbn [andb] in Hskip; try discriminate.
      right. apply negb_false_iff in Hskip. auto.
    - destruct (Z.leb_spec 96 (sn_tid sec)); destruct (Z.leb_spec (sn_tid sec) 111); cbn [andb] in Hskip; try discriminate.
      lia.
    - destruct (Z.leb_spec 96 (sn_tid sec)); destruct (Z.leb_spec (sn_tid sec) 111); cbn [andb] in Hskip; try discriminate.
      lia. }
  destruct (sn_next sec) eqn:Hn; [injection H as <-; left; split; [auto|intros (_ & X & _); congruence]|].
  unfold EIT_PAYLOAD_FIXED_SIZE in H.
  destruct (Z.ltb_spec (zlen (sn_payload sec)) 6) as [Hz|Hz];
    [injection H as <-; left; split; [auto|intros (_ & _ & X & _); lia]|].
  destruct (EitSection_parsed sec Hz) as (e & He & P). rewrite He in H. cbn [bind] in H.
  assert (Hsid : ei_sid e = sid_of sec) by (destruct P as (_ & P1 & _); exact P1).
  rewrite Hsid in H.
  destruct (negb (ss_IsEmpty (eo_sids o)) && negb (ss_Contain (eo_sids o) (sid_of sec))) eqn:Hs.
  { injection H as <-. left. split; [auto|]. intros (_ & _ & _ & _ & X & _).
    apply andb_true_iff in Hs as [S1 S2]. apply negb_true_iff in S2. unfold ss_Contain in S2.
    apply zmem_false in S2. destruct X as [X|X]; [rewrite X in S1; discriminate|contradiction]. }
  assert (Hin : eo_sids o = [] \/ In (sid_of sec) (eo_sids o)).
  { destruct (eo_sids o) as [|z l] eqn:E; [auto|]. right. cbn [ss_IsEmpty negb andb] in Hs.
    apply negb_false_iff in Hs. apply zmem_In in Hs. exact Hs. }
  destruct (negb (ss_IsEmpty (eo_xsids o)) && ss_Contain (eo_xsids o) (sid_of sec)) eqn:Hx.
  { injection H as <-. left. split; [auto|]. intros (_ & _ & _ & _ & _ & X).
    apply andb_true_iff in Hx as [_ S2]. apply zmem_In in S2. contradiction. }
  assert (Hout : ~ In (sid_of sec) (eo_xsids o)).
  { intros X. destruct (eo_xsids o) as [|z l] eqn:E; [contradiction|]. cbn [ss_IsEmpty negb andb] in Hx.
    apply zmem_false in Hx. contradiction. }
  assert (W : schedule o sec) by (unfold schedule; auto 10).
  right. destruct (cp_CheckCollected (ec_progress s) e) eqn:Hc.
  - left. injection H as <-. split; [auto|]. split; [auto|]. exists e. auto.
  - right. split; [exact W|]. unfold ec_write in H.
    destruct (MakeEitJson mjd e) as [d|] eqn:Hd; cbn [bind] in H; [|discriminate].
    injection H as <-. exists e, d. auto.
Qed.

Lemma deliver_all_app : forall a b s,
  ec_deliver_all mjd o s (a ++ b) = let* s1 := ec_deliver_all mjd o s a in ec_deliver_all mjd o s1 b.
Proof.
  induction a as [|d a IH]; intros b s; cbn [app ec_deliver_all bind]; [reflexivity|].
  destruct (ec_deliver mjd o s d); cbn [bind]; [apply IH|reflexivity].
Qed.

Lemma deliver_all_snoc : forall a d s s', ec_deliver_all mjd o s (a ++ [d]) = Ok s' ->
  exists s1, ec_deliver_all mjd o s a = Ok s1 /\ ec_deliver mjd o s1 d = Ok s'.
Proof.
  intros a d s s' H. rewrite deliver_all_app in H. apply bind_ok in H as (s1 & H1 & H2).
  exists s1. split; auto. cbn [ec_deliver_all] in H2. apply bind_ok in H2 as (s2 & H2 & H3). congruence.
Qed.

Lemma emitted_app : forall a b s s1, ec_deliver_all mjd o s a = Ok s1 ->
  emitted mjd o s (a ++ b) = emitted mjd o s a ++ emitted mjd o s1 b.
Proof.
  induction a as [|d a IH]; intros b s s1 H; cbn [app emitted ec_deliver_all] in *.
  - injection H as <-. reflexivity.
  - apply bind_ok in H as (s2 & H1 & H2). rewrite H1, (IH b s2 s1 H2), app_assoc. reflexivity.
Qed.

Lemma tots_app : forall a b, tots (a ++ b) = tots a ++ tots b.
Proof.
  induction a as [|[x|[t|]] a IH]; intros b; cbn [app tots]; auto. rewrite IH. reflexivity.
Qed.

Lemma emitted_one : forall s d s', ec_deliver mjd o s d = Ok s' ->
  (emitted mjd o s [d] = [] /\ ec_out s' = ec_out s) \/
  (exists x e doc, d = DSection x /\ emitted mjd o s [d] = [x] /\ schedule o x /\ EitSection x = Ok e /\
     cp_CheckCollected (ec_progress s) e = false /\ MakeEitJson mjd e = Ok doc /\
     s' = mkEitState (ec_has_timestamp s) (ec_timestamp s) (ec_timestamp s)
            (cp_Update (ec_progress s) e) (ec_out s ++ [doc])).
Proof.
  intros s d s' H. cbn [emitted]. rewrite H. destruct d as [x|t]; cbn [ec_deliver] in H.
  - destruct (handleSection_cases _ _ _ H) as [(-> & _)|[(-> & _)|(W & e & doc & H1 & H2 & H3 & ->)]].
    + left. rewrite Z.eqb_refl. auto.
    + left. rewrite Z.eqb_refl. auto.
    + right. exists x, e, doc. cbn [ec_out]. rewrite zlen_app.
      change (zlen [doc]) with 1. destruct (Z.eqb_spec (zlen (ec_out s) + 1) (zlen (ec_out s))); [lia|].
      cbn [app]. auto 10.
  - left. injection H as <-. split; [reflexivity|]. destruct t; reflexivity.
Qed.

(** A delivery that writes nothing leaves the progress alone, except for time. *)
Lemma quiet_progress : forall s x s', ec_deliver mjd o s (DSection x) = Ok s' ->
  emitted mjd o s [DSection x] = [] -> s' = s.
Proof.
  intros s x s' H E. cbn [ec_deliver] in H.
  destruct (handleSection_cases _ _ _ H) as [(-> & _)|[(-> & _)|(W & e & doc & H1 & H2 & H3 & ->)]]; auto.
  exfalso. cbn [emitted] in E. cbn [ec_deliver] in E. rewrite H in E. cbn [ec_out] in E. rewrite zlen_app in E.
  change (zlen [doc]) with 1 in E. destruct (Z.eqb_spec (zlen (ec_out s) + 1) (zlen (ec_out s))); [lia|discriminate].
Qed.

Definition read (x : section) (e : eit_section) : Prop :=
  schedule o x /\ EitSection x = Ok e /\ parsed x e.

Record rinv (ds : list delivery) (s : eit_state) (es : list eit_section) : Prop := mkRinv {
  ri_read : Forall2 read (emitted mjd o ec_init ds) es;
  ri_docs : Forall2 (fun e d => MakeEitJson mjd e = Ok d) es (ec_out s);
  ri_cinv : cinv es (tots ds) (ec_progress s);
  ri_has : ec_has_timestamp s = match tots ds with [] => false | _ => true end;
  ri_time : ec_timestamp s = match last_tot ds with Some t => t | None => 0 end }.

Lemma rinv_init : rinv [] ec_init [].
Proof. constructor; cbn; auto. apply cinv_init. Qed.

Lemma rinv_step : forall ds s es d s', ec_deliver_all mjd o ec_init ds = Ok s -> rinv ds s es ->
  ec_deliver mjd o s d = Ok s' -> exists es', rinv (ds ++ [d]) s' es'.
Proof.
  intros ds s es d s' Hrun I H.
  destruct (emitted_one _ _ _ H) as [(E & Ho)|(x & e & doc & -> & E & W & He & Hc & Hd & ->)].
  - exists es.
    assert (E' : emitted mjd o ec_init (ds ++ [d]) = emitted mjd o ec_init ds).
    { rewrite (emitted_app _ _ _ _ Hrun), E. apply app_nil_r. }
    destruct d as [x|t].
    + pose proof (quiet_progress _ _ _ H E) as ->. destruct I as [A B C D F].
      unfold last_tot in *. constructor; unfold last_tot; rewrite ?E', ?tots_app; cbn [tots]; rewrite ?app_nil_r; auto.
    + cbn [ec_deliver] in H. injection H as <-. destruct I as [A B C D F].
      unfold last_tot in F. constructor; rewrite ?E'; unfold last_tot; rewrite ?tots_app.
      * exact A.
      * destruct t; exact B.
      * destruct t as [t|]; cbn [ec_HandleTot tots ec_progress].
        -- apply cinv_unused. exact C.
        -- rewrite app_nil_r. exact C.
      * destruct t as [t|]; cbn [ec_HandleTot tots ec_has_timestamp].
        -- destruct (tots ds); reflexivity.
        -- rewrite app_nil_r. exact D.
      * destruct t as [t|]; cbn [ec_HandleTot tots ec_timestamp].
        -- rewrite rev_app_distr. reflexivity.
        -- rewrite app_nil_r. exact F.
  - exists (es ++ [e]).
    assert (E' : emitted mjd o ec_init (ds ++ [DSection x]) = emitted mjd o ec_init ds ++ [x]).
    { rewrite (emitted_app _ _ _ _ Hrun), E. reflexivity. }
    destruct I as [A B C D F]. unfold last_tot in F.
    constructor; rewrite ?E'; unfold last_tot; rewrite ?tots_app; cbn [tots ec_out ec_progress ec_has_timestamp ec_timestamp];
      rewrite ?app_nil_r; auto.
    + apply Forall2_app; [exact A|]. constructor; [|constructor]. split; [exact W|]. split; [exact He|].
      apply EitSection_inv; [|exact He]. destruct W as (_ & _ & W & _). exact W.
    + apply Forall2_app; [exact B|]. constructor; [exact Hd|constructor].
    + apply cinv_update. exact C.
Qed.

Lemma rinv_run : forall ds s, ec_deliver_all mjd o ec_init ds = Ok s -> exists es, rinv ds s es.
Proof.
  intros ds. induction ds as [|d ds IH] using rev_ind; intros s H.
  - cbn in H. injection H as <-. exists []. apply rinv_init.
  - destruct (deliver_all_snoc _ _ _ _ H) as (s1 & H1 & H2).
    destruct (IH _ H1) as (es & I). eapply rinv_step; eauto.
Qed.

End Run.
