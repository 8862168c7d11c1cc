(** sync-clocks in real time. *)
From Coq Require Import ZArith Lia List Bool Sorted.
From Verif Require Import Base.Outcome Base.Util Model.Pcr Model.Sink Model.Ts Model.ServiceScanner Model.PcrSynchronizer
  Spec.PcrSpec Spec.ScanSpec Spec.SyncSpec Spec.LateSpec Proofs.ScanProofs Proofs.PcrProofs Proofs.SyncProofs Proofs.SyncInv Proofs.SyncEnd.
Import ListNotations.
Open Scope Z_scope.

Section First.
Variable o : ps_option.
Variable pp : Z.
Hypothesis NotNull : pp <> 0x1FFF.

(** No PCR since the latest TOT. *)
Definition quiet (post : list ev) : Prop :=
  exists a x b, post = a ++ Tab 0x14 (TTot (Some x)) :: b /\ forall e, In e b -> (forall y, e <> Tab 0x14 (TTot (Some y))) /\ forall w, e <> Pcr pp w.
Record waits (post : list ev) (s : ps_state) : Prop := mkWaits {
  wt_tot : In 0x14 (ps_pids s) -> In pp (ps_pcr_pids s);
  wt_quiet : ps_done s = false -> mfind pp (ps_pcr_map s) = None -> ps_started s = true -> quiet post }.

Lemma quiet_more : forall post e, quiet post -> (forall y, e <> Tab 0x14 (TTot (Some y))) -> (forall w, e <> Pcr pp w) -> quiet (post ++ [e]).
Proof.
  intros post e (a & x & b & -> & Q) N1 N2. exists a, x, (b ++ [e]). split; [rewrite <- app_assoc; reflexivity|].
  intros z I. apply in_app_or in I as [I|[<-|[]]]; auto.
Qed.

Lemma waits_step : forall t post s e, proper [e] -> (forall u, ~ pat_at e u) -> (forall q m, e = Tab q (TPmt (Some m)) -> pmt_pcr_pid m = pp) ->
  inv o t post s -> waits post s -> waits (post ++ [e]) (estep o s e).
Proof.
  intros t post s e P N Pm V [W1 W2].
  assert (Skip : (forall y, e <> Tab 0x14 (TTot (Some y))) -> (forall w, e <> Pcr pp w) -> waits (post ++ [e]) s).
  { intros N1 N2. constructor; [exact W1|]. intros D M S. apply quiet_more; auto. }
  destruct e as [pid b|pid c]; cbn [estep].
  - destruct (zmem pid (ps_pids s)) eqn:L.
    + apply zmem_In in L. specialize (P _ _ (or_introl eq_refl)). destruct b as [u| |u| |u|u| |]; cbn [ps_tab]; try (apply Skip; discriminate).
      * unfold ps_HandlePat, PID_PAT. destruct (Z.eqb_spec pid 0) as [->|E]; cbn [negb]; [|apply Skip; discriminate].
        destruct u as [u|]; [|apply Skip; discriminate]. destruct (Z.eqb_spec (pat_tsid u) 0) as [E|E]; [apply Skip; discriminate|].
        destruct (N u). split; [reflexivity|exact E].
      * destruct u as [m|]; [|apply Skip; discriminate]. unfold ps_HandlePmt. destruct (mfind (pmt_sid m) (ps_pmt_pids s)); [|apply Skip; discriminate].
        destruct (negb (_ =? pid)); [apply Skip; discriminate|]. rewrite (Pm pid m eq_refl). unfold PID_NULL.
        destruct (Z.eqb_spec pp 0x1FFF) as [E|_]; [contradiction|]. cbn [negb]. constructor; cbn [ps_pids ps_pcr_pids ps_done ps_pcr_map ps_started].
        -- intros _. apply In_zadd. auto.
        -- intros D M S. apply quiet_more; auto; discriminate.
      * destruct u as [x|]; [|apply Skip; discriminate]. subst pid. constructor; cbn [ps_HandleTot ps_pids ps_pcr_pids ps_done ps_pcr_map ps_started]; [exact W1|].
        intros _ _ _. exists post, x, []. split; [reflexivity|intros e []].
      * destruct u as [d|]; [|apply Skip; discriminate]. rewrite sdt_state. constructor; cbn [ps_pids ps_pcr_pids ps_done ps_pcr_map ps_started].
        -- intros I. apply count_pids in I as [I|(sid & v & I & _)]; [auto|]. rewrite (iv_pmt _ _ _ _ V) in I. destruct (iv_good _ _ _ _ V _ _ I) as (_ & _ & G). congruence.
        -- intros D M S. apply quiet_more; auto; discriminate.
    + apply zmem_false in L. constructor; [exact W1|]. intros D M S. apply quiet_more; auto; [|discriminate].
      intros y E. injection E as -> ->. apply L. apply (iv_tot _ _ _ _ V S).
  - destruct (ps_done s) eqn:D; [constructor; [exact W1|congruence]|]. unfold ps_take. destruct (Z.eq_dec pid pp) as [->|Np].
    + destruct (ps_started s) eqn:S; cbn [andb]; [|constructor; [exact W1|congruence]].
      assert (I : zmem pp (ps_pcr_pids s) = true) by (apply zmem_In, W1, (iv_tot _ _ _ _ V S)). rewrite I. cbn [andb].
      destruct (mfind pp (ps_pcr_map s)) eqn:M; [constructor; [exact W1|congruence]|].
      constructor; cbn [ps_pids ps_pcr_pids ps_done ps_pcr_map ps_started]; [exact W1|]. intros _ M1. rewrite mfind_minsert, Z.eqb_refl in M1. discriminate.
    + assert (Q : ps_started s = true -> mfind pp (ps_pcr_map s) = None -> quiet (post ++ [Pcr pid c])).
      { intros S M. apply quiet_more; auto; [discriminate|]. intros w E. congruence. }
      destruct (_ && _ && _); [|constructor; auto]. constructor; cbn [ps_pids ps_pcr_pids ps_done ps_pcr_map ps_started]; [exact W1|].
      intros _ M1 S. apply Q; [exact S|]. rewrite mfind_minsert in M1. destruct (Z.eqb_spec pp pid); [congruence|exact M1].
Qed.

Lemma waits_steps : forall t post s, proper post -> no_pat post -> (forall q m, In (Tab q (TPmt (Some m))) post -> pmt_pcr_pid m = pp) ->
  fresh o t s -> waits post (esteps o s post).
Proof.
  intros t post s P N Pm F. induction post as [|e post IH] using rev_ind.
  - cbn. constructor; [|rewrite (fr_started _ _ _ F); discriminate]. intros I. apply (fr_pids _ _ _ F) in I. lia.
  - rewrite esteps_snoc. apply proper_app in P as [P1 P2]. eapply waits_step; [exact P2| | | |].
    + intros u. apply N. apply in_app_iff. cbn. auto.
    + intros q m ->. apply (Pm q). apply in_app_iff. cbn. auto.
    + apply inv_steps; [exact P1| |exact F]. intros x u X. apply N. apply in_app_iff. auto.
    + apply IH; [exact P1| |].
      * intros x u X. apply N. apply in_app_iff. auto.
      * intros q m I. apply (Pm q). apply in_app_iff. auto.
Qed.

(** The clocks are those of the first PCR after a TOT. *)
Lemma sync_first : forall ps fuel code s, proper (trace ps) -> sane_tots (trace ps) -> selecting o (trace ps) ->
  (forall q m, In (Tab q (TPmt (Some m))) (trace ps) -> pmt_pcr_pid m = pp) ->
  FeedPackets (list_source packet) (ps_sink o) fuel ps ps_init = Some (Ok (code, s)) -> code = 0 ->
  exists h rest docs a x b pcr, ps = h ++ rest /\ ps_out s = [docs] /\ trace h = a ++ Tab 0x14 (TTot (Some x)) :: b ++ [Pcr pp pcr] /\
    (forall e, In e b -> (forall y, e <> Tab 0x14 (TTot (Some y))) /\ forall w, e <> Pcr pp w) /\
    forall c, In c docs -> cd_pid c = pp /\ cd_pcr c = pcr /\ cd_time c = unix x.
Proof.
  intros ps fuel code s P Sa S Pm H ->. apply sync_fold in H; [|exact P].
  destruct H as [(H & _)|(h & p & rest & s1 & -> & _ & D & E & D1 & time & C & O)]; [discriminate|].
  replace (h ++ p :: rest) with ((h ++ [p]) ++ rest) in * by (rewrite <- app_assoc; reflexivity).
  rewrite trace_app in P. apply proper_app in P as [P _].
  assert (S1 : selecting o (events p)).
  { intros t T. apply S. rewrite !trace_app. apply in_app_iff. left. apply in_app_iff. right. cbn. rewrite app_nil_r. exact T. }
  assert (Last : exists tr pid c, trace (h ++ [p]) = tr ++ [Pcr pid c] /\ ps_done (esteps o ps_init tr) = false).
  { rewrite trace_app. cbn [trace flat_map]. rewrite app_nil_r. rewrite E, trace_app, esteps_app in D1. cbn [trace flat_map] in D1. rewrite app_nil_r in D1.
    unfold events in *. destruct (p_pid p =? 0x1FFF); [cbn in D1; congruence|].
    assert (D2 : ps_done (esteps o (esteps o ps_init (trace h)) (map (fun t => Tab (p_pid p) (tb_body t)) (p_tabs p 0))) = false).
    { apply tabs_not_done; [|exact D]. intros u U. apply S1. apply in_app_iff. auto. }
    rewrite esteps_app in D1. destruct (p_pcr p) as [c|]; [|cbn in D1; congruence].
    exists (trace h ++ map (fun t => Tab (p_pid p) (tb_body t)) (p_tabs p 0)), (p_pid p), c.
    split; [rewrite <- app_assoc; reflexivity|]. rewrite esteps_app. exact D2. }
  destruct Last as (tr & pid & c & Tr & Dt).
  rewrite Tr in *. rewrite esteps_snoc in E. cbn [estep] in E. rewrite Dt in E. set (s0 := esteps o ps_init tr) in *.
  apply proper_app in P as [P _].
  assert (Tk : ps_started s0 = true /\ In pid (ps_pcr_pids s0) /\ mfind pid (ps_pcr_map s0) = None /\ ps_pcr_map s1 = minsert pid c (ps_pcr_map s0)).
  { rewrite E in D1 |- *. unfold ps_take in D1 |- *. destruct (ps_started s0); cbn [andb] in *; [|congruence].
    destruct (zmem pid (ps_pcr_pids s0)) eqn:M; cbn [andb] in *; [|congruence]. apply zmem_In in M.
    destruct (mfind pid (ps_pcr_map s0)); [congruence|]. auto. }
  destruct Tk as (T1 & T2 & T3 & T4).
  destruct (trace_inv o tr P) as [[_ V]|(t & a & T & V)]; fold s0 in V.
  { destruct V as (_ & _ & _ & _ & V & _). rewrite V in T2. destruct T2. }
  assert (K : named a s0 /\ waits a s0).
  { destruct T as (pre & x & Tr' & X & N).
    assert (Fr : fresh o t (esteps o ps_init (pre ++ [x]))).
    { apply pat_fresh; [|exact X]. rewrite Tr' in P. replace (pre ++ x :: a) with ((pre ++ [x]) ++ a) in P by (rewrite <- app_assoc; reflexivity). apply proper_app in P. tauto. }
    assert (Es : s0 = esteps o (esteps o ps_init (pre ++ [x])) a) by (unfold s0; rewrite <- esteps_app, <- app_assoc, Tr'; reflexivity).
    rewrite Es. split; [eapply named_steps; eauto|]. apply (waits_steps t); auto.
    - rewrite Tr' in P. replace (pre ++ x :: a) with ((pre ++ [x]) ++ a) in P by (rewrite <- app_assoc; reflexivity). apply proper_app in P. tauto.
    - intros q m I. apply (Pm q). rewrite trace_app, Tr, Tr'. apply in_app_iff. left. apply in_app_iff. left. apply in_app_iff. cbn. auto. }
  destruct K as (Nm0 & [_ Qu]).
  assert (Nm : forall z, In z (ps_pcr_pids s0) -> z = pp).
  { intros z Z. destruct (Nm0 z Z) as (M0 & q & m & M1 & M2). rewrite <- M2. apply (Pm q). rewrite trace_app, Tr. apply in_app_iff. left. apply in_app_iff. left.
    destruct T as (pre & x & -> & _). apply in_app_iff. cbn. auto. }
  assert (pid = pp) by auto. subst pid.
  destruct (Qu Dt T3 T1) as (a1 & x & b & Ea & Qb).
  assert (Tm : ps_time s1 = ps_time s0) by (rewrite E; unfold ps_take; destruct (_ && _ && _); reflexivity).
  destruct (iv_tot _ _ _ _ V T1) as [_ L].
  assert (Ex : ps_time s0 = x).
  { destruct L as (a2 & u & b2 & E2 & U & N2). unfold tot_at in U. subst u. rewrite Ea in E2.
    assert (X1 : forall y w, In y b -> ~ tot_at y w) by (intros y w I Q; destruct (Qb y I) as (Q1 & _); exact (Q1 w Q)).
    clear - E2 N2 X1. revert a2 E2. induction a1 as [|z a1 IH]; intros [|z2 a2] E2; cbn in E2; injection E2 as Q1 Q2; subst.
    - reflexivity.
    - exfalso. eapply (X1 (Tab 0x14 (TTot (Some (ps_time s0))))); [apply in_elt|reflexivity].
    - exfalso. eapply (N2 (Tab 0x14 (TTot (Some x)))); [apply in_elt|reflexivity].
    - eauto. }
  destruct T as (pre & xp & Trp & X & N).
  exists (h ++ [p]), rest, (ps_docs s1 time (ps_pcr_pid_map s1)), (pre ++ xp :: a1), x, b, c.
  split; [reflexivity|]. split; [exact O|]. split; [rewrite Tr, Trp, Ea; rewrite <- !app_assoc; cbn [app]; rewrite <- !app_assoc; reflexivity|]. split; [exact Qb|].
  intros d Dc. apply docs_in in Dc as (_ & F & _ & _ & ->). rewrite T4, mfind_minsert in F.
  assert (K : cd_pid d = pp /\ cd_pcr d = c).
  { destruct (Z.eqb_spec (cd_pid d) pp) as [Q|Q]; [injection F as <-; auto|].
    exfalso. apply Q. apply Nm. apply (iv_pcr_map _ _ _ _ V _ _ F). }
  destruct K as [K1 K2]. split; [exact K1|]. split; [exact K2|].
  assert (Sx : 0 <= ps_time s0 < 2 ^ 44).
  { rewrite Ex. apply (Sa 0x14). rewrite trace_app, Tr. apply in_app_iff. left. apply in_app_iff. left. rewrite Trp, Ea. rewrite app_comm_cons, app_assoc. apply in_elt. }
  rewrite Tm, jst_unix_value in C by (change (2 ^ 44) with 17592186044416 in Sx; lia). injection C as <-. rewrite Ex. reflexivity.
Qed.
End First.

(** With times. *)
Lemma timed_fst : forall l, map fst (timed_trace l) = trace (map fst l).
Proof.
  induction l as [|[p k] l IH]; [reflexivity|]. cbn [timed_trace flat_map map trace fst snd]. rewrite map_app, map_map. cbn [fst]. rewrite map_id.
  f_equal. exact IH.
Qed.
Lemma map_cut : forall A B (f : A -> B) l a x b, map f l = a ++ x :: b -> exists a' x' b', l = a' ++ x' :: b' /\ map f a' = a /\ f x' = x /\ map f b' = b.
Proof.
  intros A B f l a. revert l. induction a as [|y a IH]; intros [|z l] x b E; try discriminate; cbn in E; injection E as E1 E2.
  - exists [], z, l. auto.
  - destruct (IH _ _ _ E2) as (a' & x' & b' & -> & Q1 & Q2 & Q3). exists (z :: a'), x', b'. cbn. rewrite E1, Q1. auto.
Qed.
Lemma timed_then : forall l h rest a x b pp pcr, map fst l = h ++ rest -> trace h = a ++ Tab 0x14 (TTot (Some x)) :: b ++ [Pcr pp pcr] ->
  (forall e, In e b -> (forall y, e <> Tab 0x14 (TTot (Some y))) /\ forall w, e <> Pcr pp w) ->
  exists u v, tot_then_pcr l pp x u pcr v.
Proof.
  intros l h rest a x b pp pcr E T Q. pose proof (timed_fst l) as F. rewrite E, trace_app, T in F. rewrite <- app_assoc in F. cbn [app] in F.
  destruct (map_cut _ _ _ _ _ _ _ F) as (a' & [x1 u] & r & E1 & _ & X1 & R). rewrite <- app_assoc in R. cbn [app] in R.
  destruct (map_cut _ _ _ _ _ _ _ R) as (b' & [x2 v] & c & E2 & B & X2 & _). cbn [fst] in X1, X2. subst x1 x2.
  exists u, v, a', b', c. split; [rewrite E1, E2; reflexivity|]. intros e w I. apply Q. rewrite <- B. apply (in_map fst) in I. exact I.
Qed.

(** How late the clock is. *)
Lemma late_by : forall K pp E G l x u v w, ticking K pp l -> punctual E l -> frequent pp G l -> tot_then_pcr l pp x u v w ->
  exists late, 0 <= late <= E + G /\ v = (K + (27000 * x + late)) mod pcr_cycle.
Proof.
  intros K pp E G l x u v w Ti Pu Fr T. pose proof (Fr _ _ _ _ T) as F. destruct T as (a & b & c & Et & _).
  assert (I1 : In (Tab 0x14 (TTot (Some x)), u) (timed_trace l)) by (rewrite Et; apply in_elt).
  assert (I2 : In (Pcr pp v, w) (timed_trace l)) by (rewrite Et; rewrite app_comm_cons, app_assoc; apply in_elt).
  specialize (Pu _ _ I1). specialize (Ti _ _ I2). exists (w - 27000 * x). split; [lia|]. rewrite Ti. f_equal. lia.
Qed.
