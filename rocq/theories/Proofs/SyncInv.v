From Coq Require Import ZArith Lia List Bool Sorted.
From Verif Require Import Base.Outcome Base.Util Proofs.FeedProofs Proofs.PcrProofs Proofs.ScanProofs Proofs.SyncProofs Model.Pcr Model.Sink Model.Ts
  Model.EitSection Model.ServiceScanner Model.PcrSynchronizer Spec.ScanSpec Spec.SyncSpec.
Import ListNotations.
Open Scope Z_scope.

(** The state right after a PAT. *)
Record fresh (o : ps_option) (t : pat) (s : ps_state) : Prop := mkFresh {
  fr_pmt : ps_pmt_pids s = sel o t;
  fr_good : forall sid q, In (sid, q) (sel o t) -> good_q q;
  fr_pids : forall x, In x (ps_pids s) <-> x = 0 \/ x = 0x11;
  fr_count : ps_pmt_count s = 0;
  fr_map : ps_pcr_pid_map s = [];
  fr_pcr_pids : ps_pcr_pids s = [];
  fr_pcr_map : ps_pcr_map s = [];
  fr_started : ps_started s = false }.

(** The state when [post] followed the PAT. *)
Record inv (o : ps_option) (t : pat) (post : list ev) (s : ps_state) : Prop := mkInv {
  iv_pmt : ps_pmt_pids s = sel o t;
  iv_good : forall sid q, In (sid, q) (sel o t) -> good_q q;
  iv_base : In 0 (ps_pids s) /\ In 0x11 (ps_pids s);
  iv_empty : sel o t = [] -> fresh o t s;
  iv_range : forall x, In x (ps_pids s) -> x = 0 \/ x = 0x11 \/ x = 0x14 \/ exists sid, In (sid, x) (sel o t);
  iv_heard : forall x, In x (ps_pids s) -> x = 0 \/ x = 0x11 \/ exists d, latest sdt_at post d;
  iv_sdt : forall d, latest sdt_at post d -> ps_nid s = sdt_onid d /\ ps_tsid s = sdt_tsid d;
  iv_map : is_map (ps_pcr_pid_map s);
  iv_find : forall sid pp, mfind sid (ps_pcr_pid_map s) = Some pp ->
    exists q m, In (sid, q) (sel o t) /\ In q (ps_pids s) /\ latest (pmt_at q sid) post m /\ pmt_pcr_pid m = pp;
  iv_nodup : NoDup (ps_pcr_pids s);
  iv_pcr_pids : forall sid pp, mfind sid (ps_pcr_pid_map s) = Some pp -> pp <> 0x1FFF -> In pp (ps_pcr_pids s);
  iv_pcr_is_map : is_map (ps_pcr_map s);
  iv_pcr_map : forall pid c, mfind pid (ps_pcr_map s) = Some c -> In pid (ps_pcr_pids s) /\
    exists a b x, post = a ++ Pcr pid c :: b /\ In (Tab 0x14 (TTot (Some x))) a;
  iv_tot : ps_started s = true -> In 0x14 (ps_pids s) /\ latest tot_at post (ps_time s);
  iv_taken : ps_pcr_map s <> [] -> ps_started s = true }.

Lemma latest_nil : forall V (f : ev -> V -> Prop) v, ~ latest f [] v.
Proof. intros V f v H. apply latest_in in H as (x & [] & _). Qed.

Lemma fresh_inv : forall o t s, fresh o t s -> inv o t [] s.
Proof.
  intros o t s F. pose proof F as [F1 Fg F2 F3 F4 F5 F6 F7].
  split; rewrite ?F1, ?F4, ?F5, ?F6, ?F7; auto; try discriminate; try (intros; discriminate).
  - split; apply F2; auto.
  - intros x X. apply F2 in X. tauto.
  - intros x X. apply F2 in X. tauto.
  - intros d D. destruct (latest_nil _ _ _ D).
  - exact I.
  - constructor.
  - exact I.
Qed.

Lemma NoDup_zadd : forall x l, NoDup l -> NoDup (zadd x l).
Proof.
  intros x l H. unfold zadd. destruct (zmem x l) eqn:E; [exact H|]. constructor; [apply zmem_false; exact E|exact H].
Qed.

(** An event which changes nothing in the state. *)
Lemma inv_skip : forall o t post s e, inv o t post s -> (forall d, ~ sdt_at e d) -> (forall x, ps_started s = true -> ~ tot_at e x) ->
  (forall q sid m, In (sid, q) (sel o t) -> In q (ps_pids s) -> ~ pmt_at q sid e m) -> inv o t (post ++ [e]) s.
Proof.
  intros o t post s e [H1 Hg H2 H3 H4 H5 H6 H7 H8 H9 H10 H11 H12 H13 H14] N1 N2 N3. split; auto.
  - intros x X. destruct (H5 x X) as [E|[E|[d D]]]; auto. right. right. exists d. apply latest_snoc. auto.
  - intros d D. apply latest_snoc in D as [D|[_ D]]; [destruct (N1 _ D)|auto].
  - intros sid pp F. destruct (H8 sid pp F) as (q & m & M1 & M2 & M3 & M4). exists q, m. repeat split; auto.
    apply latest_snoc. right. split; [|exact M3]. intros w. apply N3; assumption.
  - intros pid c F. destruct (H12 pid c F) as (M1 & a & b & x & -> & M2). split; [exact M1|].
    exists a, (b ++ [e]), x. rewrite <- app_assoc. auto.
  - intros S. destruct (H13 S) as [M1 M2]. split; [exact M1|]. apply latest_snoc. auto.
Qed.

Lemma sel_unique : forall o t sid q q', In (sid, q) (sel o t) -> In (sid, q') (sel o t) -> q = q'.
Proof.
  intros o t sid q q' H G. apply mfind_In in H; [|apply sel_is_map]. apply mfind_In in G; [|apply sel_is_map]. congruence.
Qed.

Lemma inv_pmt : forall o t post s pid m, inv o t post s -> In pid (ps_pids s) ->
  inv o t (post ++ [Tab pid (TPmt (Some m))]) (ps_HandlePmt s pid (Some m)).
Proof.
  intros o t post s pid m V L. unfold ps_HandlePmt.
  destruct (mfind (pmt_sid m) (ps_pmt_pids s)) as [q|] eqn:E.
  2:{ apply inv_skip; [exact V|intros d D; discriminate|intros x _ X; discriminate|].
      intros q sid w S _ [W1 W2]. rewrite (iv_pmt _ _ _ _ V) in E. apply mfind_In in S; [|apply sel_is_map].
      injection W1 as -> ->. congruence. }
  destruct (negb (q =? pid)) eqn:Q.
  { apply negb_true_iff, Z.eqb_neq in Q. apply inv_skip; [exact V|intros d D; discriminate|intros x _ X; discriminate|].
    intros q' sid w S _ [W1 W2]. rewrite (iv_pmt _ _ _ _ V) in E. apply mfind_In in S; [|apply sel_is_map].
    injection W1 as -> ->. congruence. }
  apply negb_false_iff, Z.eqb_eq in Q. subst q.
  destruct V as [H1 Hg H2 H3 H4 H5 H6 H7 H8 H9 H10 H11 H12 H13 H14].
  rewrite H1 in E. apply mfind_In in E; [|apply sel_is_map].
  assert (Mono : forall x (c : bool), In x (ps_pids s) -> In x (if c then zadd PID_TOT (ps_pids s) else ps_pids s)).
  { intros x [|]; [rewrite In_zadd|]; auto. }
  assert (Sdt : exists d, latest sdt_at post d).
  { destruct (H5 pid L) as [-> |[-> |H]]; [| |exact H]; destruct (Hg _ _ E) as (G1 & G2 & _); congruence. }
  assert (Keep : forall d, latest sdt_at (post ++ [Tab pid (TPmt (Some m))]) d <-> latest sdt_at post d).
  { intros d. rewrite latest_snoc. split; [intros [D|[_ D]]; [discriminate|exact D]|intros D; right; split; [discriminate|exact D]]. }
  split; cbn [ps_pmt_pids ps_pids ps_pcr_pid_map ps_pcr_pids ps_pcr_map ps_started ps_nid ps_tsid ps_time]; auto.
  - destruct H2; auto.
  - intros S. rewrite S in E. destruct E.
  - intros x X. assert (K : x = 0x14 \/ In x (ps_pids s)).
    { destruct (_ =? _); [rewrite In_zadd in X; exact X|auto]. }
    destruct K as [K|K]; [auto|exact (H4 x K)].
  - intros x X. right. right. destruct Sdt as [d D]. exists d. apply Keep. exact D.
  - intros d D. apply Keep in D. exact (H6 d D).
  - apply is_map_minsert. exact H7.
  - intros sid pp F. rewrite mfind_minsert in F. destruct (sid =? pmt_sid m) eqn:Q.
    + apply Z.eqb_eq in Q. injection F as <-. exists pid, m. subst sid. repeat split; auto.
      apply latest_snoc. left. split; reflexivity.
    + apply Z.eqb_neq in Q. destruct (H8 sid pp F) as (q & w & M1 & M2 & M3 & M4). exists q, w. repeat split; auto.
      apply latest_snoc. right. split; [|exact M3]. intros u [U1 U2]. injection U1 as -> ->. congruence.
  - destruct (negb _); [apply NoDup_zadd|]; exact H9.
  - intros sid pp F N. rewrite mfind_minsert in F. destruct (sid =? pmt_sid m) eqn:Q.
    + injection F as <-. apply Z.eqb_neq in N. unfold PID_NULL. rewrite N. cbn. apply In_zadd. auto.
    + specialize (H10 sid pp F N). destruct (negb _); [apply In_zadd|]; auto.
  - intros p c F. destruct (H12 p c F) as (M1 & a & b & x & -> & M2). split.
    + destruct (negb _); [apply In_zadd|]; auto.
    + exists a, (b ++ [Tab pid (TPmt (Some m))]), x. rewrite <- app_assoc. auto.
  - intros S. destruct (H13 S) as [M1 M2]. split; [apply Mono; exact M1|]. apply latest_snoc. right. split; [discriminate|exact M2].
Qed.

Lemma inv_sdt : forall o t post s d, inv o t post s ->
  inv o t (post ++ [Tab 0x11 (TSdt (Some d))]) (ps_HandleSdt s (Some d)).
Proof.
  intros o t post s d [H1 Hg H2 H3 H4 H5 H6 H7 H8 H9 H10 H11 H12 H13 H14]. rewrite sdt_state.
  assert (Mono : forall x, In x (ps_pids s) -> In x (snd (ps_count d (ps_pmt_pids s) (ps_pmt_count s) (ps_pids s)))).
  { intros x X. apply count_pids. auto. }
  split; cbn [ps_pmt_pids ps_pids ps_pcr_pid_map ps_pcr_pids ps_pcr_map ps_started ps_nid ps_tsid ps_time]; auto.
  - destruct H2; auto.
  - intros S. destruct (H3 S) as [F1 Fg F2 F3 F4 F5 F6 F7].
    split; cbn [ps_pmt_pids ps_pids ps_pcr_pid_map ps_pcr_pids ps_pcr_map ps_started ps_pmt_count]; auto.
    + intros x. rewrite H1, S. cbn. apply F2.
    + rewrite H1, S. cbn. exact F3.
  - intros x X. apply count_pids in X as [X|(sid & v & X & _)]; [exact (H4 x X)|]. rewrite H1 in X. eauto.
  - intros x X. right. right. exists d. apply latest_snoc. left. reflexivity.
  - intros d' D. apply latest_snoc in D as [D|[D _]]; [injection D as <-; auto|]. destruct (D d eq_refl).
  - intros sid pp F. destruct (H8 sid pp F) as (q & w & M1 & M2 & M3 & M4). exists q, w. repeat split; auto.
    apply latest_snoc. right. split; [|exact M3]. intros u [U1 U2]. discriminate.
  - intros p c F. destruct (H12 p c F) as (M1 & a & b & x & -> & M2). split; [exact M1|].
    eexists a, (b ++ [_]), x. rewrite <- app_assoc. split; [reflexivity|exact M2].
  - intros S. destruct (H13 S) as [M1 M2]. split; [apply Mono; exact M1|]. apply latest_snoc. right. split; [discriminate|exact M2].
Qed.

Lemma inv_tot : forall o t post s x, inv o t post s -> In 0x14 (ps_pids s) ->
  inv o t (post ++ [Tab 0x14 (TTot (Some x))]) (ps_HandleTot s (Some x)).
Proof.
  intros o t post s x [H1 Hg H2 H3 H4 H5 H6 H7 H8 H9 H10 H11 H12 H13 H14] L. unfold ps_HandleTot.
  split; cbn [ps_pmt_pids ps_pids ps_pcr_pid_map ps_pcr_pids ps_pcr_map ps_started ps_nid ps_tsid ps_time]; auto.
  - intros S. apply H3 in S as [_ _ F2 _ _ _ _ _]. apply F2 in L as [L|L]; discriminate.
  - intros y Y. destruct (H5 y Y) as [E|[E|[d D]]]; auto. right. right. exists d. apply latest_snoc. right. split; [discriminate|exact D].
  - intros d D. apply latest_snoc in D as [D|[_ D]]; [discriminate|auto].
  - intros sid pp F. destruct (H8 sid pp F) as (q & w & M1 & M2 & M3 & M4). exists q, w. repeat split; auto.
    apply latest_snoc. right. split; [|exact M3]. intros u [U1 U2]. discriminate.
  - intros p c F. destruct (H12 p c F) as (M1 & a & b & y & -> & M2). split; [exact M1|].
    eexists a, (b ++ [_]), y. rewrite <- app_assoc. split; [reflexivity|exact M2].
  - intros _. split; [exact L|]. apply latest_snoc. left. reflexivity.
Qed.

Lemma inv_take : forall o t post s pid c, inv o t post s -> inv o t (post ++ [Pcr pid c]) (ps_take s pid c).
Proof.
  intros o t post s pid c V. unfold ps_take.
  destruct (ps_started s) eqn:S; cbn [andb].
  2:{ apply inv_skip; [exact V|intros d D; discriminate|intros x _ X; discriminate|]. intros q sid m _ _ [U _]. discriminate. }
  assert (Q : inv o t (post ++ [Pcr pid c]) s).
  { apply inv_skip; [exact V|intros d D; discriminate|intros x _ X; discriminate|]. intros q sid m _ _ [U _]. discriminate. }
  destruct (zmem pid (ps_pcr_pids s)) eqn:M; cbn [andb]; [|exact Q].
  destruct (mfind pid (ps_pcr_map s)) eqn:F; [exact Q|]. apply zmem_In in M.
  destruct Q as [H1 Hg H2 H3 H4 H5 H6 H7 H8 H9 H10 H11 H12 H13 H14].
  split; cbn [ps_pmt_pids ps_pids ps_pcr_pid_map ps_pcr_pids ps_pcr_map ps_started ps_nid ps_tsid ps_time]; auto.
  - intros E. apply H3 in E as [_ _ _ _ _ F5 _ _]. rewrite F5 in M. destruct M.
  - apply is_map_minsert. exact H11.
  - intros p d G. rewrite mfind_minsert in G. destruct (p =? pid) eqn:Q.
    + apply Z.eqb_eq in Q as ->. injection G as <-. split; [exact M|].
      destruct (iv_tot _ _ _ _ V S) as [_ T]. apply latest_in in T as (x & T1 & ->).
      exists post, [], (ps_time s). auto.
    + exact (H12 p d G).
Qed.

(** One event other than a PAT. *)
Lemma inv_step : forall o t post s e, proper [e] -> (forall u, ~ pat_at e u) -> inv o t post s ->
  inv o t (post ++ [e]) (estep o s e).
Proof.
  intros o t post s e P N V. destruct e as [pid b|pid c]; cbn [estep].
  2:{ destruct (ps_done s); [|apply inv_take; exact V].
      apply inv_skip; [exact V|intros d D; discriminate|intros x _ X; discriminate|]. intros q sid m _ _ [U _]. discriminate. }
  destruct (zmem pid (ps_pids s)) eqn:L.
  - apply zmem_In in L.
    assert (Skip : (forall d, b <> TSdt (Some d)) -> (forall x, b <> TTot (Some x)) -> (forall m, b <> TPmt (Some m)) ->
      inv o t (post ++ [Tab pid b]) s).
    { intros N1 N2 N3. apply inv_skip; [exact V| | |].
      - intros d D. injection D as _ D. exact (N1 d D).
      - intros x _ D. injection D as _ D. exact (N2 x D).
      - intros q sid m _ _ [D _]. injection D as _ D. exact (N3 m D). }
    specialize (P _ _ (or_introl eq_refl)).
    destruct b as [u| |u| |u|u| |]; cbn [ps_tab]; try (apply Skip; discriminate).
    + unfold ps_HandlePat, PID_PAT. destruct (Z.eqb_spec pid 0) as [->|E]; cbn [negb]; [|apply Skip; discriminate].
      destruct u as [u|]; [|apply Skip; discriminate]. destruct (Z.eqb_spec (pat_tsid u) 0) as [E|E]; [apply Skip; discriminate|].
      destruct (N u). split; [reflexivity|exact E].
    + destruct u as [m|]; [|apply Skip; discriminate]. apply inv_pmt; assumption.
    + destruct u as [x|]; [|apply Skip; discriminate]. subst pid. apply inv_tot; assumption.
    + destruct u as [d|]; [|apply Skip; discriminate]. subst pid. apply inv_sdt. exact V.
  - apply zmem_false in L. specialize (P _ _ (or_introl eq_refl)). apply inv_skip; [exact V| | |].
    + intros d D. injection D as -> ->. apply L. apply (iv_base _ _ _ _ V).
    + intros x S D. injection D as -> ->. apply L. apply (iv_tot _ _ _ _ V S).
    + intros q sid m S Q [D _]. injection D as -> ->. contradiction.
Qed.

Lemma inv_steps : forall o t post s, proper post -> (forall e u, In e post -> ~ pat_at e u) -> fresh o t s ->
  inv o t post (esteps o s post).
Proof.
  intros o t post s P N F. induction post as [|e post IH] using rev_ind.
  - apply fresh_inv. exact F.
  - rewrite esteps_snoc. apply proper_app in P as [P1 P2]. apply inv_step; [exact P2| |].
    + intros u. apply N. apply in_app_iff. cbn. auto.
    + apply IH; [exact P1|]. intros x u X. apply N. apply in_app_iff. auto.
Qed.

(** A PAT. *)
Lemma sel_empty_dec : forall o t, {sel o t = []} + {sel o t <> []}.
Proof. intros. destruct (sel o t); [left; reflexivity|right; discriminate]. Qed.

Definition virgin (s : ps_state) : Prop :=
  ps_pmt_pids s = [] /\ (forall x, In x (ps_pids s) <-> x = 0) /\ ps_pmt_count s = 0 /\ ps_pcr_pid_map s = [] /\
  ps_pcr_pids s = [] /\ ps_pcr_map s = [] /\ ps_started s = false.

Lemma pat_virgin : forall o s t, proper [Tab 0 (TPat (Some t))] -> pat_tsid t <> 0 -> virgin s ->
  fresh o t (ps_HandlePat o s 0 (Some t)).
Proof.
  intros o s t P N (V1 & V2 & V3 & V4 & V5 & V6 & V7). unfold ps_HandlePat. cbn [negb Z.eqb PID_PAT]. apply Z.eqb_neq in N. rewrite N, V1.
  split; cbn [ps_pmt_pids ps_pids ps_pcr_pid_map ps_pcr_pids ps_pcr_map ps_started ps_pmt_count]; auto.
  - exact (proper_pat 0 t P o).
  - intros x. rewrite In_zadd, V2. unfold PID_SDT. tauto.
Qed.

Lemma pat_inv : forall o s t post t', proper [Tab 0 (TPat (Some t'))] -> pat_tsid t' <> 0 -> inv o t post s ->
  fresh o t' (ps_HandlePat o s 0 (Some t')).
Proof.
  intros o s t post t' P N V. unfold ps_HandlePat. cbn [negb Z.eqb PID_PAT]. apply Z.eqb_neq in N. rewrite N.
  rewrite (iv_pmt _ _ _ _ V). destruct (sel o t) as [|e l] eqn:E.
  - destruct (iv_empty _ _ _ _ V E) as [F1 Fg F2 F3 F4 F5 F6 F7].
    split; cbn [ps_pmt_pids ps_pids ps_pcr_pid_map ps_pcr_pids ps_pcr_map ps_started ps_pmt_count]; auto.
    + exact (proper_pat 0 t' P o).
    + intros x. rewrite In_zadd, F2. unfold PID_SDT. tauto.
  - split; try reflexivity.
    + exact (proper_pat 0 t' P o).
    + intros x. cbn [ps_pids]. rewrite In_zadd, In_reset, (iv_pmt _ _ _ _ V). unfold PID_SDT. split.
      * intros [X|(X & X1 & X2 & X3)]; [auto|]. destruct (iv_range _ _ _ _ V x X) as [K|[K|[K|[sid K]]]]; [auto|auto|contradiction|].
        destruct (X3 sid K).
      * intros [-> | ->]; [right|auto]. split; [apply (iv_base _ _ _ _ V)|]. repeat split; try discriminate.
        intros sid K. destruct (iv_good _ _ _ _ V sid 0) as [G _]; [exact K|]. congruence.
Qed.

(** Everything. *)
Lemma is_pat_dec : forall e, (exists u, pat_at e u) \/ (forall u, ~ pat_at e u).
Proof.
  intros e. destruct e as [pid [[u|]| |t| |t|t| |]|pid c]; try (right; intros u [H _]; discriminate).
  destruct (Z.eqb_spec pid 0) as [->|N]; [|right; intros w [H _]; injection H as H _; congruence].
  destruct (Z.eqb_spec (pat_tsid u) 0) as [E|E].
  - right. intros w [H G]. injection H as <-. congruence.
  - left. exists u. split; [reflexivity|exact E].
Qed.

Lemma virgin_step : forall o s e, (forall u, ~ pat_at e u) -> proper [e] -> virgin s -> virgin (estep o s e).
Proof.
  intros o s e N P V. pose proof V as (V1 & V2 & V3 & V4 & V5 & V6 & V7). destruct e as [pid b|pid c]; cbn [estep].
  2:{ destruct (ps_done s); [exact V|]. unfold ps_take. rewrite V7. exact V. }
  destruct (zmem pid (ps_pids s)) eqn:L; [|exact V]. apply zmem_In, V2 in L. subst pid.
  specialize (P _ _ (or_introl eq_refl)).
  destruct b as [u| |u| |u|u| |]; cbn [ps_tab]; try exact V.
  - unfold ps_HandlePat. cbn [negb Z.eqb PID_PAT]. destruct u as [u|]; [|exact V].
    destruct (Z.eqb_spec (pat_tsid u) 0) as [E|E]; [exact V|]. destruct (N u). split; [reflexivity|exact E].
  - unfold ps_HandlePmt. rewrite V1. destruct u; exact V.
  - destruct u; [discriminate|exact V].
  - destruct u; [discriminate|exact V].
Qed.

Lemma trace_inv : forall o tr, proper tr ->
  (no_pat tr /\ virgin (esteps o ps_init tr)) \/
  exists t post, since_pat tr t post /\ inv o t post (esteps o ps_init tr).
Proof.
  intros o tr P. induction tr as [|e tr IH] using rev_ind.
  - left. split; [intros e u []|]. repeat split; cbn; auto. intros [H|[]]; auto.
  - apply proper_app in P as [P1 P2]. specialize (IH P1). rewrite esteps_snoc.
    destruct (is_pat_dec e) as [[u U]|N].
    + right. exists u, []. split; [exists tr, e; split; [reflexivity|]; split; [exact U|intros y w []]|].
      apply fresh_inv. destruct U as [-> U]. cbn [estep].
      assert (B : base_ok (esteps o ps_init tr)) by (apply esteps_base; [exact P1|exact base_init]).
      destruct B as [B _]. apply zmem_In in B. rewrite B. cbn [ps_tab].
      destruct IH as [[_ V]|(t & post & _ & V)]; [apply pat_virgin|eapply pat_inv]; eassumption.
    + destruct IH as [[H V]|(t & post & (a & x & -> & X & H) & V)].
      * left. split; [|apply virgin_step; assumption]. intros y u Y. apply in_app_iff in Y as [Y|[<-|[]]]; auto.
      * right. exists t, (post ++ [e]). split; [|apply inv_step; assumption].
        exists a, x. split; [rewrite <- app_assoc; reflexivity|]. split; [exact X|].
        intros y u Y. apply in_app_iff in Y as [Y|[<-|[]]]; auto.
Qed.
