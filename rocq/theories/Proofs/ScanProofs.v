From Coq Require Import ZArith Lia List Bool Sorted.
From Verif Require Import Spec.FeedSpec Base.Outcome Base.Util Proofs.FeedProofs Model.Sink Model.Ts Model.EitSection Model.ServiceScanner Spec.ScanSpec.
Import ListNotations.
Open Scope Z_scope.

(** * The latest element with a property *)

Definition lastq {X T} (P : X -> T -> Prop) (Q : X -> Prop) (ts : list X) (t : T) : Prop :=
  exists pre x post, ts = pre ++ x :: post /\ P x t /\ forall y, In y post -> ~ Q y.

Lemma lastq_nil : forall X T (P : X -> T -> Prop) Q t, ~ lastq P Q [] t.
Proof. intros X T P Q t (pre & x & post & E & _). destruct pre; discriminate. Qed.

Lemma lastq_snoc : forall X T (P : X -> T -> Prop) Q ts x t,
  lastq P Q (ts ++ [x]) t <-> P x t \/ ~ Q x /\ lastq P Q ts t.
Proof.
  intros X T P Q ts x t. split.
  - intros (pre & y & post & E & H1 & H2). destruct (rev post) as [|z r] eqn:R.
    + assert (post = []) as -> by (rewrite <- (rev_involutive post), R; reflexivity).
      apply app_inj_tail in E as [_ ->]. auto.
    + assert (post = rev r ++ [z]) as -> by (rewrite <- (rev_involutive post), R; reflexivity).
      rewrite app_comm_cons, app_assoc in E. apply app_inj_tail in E as [-> ->].
      right. split; [apply H2; apply in_app_iff; cbn; auto|].
      exists pre, y, (rev r). split; [reflexivity|]. split; [assumption|]. intros w W. apply H2. apply in_app_iff. auto.
  - intros [H|[H (pre & y & post & -> & H1 & H2)]].
    + exists ts, x, []. split; [reflexivity|]. split; [assumption|]. intros y [].
    + exists pre, y, (post ++ [x]). split; [rewrite <- app_assoc; reflexivity|]. split; [assumption|].
      intros w W. apply in_app_iff in W as [W|[<-|[]]]; auto.
Qed.

Definition pat_like (x : Z * body) : Prop := exists t, good_pat x t.
Definition sdt_like (x : Z * body) : Prop := exists t, good_sdt x t.
Definition nit_like (x : Z * body) : Prop :=
  (exists t, good_nit x t) \/ exists t q, good_pat x t /\ moves_nit t q.

Lemma last_pat_q : forall ts t, last_pat ts t <-> lastq good_pat pat_like ts t.
Proof.
  intros ts t. split; intros (pre & x & post & E & H1 & H2); exists pre, x, post; (do 2 (split; [assumption|])).
  - intros y Y [u U]. exact (H2 y u Y U).
  - intros y u Y U. apply (H2 y Y). exists u. exact U.
Qed.
Lemma last_sdt_q : forall ts t, last_sdt ts t <-> lastq good_sdt sdt_like ts t.
Proof.
  intros ts t. split; intros (pre & x & post & E & H1 & H2); exists pre, x, post; (do 2 (split; [assumption|])).
  - intros y Y [u U]. exact (H2 y u Y U).
  - intros y u Y U. apply (H2 y Y). exists u. exact U.
Qed.
Lemma last_nit_q : forall ts t, last_nit ts t <-> lastq good_nit nit_like ts t.
Proof.
  intros ts t. split.
  - intros (pre & x & post & E & H1 & H2 & H3). exists pre, x, post. do 2 (split; [assumption|]).
    intros y Y [[u U]|(u & q & U & M)]; [exact (H2 y u Y U)|exact (H3 y u q Y U M)].
  - intros (pre & x & post & E & H1 & H2). exists pre, x, post. do 2 (split; [assumption|]). split.
    + intros y u Y U. apply (H2 y Y). left. eauto.
    + intros y u q Y U M. apply (H2 y Y). right. eauto.
Qed.

(** * PAT *)

Lemma mfind_split : forall V (l : list (Z * V)) k v, mfind k (rev l) = Some v <->
  exists pre post, l = pre ++ (k, v) :: post /\ forall w, ~ In (k, w) post.
Proof.
  intros V l k v. split.
  - induction l as [|[a b] l IH] using rev_ind; cbn; [discriminate|]. rewrite rev_app_distr. cbn.
    destruct (k =? a) eqn:E.
    + apply Z.eqb_eq in E as <-. intros H. injection H as <-. exists l, []. split; [reflexivity|]. intros w [].
    + intros H. apply IH in H as (pre & post & -> & H). exists pre, (post ++ [(a, b)]). rewrite <- app_assoc. split; [reflexivity|].
      intros w W. apply in_app_iff in W as [W|[W|[]]]; [exact (H w W)|]. injection W as -> _. apply Z.eqb_neq in E. congruence.
  - intros (pre & post & -> & H). induction post as [|[a b] post IH] using rev_ind.
    + rewrite rev_app_distr. cbn. rewrite Z.eqb_refl. reflexivity.
    + rewrite app_comm_cons, app_assoc, rev_app_distr. cbn. destruct (k =? a) eqn:E.
      * apply Z.eqb_eq in E as <-. exfalso. apply (H b). apply in_app_iff. cbn. auto.
      * apply IH. intros w W. apply (H w). apply in_app_iff. auto.
Qed.

Lemma mfind_filter : forall V (l : list (Z * V)) (f : Z -> bool) k, f k = true ->
  mfind k (filter (fun e => f (fst e)) l) = mfind k l.
Proof.
  intros V l f k F. induction l as [|[a b] l IH]; cbn; [reflexivity|].
  destruct (k =? a) eqn:E.
  - apply Z.eqb_eq in E as <-. rewrite F. cbn. rewrite Z.eqb_refl. reflexivity.
  - destruct (f a); cbn; [rewrite E|]; assumption.
Qed.

Lemma filter_rev : forall A (f : A -> bool) l, rev (filter f l) = filter f (rev l).
Proof.
  intros A f l. induction l as [|a l IH]; cbn; [reflexivity|]. rewrite filter_app. cbn.
  destruct (f a); cbn; rewrite IH, ?app_nil_r; reflexivity.
Qed.

Lemma pat_nit_pid_spec : forall t pid,
  negb (pat_nit_pid t =? PID_NULL) && negb (pat_nit_pid t =? PID_NIT) = true /\ pat_nit_pid t = pid <-> moves_nit t pid.
Proof.
  intros t pid. unfold pat_nit_pid, moves_nit. rewrite mfind_map_of, filter_rev, (mfind_filter _ _ (fun k => k =? 0)) by reflexivity.
  rewrite <- mfind_split. destruct (mfind 0 (rev (pat_entries t))) as [q|].
  - rewrite andb_true_iff, !negb_true_iff, !Z.eqb_neq. unfold PID_NULL, PID_NIT. split.
    + intros [[H1 H2] <-]. auto.
    + intros [H [H1 H2]]. injection H as ->. auto.
  - cbn. split; intros [H _]; discriminate.
Qed.

Lemma moves_nit_dec : forall t, {exists q, moves_nit t q} + {forall q, ~ moves_nit t q}.
Proof.
  intros t. destruct (negb (pat_nit_pid t =? PID_NULL) && negb (pat_nit_pid t =? PID_NIT)) eqn:E.
  - left. exists (pat_nit_pid t). apply pat_nit_pid_spec. auto.
  - right. intros q H. apply pat_nit_pid_spec in H as [H _]. congruence.
Qed.

(** * The state after some tables *)

Definition sc_step (s : sc_state) (x : Z * body) : sc_state :=
  match snd x with
  | TPat t => sc_HandlePat s (fst x) t
  | TNit t => sc_HandleNit s t
  | TSdt t => sc_HandleSdt s t
  | _ => s
  end.

Definition sc_inv (ts : list (Z * body)) (s : sc_state) : Prop :=
  (forall pid, In pid (sc_pids s) <-> listens ts pid) /\
  (forall t, sc_pat s = Some t <-> last_pat ts t) /\
  (forall t, sc_sdt s = Some t <-> last_sdt ts t) /\
  (forall t, sc_nit s = Some t <-> last_nit ts t) /\
  sc_out s = [].

Lemma sc_inv_init : sc_inv [] sc_init.
Proof.
  unfold sc_inv, sc_init. cbn [sc_pids sc_pat sc_sdt sc_nit sc_out]. repeat split; intros H; try discriminate.
  - cbn in H. unfold listens. destruct H as [<-|[<-|[<-|[]]]]; [auto| |auto].
    right. right. left. split; [reflexivity|]. intros x t q [].
  - unfold listens in H. unfold PID_PAT, PID_NIT, PID_SDT. destruct H as [->|[->|[[-> _]|(x & t & [] & _)]]]; cbn; auto.
  - apply last_pat_q in H. destruct (lastq_nil _ _ _ _ _ H).
  - apply last_sdt_q in H. destruct (lastq_nil _ _ _ _ _ H).
  - apply last_nit_q in H. destruct (lastq_nil _ _ _ _ _ H).
Qed.

(** A table that is no accepted PAT changes no PIDs. *)
Lemma listens_same : forall ts x pid, (forall t q, good_pat x t -> ~ moves_nit t q) -> (listens (ts ++ [x]) pid <-> listens ts pid).
Proof.
  intros ts x pid N. unfold listens. split.
  - intros [H|[H|[[-> H]|(y & t & Y & G & M)]]]; auto.
    + right. right. left. split; [reflexivity|]. intros y t q Y. apply H. apply in_app_iff. auto.
    + apply in_app_iff in Y as [Y|[<-|[]]].
      * right. right. right. exists y, t. auto.
      * destruct (N t pid G M).
  - intros [H|[H|[[-> H]|(y & t & Y & G & M)]]]; auto.
    + right. right. left. split; [reflexivity|]. intros y t q Y. apply in_app_iff in Y as [Y|[<-|[]]]; [apply H; assumption|apply N].
    + right. right. right. exists y, t. split; [apply in_app_iff; auto|auto].
Qed.

Lemma listens_moved : forall ts x t q pid, good_pat x t -> moves_nit t q ->
  (listens (ts ++ [x]) pid <-> pid = q \/ pid <> 0x10 /\ listens ts pid).
Proof.
  intros ts x t q pid G M. assert (U : forall t' q', good_pat x t' -> moves_nit t' q' -> q' = q).
  { intros t' q' [E _] M'. destruct G as [G _]. rewrite G in E. injection E as <-.
    apply pat_nit_pid_spec in M as [_ <-]. apply pat_nit_pid_spec in M' as [_ <-]. reflexivity. }
  unfold listens. split.
  - intros [->|[->|[[-> H]|(y & u & Y & Gu & Mu)]]].
    + right. split; [lia|auto].
    + right. split; [lia|auto].
    + exfalso. apply (H x t q); [apply in_app_iff; cbn; auto|assumption|assumption].
    + apply in_app_iff in Y as [Y|[<-|[]]].
      * right. split; [apply Mu|]. right. right. right. exists y, u. auto.
      * left. exact (U u pid Gu Mu).
  - intros [->|[N [->|[->|[[-> H]|(y & u & Y & Gu & Mu)]]]]]; auto.
    + right. right. right. exists x, t. split; [apply in_app_iff; cbn; auto|auto].
    + lia.
    + right. right. right. exists y, u. split; [apply in_app_iff; auto|auto].
Qed.

Lemma option_iff : forall A (a : A) (P : A -> Prop), (forall t, Some a = Some t <-> P t) <-> (forall t, P t <-> t = a).
Proof.
  intros A a P. split; intros H t; split; intros G.
  - apply H in G. congruence.
  - subst. apply H. reflexivity.
  - injection G as <-. apply H. reflexivity.
  - apply H in G. congruence.
Qed.

(** Tables that the scanner ignores. *)
Lemma sc_ignored : forall ts s x, sc_inv ts s -> (forall t, ~ good_pat x t) -> (forall t, ~ good_sdt x t) -> (forall t, ~ good_nit x t) ->
  sc_inv (ts ++ [x]) s.
Proof.
  intros ts s x (I1 & I2 & I3 & I4 & I5) N1 N2 N3. unfold sc_inv. split; [|split; [|split; [|split]]]; [| | | |assumption].
  - intros pid. rewrite listens_same; [apply I1|]. intros t q G. destruct (N1 t G).
  - intros t. rewrite last_pat_q, lastq_snoc, <- last_pat_q, I2. split; [right; split; [intros [u U]; exact (N1 u U)|assumption]|].
    intros [H|[_ H]]; [destruct (N1 t H)|assumption].
  - intros t. rewrite last_sdt_q, lastq_snoc, <- last_sdt_q, I3. split; [right; split; [intros [u U]; exact (N2 u U)|assumption]|].
    intros [H|[_ H]]; [destruct (N2 t H)|assumption].
  - intros t. rewrite last_nit_q, lastq_snoc, <- last_nit_q, I4. split.
    + right. split; [|assumption]. intros [[u U]|(u & q & U & _)]; [exact (N3 u U)|exact (N1 u U)].
    + intros [H|[_ H]]; [destruct (N3 t H)|assumption].
Qed.

Lemma sc_inv_step : forall ts s x, sc_inv ts s -> sc_inv (ts ++ [x]) (sc_step s x).
Proof.
  intros ts s [pid b] I. pose proof I as (I1 & I2 & I3 & I4 & I5).
  assert (Ig : (forall t, ~ good_pat (pid, b) t) -> (forall t, ~ good_sdt (pid, b) t) -> (forall t, ~ good_nit (pid, b) t) -> sc_inv (ts ++ [(pid, b)]) s)
    by (apply sc_ignored; assumption).
  destruct b as [t|t|t|t|t|t|t|]; unfold sc_step; cbn [fst snd];
    try (apply Ig; [intros u [H _]; discriminate|intros u [H _]; discriminate|intros u H; discriminate]).
  - (* PAT *)
    unfold sc_HandlePat. destruct (negb (pid =? PID_PAT)) eqn:Ep.
    { apply Ig; [|intros u [H _]; discriminate|intros u H; discriminate].
      intros u [H _]. injection H as -> _. discriminate. }
    apply negb_false_iff, Z.eqb_eq in Ep. unfold PID_PAT in Ep. subst pid.
    destruct t as [t|]; [|apply Ig; [intros u [H _]; discriminate|intros u [H _]; discriminate|intros u H; discriminate]].
    destruct (pat_tsid t =? 0) eqn:Et.
    { apply Ig; [|intros u [H _]; discriminate|intros u H; discriminate].
      intros u [H T]. injection H as ->. apply Z.eqb_eq in Et. contradiction. }
    apply Z.eqb_neq in Et. set (x := (0, TPat (Some t))). assert (G : good_pat x t) by (split; [reflexivity|assumption]).
    assert (U : forall u, good_pat x u <-> u = t).
    { intros u. split; [intros [H _]; injection H as <-; reflexivity|intros ->; exact G]. }
    assert (Pt : forall u, last_pat (ts ++ [x]) u <-> u = t).
    { intros u. rewrite last_pat_q, lastq_snoc, U. split; [|auto]. intros [H|[H _]]; [assumption|]. destruct H. exists t. exact G. }
    assert (St : forall u, last_sdt (ts ++ [x]) u <-> last_sdt ts u).
    { intros u. rewrite !last_sdt_q, lastq_snoc. split.
      - intros [[H _]|[_ H]]; [discriminate|assumption].
      - intros H. right. split; [intros [w [W _]]; discriminate|assumption]. }
    destruct (negb (pat_nit_pid t =? PID_NULL) && negb (pat_nit_pid t =? PID_NIT)) eqn:Em.
    + assert (M : moves_nit t (pat_nit_pid t)) by (apply pat_nit_pid_spec; auto).
      unfold sc_inv. cbn [sc_pids sc_pat sc_sdt sc_nit sc_out]. split; [|split; [|split; [|split]]].
      * intros q. rewrite In_zadd, In_zrem, I1, (listens_moved ts x t (pat_nit_pid t) q G M). reflexivity.
      * apply option_iff. exact Pt.
      * intros u. rewrite I3, St. reflexivity.
      * intros u. split; [discriminate|]. rewrite last_nit_q, lastq_snoc. intros [H|[H _]]; [discriminate|].
        destruct H. right. exists t, (pat_nit_pid t). auto.
      * assumption.
    + assert (M : forall u q, good_pat x u -> ~ moves_nit u q).
      { intros u q Gu Mu. apply U in Gu as ->. apply pat_nit_pid_spec in Mu as [Mu _]. congruence. }
      unfold sc_inv. cbn [sc_pids sc_pat sc_sdt sc_nit sc_out]. split; [|split; [|split; [|split]]].
      * intros q. rewrite listens_same by exact M. apply I1.
      * apply option_iff. exact Pt.
      * intros u. rewrite I3, St. reflexivity.
      * intros u. rewrite I4, !last_nit_q, lastq_snoc. split.
        -- right. split; [|assumption]. intros [[w W]|(w & q & W & Mw)]; [discriminate|exact (M w q W Mw)].
        -- intros [H|[_ H]]; [discriminate|assumption].
      * assumption.
  - (* SDT *)
    unfold sc_HandleSdt. destruct t as [t|]; [|apply Ig; [intros u [H _]; discriminate|intros u [H _]; discriminate|intros u H; discriminate]].
    destruct (sdt_tsid t =? 0) eqn:Et.
    { apply Ig; [intros u [H _]; discriminate| |intros u H; discriminate].
      intros u [H T]. injection H as ->. apply Z.eqb_eq in Et. contradiction. }
    apply Z.eqb_neq in Et. set (x := (pid, TSdt (Some t))). assert (G : good_sdt x t) by (split; [reflexivity|assumption]).
    unfold sc_inv. cbn [sc_pids sc_pat sc_sdt sc_nit sc_out]. split; [|split; [|split; [|split]]].
    + intros q. rewrite listens_same; [apply I1|]. intros u w [H _]. discriminate.
    + intros u. rewrite I2, !last_pat_q, lastq_snoc. split.
      * right. split; [intros [w [W _]]; discriminate|assumption].
      * intros [[H _]|[_ H]]; [discriminate|assumption].
    + apply option_iff. intros u. rewrite last_sdt_q, lastq_snoc. split.
      * intros [[H _]|[H _]]; [injection H as <-; reflexivity|]. destruct H. exists t. exact G.
      * intros ->. auto.
    + intros u. rewrite I4, !last_nit_q, lastq_snoc. split.
      * right. split; [|assumption]. intros [[w W]|(w & q & [W _] & _)]; discriminate.
      * intros [H|[_ H]]; [discriminate|assumption].
    + assumption.
  - (* NIT *)
    unfold sc_HandleNit. destruct t as [t|]; [|apply Ig; [intros u [H _]; discriminate|intros u [H _]; discriminate|intros u H; discriminate]].
    set (x := (pid, TNit (Some t))). assert (G : good_nit x t) by reflexivity.
    unfold sc_inv. cbn [sc_pids sc_pat sc_sdt sc_nit sc_out]. split; [|split; [|split; [|split]]].
    + intros q. rewrite listens_same; [apply I1|]. intros u w [H _]. discriminate.
    + intros u. rewrite I2, !last_pat_q, lastq_snoc. split.
      * right. split; [intros [w [W _]]; discriminate|assumption].
      * intros [[H _]|[_ H]]; [discriminate|assumption].
    + intros u. rewrite I3, !last_sdt_q, lastq_snoc. split.
      * right. split; [intros [w [W _]]; discriminate|assumption].
      * intros [[H _]|[_ H]]; [discriminate|assumption].
    + apply option_iff. intros u. rewrite last_nit_q, lastq_snoc. split.
      * intros [H|[H _]]; [injection H as <-; reflexivity|]. destruct H. left. exists t. exact G.
      * intros ->. auto.
    + assumption.
Qed.

Lemma sc_tables : forall tabs ts s pid, sc_inv ts s ->
  exists s', handle_tables sc_handleTable s pid tabs = Ok s' /\ sc_inv (ts ++ map (fun t => (pid, tb_body t)) tabs) s'.
Proof.
  intros tabs. induction tabs as [|t tabs IH]; intros ts s pid I; cbn.
  - exists s. rewrite app_nil_r. auto.
  - assert (E : sc_handleTable s pid t = Ok (sc_step s (pid, tb_body t))).
    { unfold sc_handleTable, sc_step. cbn. destruct (tb_body t); reflexivity. }
    rewrite E. cbn. destruct (IH (ts ++ [(pid, tb_body t)]) (sc_step s (pid, tb_body t)) pid) as (s' & E' & I').
    + apply sc_inv_step. assumption.
    + exists s'. split; [exact E'|]. rewrite <- app_assoc in I'. exact I'.
Qed.

Lemma sc_packet : forall h ts s p, heard h ts -> sc_inv ts s ->
  exists ts' s', sc_HandlePacket s p = Ok (s', negb (sc_completed s')) /\ heard (h ++ [p]) ts' /\ sc_inv ts' s'.
Proof.
  intros h ts s p H I. unfold sc_HandlePacket, demux_feed. destruct (zmem (p_pid p) (sc_pids s)) eqn:E.
  - destruct (sc_tables (p_tabs p 0) ts s (p_pid p) I) as (s' & E' & I'). rewrite E'. cbn [bind].
    exists (ts ++ map (fun t => (p_pid p, tb_body t)) (p_tabs p 0)), s'. split; [reflexivity|]. split; [|exact I'].
    apply heard_yes; [assumption|]. destruct I as (I1 & _). apply I1. apply zmem_In. assumption.
  - cbn. exists ts, s. split; [reflexivity|]. split; [|exact I].
    apply heard_no; [assumption|]. destruct I as (I1 & _). intros L. apply I1 in L. apply zmem_In in L. congruence.
Qed.

Lemma heard_det : forall h ts ts', heard h ts -> heard h ts' -> ts = ts'.
Proof.
  intros h. induction h as [|p h IH] using rev_ind; intros ts ts' H H'.
  - inversion H; [|destruct h; discriminate|destruct h; discriminate].
    inversion H'; [|destruct h; discriminate|destruct h; discriminate]. reflexivity.
  - inversion H as [Q|h1 t1 p1 H1 L1 Q1|h1 t1 p1 H1 L1 Q1]; subst; [destruct h; discriminate| |].
    + apply app_inj_tail in Q1 as [-> ->]. inversion H' as [Q|h2 t2 p2 H2 L2 Q2|h2 t2 p2 H2 L2 Q2]; subst; [destruct h; discriminate| |].
      * apply app_inj_tail in Q2 as [-> ->]. rewrite (IH t1 t2) by assumption. reflexivity.
      * apply app_inj_tail in Q2 as [-> ->]. rewrite (IH t1 ts') in * by assumption. contradiction.
    + apply app_inj_tail in Q1 as [-> ->]. inversion H' as [Q|h2 t2 p2 H2 L2 Q2|h2 t2 p2 H2 L2 Q2]; subst; [destruct h; discriminate| |].
      * apply app_inj_tail in Q2 as [-> ->]. rewrite (IH ts t2) in * by assumption. contradiction.
      * apply app_inj_tail in Q2 as [-> ->]. apply IH; assumption.
Qed.

Lemma completed_ready : forall h ts s, heard h ts -> sc_inv ts s ->
  (sc_completed s = true <-> exists t d n, ready h t d n).
Proof.
  intros h ts s H (I1 & I2 & I3 & I4 & I5). unfold sc_completed. split.
  - destruct (sc_pat s) as [t|] eqn:E1; [|discriminate]. destruct (sc_sdt s) as [d|] eqn:E2; [|discriminate].
    destruct (sc_nit s) as [n|] eqn:E3; [|discriminate]. intros _. exists t, d, n, ts.
    split; [assumption|]. split; [apply I2; reflexivity|]. split; [apply I3; reflexivity|apply I4; reflexivity].
  - intros (t & d & n & ts' & H' & P & S & N). rewrite (heard_det h ts' ts) in * by assumption.
    apply I2 in P. apply I3 in S. apply I4 in N. rewrite P, S, N. reflexivity.
Qed.

Lemma sc_handles : forall o h s, handles (sc_sink o) sc_init h s ->
  exists ts, heard h ts /\ sc_inv ts s /\
    forall h' h'', h = h' ++ h'' -> ~ exists t d n, ready h' t d n.
Proof.
  intros o h. induction h as [|p h IH] using rev_ind; intros s H.
  - inversion H; subst. exists []. split; [constructor|]. split; [apply sc_inv_init|].
    intros h' h'' E (t & d & n & ts & Hh & (pre & x & post & Ep & _) & _). destruct h'; [|discriminate].
    inversion Hh; subst; [destruct pre; discriminate|destruct h; discriminate|destruct h; discriminate].
  - apply handles_snoc in H as (s1 & H1 & H2). destruct (IH s1 H1) as (ts & G1 & G2 & G3).
    destruct (sc_packet h ts s1 p G1 G2) as (ts' & s' & E & G4 & G5). cbn in H2. rewrite E in H2.
    injection H2 as -> C. exists ts'. split; [assumption|]. split; [assumption|].
    intros h' h'' Eh. destruct (rev h'') as [|z r] eqn:R.
    + assert (h'' = []) as -> by (rewrite <- (rev_involutive h''), R; reflexivity). rewrite app_nil_r in Eh. subst h'.
      rewrite <- (completed_ready _ _ _ G4 G5). rewrite negb_true_iff in C. congruence.
    + assert (h'' = rev r ++ [z]) as -> by (rewrite <- (rev_involutive h''), R; reflexivity).
      rewrite app_assoc in Eh. apply app_inj_tail in Eh as [Eh _]. apply (G3 h' (rev r) Eh).
Qed.

(** * The document *)

Lemma zmem_av : forall k, IsAudioVideoService k = true <-> audio_video k.
Proof.
  intros k. unfold IsAudioVideoService. rewrite zmem_In. unfold audio_video. cbn. intuition.
Qed.

Lemma logo_of_unique : forall v l, logo_of v l <-> l = sc_logo_id v.
Proof.
  intros v l. unfold logo_of, sc_logo_id. destruct (sv_logo v) as [[k i]|].
  - destruct ((k =? 1) || (k =? 2)) eqn:E.
    + apply orb_true_iff in E. rewrite !Z.eqb_eq in E. split.
      * intros [(k' & H & _)|[_ H]]; [congruence|]. destruct (H k i eq_refl). lia.
      * intros ->. left. exists k. auto.
    + apply orb_false_iff in E. rewrite !Z.eqb_neq in E. split.
      * intros [(k' & H & K)|[H _]]; [|assumption]. injection H as -> ->. lia.
      * intros ->. right. split; [reflexivity|]. intros k' i' H. injection H as <- <-. assumption.
  - split.
    + intros [(k' & H & _)|[H _]]; [discriminate|assumption].
    + intros ->. right. split; [reflexivity|]. discriminate.
Qed.

Lemma nit_find_split : forall ts a b k, nit_find ts a b = Some k <->
  exists pre post, ts = pre ++ (a, b, k) :: post /\ forall k', ~ In (a, b, k') pre.
Proof.
  intros ts a b k. split.
  - induction ts as [|[[a' b'] k'] ts IH]; cbn; [discriminate|]. destruct ((a' =? a) && (b' =? b)) eqn:E.
    + apply andb_true_iff in E as [E1 E2]. apply Z.eqb_eq in E1 as ->. apply Z.eqb_eq in E2 as ->.
      intros H. injection H as ->. exists [], ts. split; [reflexivity|]. intros k' [].
    + intros H. apply IH in H as (pre & post & -> & H). exists ((a', b', k') :: pre), post. split; [reflexivity|].
      intros k'' [Q|Q]; [|exact (H k'' Q)]. injection Q as -> -> _. rewrite !Z.eqb_refl in E. discriminate.
  - intros (pre & post & -> & H). induction pre as [|[[a' b'] k'] pre IH]; cbn.
    + rewrite !Z.eqb_refl. reflexivity.
    + destruct ((a' =? a) && (b' =? b)) eqn:E.
      * apply andb_true_iff in E as [E1 E2]. apply Z.eqb_eq in E1 as ->. apply Z.eqb_eq in E2 as ->.
        destruct (H k'). cbn. auto.
      * apply IH. intros k'' Q. apply (H k''). cbn. auto.
Qed.

Lemma nit_find_none : forall ts a b, nit_find ts a b = None <-> forall k, ~ In (a, b, k) ts.
Proof.
  intros ts a b. induction ts as [|[[a' b'] k'] ts IH]; cbn.
  - split; auto.
  - destruct ((a' =? a) && (b' =? b)) eqn:E.
    + apply andb_true_iff in E as [E1 E2]. apply Z.eqb_eq in E1 as ->. apply Z.eqb_eq in E2 as ->.
      split; [discriminate|]. intros H. destruct (H k'). auto.
    + rewrite IH. split; intros H k.
      * intros [Q|Q]; [|exact (H k Q)]. injection Q as -> -> _. rewrite !Z.eqb_refl in E. discriminate.
      * intros Q. apply (H k). auto.
Qed.

Lemma key_of_unique : forall n d key,
  key_of n d key <-> key = (if GetRemoteControlKeyId (Some n) d =? 0 then None else Some (GetRemoteControlKeyId (Some n) d)).
Proof.
  intros n d key. unfold key_of, GetRemoteControlKeyId. destruct (nit_find (nit_transports n) (sdt_tsid d) (sdt_onid d)) as [k0|] eqn:E.
  - apply nit_find_split in E as E'. destruct E' as (pre0 & post0 & E0 & N0). split.
    + intros [(pre & k & post & E1 & N & K & ->)|[-> [H|(pre & k & post & E1 & N & K)]]].
      * assert (F : nit_find (nit_transports n) (sdt_tsid d) (sdt_onid d) = Some (Some k)) by (apply nit_find_split; eauto).
        rewrite F in E. injection E as <-. apply Z.eqb_neq in K. rewrite K. reflexivity.
      * destruct (H k0). rewrite E0. apply in_app_iff. cbn. auto.
      * assert (F : nit_find (nit_transports n) (sdt_tsid d) (sdt_onid d) = Some k) by (apply nit_find_split; eauto).
        rewrite F in E. injection E as <-. destruct K as [-> | ->]; reflexivity.
    + intros ->. destruct k0 as [k|].
      * destruct (k =? 0) eqn:K.
        -- apply Z.eqb_eq in K as ->. right. split; [reflexivity|]. right. exists pre0, (Some 0), post0. auto.
        -- apply Z.eqb_neq in K. left. exists pre0, k, post0. auto.
      * cbn. right. split; [reflexivity|]. right. exists pre0, None, post0. auto.
  - rewrite nit_find_none in E. cbn. split.
    + intros [(pre & k & post & E1 & _)|[H _]]; [|assumption].
      destruct (E (Some k)). rewrite E1. apply in_app_iff. cbn. auto.
    + intros ->. right. split; [reflexivity|]. left. exact E.
Qed.

Lemma in_sdt_find : forall d sid v, in_sdt d sid v <-> mfind sid (sdt_services d) = Some v.
Proof. intros d sid v. unfold in_sdt, sdt_services. rewrite mfind_map_of, mfind_split. reflexivity. Qed.

Lemma chosen_bool : forall o sid, chosen o sid <->
  negb (ss_IsEmpty (sco_sids o)) && negb (ss_Contain (sco_sids o) sid) = false /\
  negb (ss_IsEmpty (sco_xsids o)) && ss_Contain (sco_xsids o) sid = false.
Proof.
  intros o sid. unfold chosen, ss_IsEmpty, ss_Contain.
  assert (A : sco_sids o = [] \/ In sid (sco_sids o) <->
    negb (match sco_sids o with [] => true | _ => false end) && negb (zmem sid (sco_sids o)) = false).
  { destruct (sco_sids o) as [|a l]; [cbn; split; auto|].
    rewrite <- zmem_In. destruct (zmem sid (a :: l)); cbn; split; auto; intros [H|H]; discriminate. }
  assert (B : ~ In sid (sco_xsids o) <->
    negb (match sco_xsids o with [] => true | _ => false end) && zmem sid (sco_xsids o) = false).
  { destruct (sco_xsids o) as [|a l]; [cbn; split; auto|]. rewrite <- zmem_false. reflexivity. }
  rewrite A, B. reflexivity.
Qed.

Lemma collect_in : forall o n d pmts x, In x (sc_collect o (Some n) d pmts) <->
  exists pid v, In (sd_sid x, pid) pmts /\ in_sdt d (sd_sid x) v /\ audio_video (sv_type v) /\ chosen o (sd_sid x) /\
    sd_nid x = sdt_onid d /\ sd_tsid x = sdt_tsid d /\ sd_name x = sv_name v /\ sd_type x = sv_type v /\
    logo_of v (sd_logo x) /\ key_of n d (sd_key x).
Proof.
  intros o n d pmts x. induction pmts as [|[sid pid] pmts IH].
  - cbn. split; [intros []|intros (pid & v & [] & _)].
  - cbn [sc_collect].
    assert (Skip : (forall v, sd_sid x = sid -> ~ (in_sdt d sid v /\ audio_video (sv_type v) /\ chosen o sid)) ->
      (In x (sc_collect o (Some n) d pmts) <->
       exists pid0 v, In (sd_sid x, pid0) ((sid, pid) :: pmts) /\ in_sdt d (sd_sid x) v /\ audio_video (sv_type v) /\ chosen o (sd_sid x) /\
         sd_nid x = sdt_onid d /\ sd_tsid x = sdt_tsid d /\ sd_name x = sv_name v /\ sd_type x = sv_type v /\
         logo_of v (sd_logo x) /\ key_of n d (sd_key x))).
    { intros K. rewrite IH. split; intros (p & v & H & R); exists p, v.
      - split; [right; exact H|exact R].
      - destruct H as [H|H]; [|auto]. exfalso. injection H as H _. destruct R as (R1 & R2 & R3 & _).
        rewrite <- H in *. apply (K v eq_refl). auto. }
    destruct (negb (ss_IsEmpty (sco_sids o)) && negb (ss_Contain (sco_sids o) sid)) eqn:E1.
    { apply Skip. intros v _ (_ & _ & C). apply chosen_bool in C as [C _]. congruence. }
    destruct (negb (ss_IsEmpty (sco_xsids o)) && ss_Contain (sco_xsids o) sid) eqn:E2.
    { apply Skip. intros v _ (_ & _ & C). apply chosen_bool in C as [_ C]. congruence. }
    destruct (mfind sid (sdt_services d)) as [v|] eqn:E3; [|apply Skip; intros v _ (C & _); apply in_sdt_find in C; congruence].
    destruct (negb (IsAudioVideoService (sv_type v))) eqn:E4.
    { apply Skip. intros w _ (C & W & _). apply in_sdt_find in C. rewrite E3 in C. injection C as <-. apply zmem_av in W.
      apply negb_true_iff in E4. congruence. }
    apply negb_false_iff, zmem_av in E4. apply in_sdt_find in E3. assert (C : chosen o sid) by (apply chosen_bool; auto).
    split.
    + intros [<-|H].
      * cbn [sd_sid sd_nid sd_tsid sd_name sd_type sd_logo sd_key]. exists pid, v. split; [left; reflexivity|].
        split; [exact E3|]. split; [exact E4|]. split; [exact C|]. do 4 (split; [reflexivity|]).
        split; [apply logo_of_unique; reflexivity|apply key_of_unique; reflexivity].
      * apply IH in H as (p & w & H & R). exists p, w. split; [right; exact H|exact R].
    + intros (p & w & [H|H] & R).
      * left. injection H as H _. destruct R as (R1 & R2 & R3 & R4 & R5 & R6 & R7 & R8 & R9).
        rewrite <- H in *. apply in_sdt_find in R1. apply in_sdt_find in E3. rewrite R1 in E3. injection E3 as ->.
        apply logo_of_unique in R8. apply key_of_unique in R9. destruct x; cbn in *; subst; reflexivity.
      * right. apply IH. exists p, w. split; [exact H|exact R].
Qed.

Lemma collect_sorted : forall o n d pmts lo, msorted lo pmts ->
  StronglySorted (fun a b => sd_sid a < sd_sid b) (sc_collect o n d pmts) /\ Forall (fun a => lo < sd_sid a) (sc_collect o n d pmts).
Proof.
  intros o n d pmts. induction pmts as [|[sid pid] pmts IH]; intros lo M; cbn in *.
  - split; constructor.
  - destruct M as [M1 M2]. destruct (IH sid M2) as [S F].
    assert (F' : Forall (fun a => lo < sd_sid a) (sc_collect o n d pmts)).
    { eapply Forall_impl; [|exact F]. cbn. intros a A. lia. }
    destruct (negb (ss_IsEmpty (sco_sids o)) && negb (ss_Contain (sco_sids o) sid)); [auto|].
    destruct (negb (ss_IsEmpty (sco_xsids o)) && ss_Contain (sco_xsids o) sid); [auto|].
    destruct (mfind sid (sdt_services d)); [|auto].
    destruct (negb (IsAudioVideoService (sv_type s))); [auto|].
    split; constructor; cbn; auto; lia.
Qed.

Lemma in_pat_pmts : forall t sid, in_pat t sid <-> exists pid, In (sid, pid) (pat_pmts t).
Proof.
  intros t sid. unfold in_pat, pat_pmts. split.
  - intros [N [pid H]].
    set (l := filter (fun e => negb (fst e =? 0)) (pat_entries t)).
    assert (Hl : In (sid, pid) l) by (apply filter_In; split; [assumption|apply negb_true_iff, Z.eqb_neq; assumption]).
    destruct (mfind sid (map_of l)) as [q|] eqn:E.
    + exists q. apply In_map_of_mfind. exact E.
    + exfalso. rewrite mfind_map_of in E. apply in_rev in Hl. clear -E Hl. induction (rev l) as [|[a b] r IH]; [destruct Hl|].
      cbn in E. destruct (sid =? a) eqn:Q; [discriminate|]. destruct Hl as [Hl|Hl]; [|auto].
      injection Hl as -> _. rewrite Z.eqb_refl in Q. discriminate.
  - intros [pid H]. apply In_map_of_mfind in H. rewrite mfind_map_of, mfind_split in H.
    destruct H as (pre & post & E & _). assert (H : In (sid, pid) (pre ++ (sid, pid) :: post)) by (apply in_app_iff; cbn; auto).
    rewrite <- E in H. apply filter_In in H as [H N]. cbn in N. apply negb_true_iff, Z.eqb_neq in N. eauto.
Qed.

Lemma collect_spec : forall o t d n, service_list o t d n (sc_collect o (Some n) d (pat_pmts t)).
Proof.
  intros o t d n. split.
  - destruct (is_map_msorted _ (pat_pmts t)) as [lo M]; [apply map_of_is_map|].
    exact (proj1 (collect_sorted o (Some n) d (pat_pmts t) lo M)).
  - intros x. rewrite collect_in. unfold reported. split.
    + intros (pid & v & H & R). exists v. split; [apply in_pat_pmts; eauto|exact R].
    + intros (v & H & R). apply in_pat_pmts in H as [pid H]. exists pid, v. auto.
Qed.

(** * The run *)

Lemma scan_run : forall o ps fuel code s,
  FeedPackets (list_source packet) (sc_sink o) fuel ps sc_init = Some (Ok (code, s)) ->
  (code = 1 /\ sc_out s = [] /\ forall h rest, ps = h ++ rest -> ~ exists t d n, ready h t d n) \/
  (exists h p rest t d n doc, code = 0 /\ sc_out s = [doc] /\ ps = h ++ p :: rest /\ ready (h ++ [p]) t d n /\
     service_list o t d n doc /\ forall h' h'', h = h' ++ h'' -> ~ exists t d n, ready h' t d n).
Proof.
  intros o ps fuel code s H. apply (feed_run _ (sc_sink o) ps fuel sc_init sc_init) in H; [|reflexivity].
  destruct H as (s2 & E & X & H). cbn in E, X. unfold sc_GetExitCode in X. injection X as X. destruct H as [H|(h & p & rest & s1 & -> & H & G)].
  - left. destruct (sc_handles o ps s2 H) as (ts & G1 & G2 & G3).
    assert (C : sc_completed s2 = false).
    { destruct (sc_completed s2) eqn:C; [|reflexivity]. apply (completed_ready _ _ _ G1 G2) in C.
      destruct (G3 ps []); [rewrite app_nil_r; reflexivity|exact C]. }
    unfold sc_End in E. rewrite C in E. cbn in E. injection E as <-. rewrite C in X. split; [symmetry; exact X|].
    split; [apply G2|exact G3].
  - right. destruct (sc_handles o h s1 H) as (ts & G1 & G2 & G3).
    destruct (sc_packet h ts s1 p G1 G2) as (ts' & s' & E' & G4 & G5). cbn in G. rewrite E' in G.
    injection G as -> C. apply negb_false_iff in C. unfold sc_End in E. rewrite C in E. cbn in E. pose proof C as C'.
    unfold sc_completed in C'. destruct (sc_pat s2) as [t|] eqn:Q1; [|discriminate].
    destruct (sc_sdt s2) as [d|] eqn:Q2; [|discriminate]. destruct (sc_nit s2) as [n|] eqn:Q3; [|discriminate].
    injection E as <-. destruct G5 as (J1 & J2 & J3 & J4 & J5).
    exists h, p, rest, t, d, n, (sc_collect o (Some n) d (pat_pmts t)). split; [symmetry; exact X|].
    cbn [sc_out]. rewrite J5. split; [reflexivity|]. split; [reflexivity|].
    split; [|split; [apply collect_spec|exact G3]]. exists ts'. split; [exact G4|].
    split; [apply J2; exact Q1|]. split; [apply J3; exact Q2|apply J4; exact Q3].
Qed.

Lemma scan_total : forall o, never_fails (sc_sink o).
Proof.
  intros o. split; [|split; [|split]]; cbn; eauto.
  - intros s p. unfold sc_HandlePacket.
    assert (T : forall tabs s0, exists s', handle_tables sc_handleTable s0 (p_pid p) tabs = Ok s').
    { induction tabs as [|t tabs IH]; intros s0; cbn; [eauto|]. unfold sc_handleTable at 1. destruct (tb_body t); cbn; apply IH. }
    destruct (T (demux_feed (sc_pids s) 0 p) s) as [s' ->]. cbn. eauto.
  - intros s. unfold sc_End. destruct (negb (sc_completed s)); [eauto|]. destruct (sc_pat s); [|eauto]. destruct (sc_sdt s); eauto.
  - unfold sc_GetExitCode. eauto.
Qed.
