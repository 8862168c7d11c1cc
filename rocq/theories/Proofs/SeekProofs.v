From Coq Require Import ZArith Lia List Bool Sorted.
From Verif Require Import Base.Outcome Base.Util Model.Pcr Model.Sink Model.Ts Model.StartSeeker Spec.PcrSpec Spec.FilterSpec
  Spec.TuneSpec Spec.TransSpec Spec.ProgramSpec Spec.SeekSpec Proofs.FilterProofs Proofs.TuneProofs Proofs.TransProofs Proofs.ProgramProofs Proofs.ProgramMain.
Import ListNotations.
Open Scope Z_scope.

(** ** Sets of PIDs *)
Lemma sorted_ext : forall a b, StronglySorted Z.lt a -> StronglySorted Z.lt b -> (forall x, In x a <-> In x b) -> a = b.
Proof.
  induction a as [|x a IH]; intros [|y b] Sa Sb H; auto.
  - exfalso. apply (H y). left. auto.
  - exfalso. apply (H x). left. auto.
  - inversion Sa as [|? ? Sa1 Sa2]; inversion Sb as [|? ? Sb1 Sb2]; subst.
    rewrite Forall_forall in Sa2, Sb2.
    assert (x = y).
    { destruct (proj1 (H x) (or_introl eq_refl)) as [|I1]; auto. destruct (proj2 (H y) (or_introl eq_refl)) as [|I2]; auto.
      specialize (Sa2 _ I2). specialize (Sb2 _ I1). lia. }
    subst y. f_equal. apply IH; auto. intros z. split; intros I.
    + destruct (proj1 (H z) (or_intror I)) as [<-|]; auto. specialize (Sa2 _ I). lia.
    + destruct (proj2 (H z) (or_intror I)) as [<-|]; auto. specialize (Sb2 _ I). lia.
Qed.

Lemma zlist_eqb_eq : forall a b, zlist_eqb a b = true <-> a = b.
Proof.
  induction a as [|x a IH]; intros [|y b]; cbn; split; intros H; try discriminate; auto.
  - apply andb_prop in H as [H1 H2]. apply Z.eqb_eq in H1. apply IH in H2. congruence.
  - inversion H; subst. rewrite Z.eqb_refl. apply IH. auto.
Qed.

Lemma msorted_strong : forall V (f : Z * V -> bool) m lo, msorted lo m ->
  StronglySorted Z.lt (map fst (filter f m)) /\ Forall (fun k => lo < k) (map fst (filter f m)).
Proof.
  induction m as [|[k v] m IH]; intros lo H; cbn; [split; constructor|]. destruct H as [H1 H2].
  destruct (IH k H2) as [I1 I2]. destruct (f (k, v)); cbn.
  - split; [constructor; auto|]. constructor; auto. eapply Forall_impl; [|exact I2]. intros; cbn in *; lia.
  - split; auto. eapply Forall_impl; [|exact I2]. intros; cbn in *; lia.
Qed.

Lemma pids_sorted : forall f m, StronglySorted Z.lt (pids_of f m).
Proof.
  intros f m. unfold pids_of, pmt_streams. destruct (is_map_msorted _ _ (map_of_is_map _ (pmt_entries m))) as [lo H].
  apply (msorted_strong _ (fun e => f (snd e)) _ _ H).
Qed.

Lemma In_pids : forall f m pid, In pid (pids_of f m) <-> av_pids f m pid.
Proof.
  intros f m pid. unfold pids_of, av_pids. rewrite in_map_iff. split.
  - intros [[k e] [E I]]. cbn in E. subst. apply filter_In in I as [I1 I2]. eauto.
  - intros [e [I E]]. exists (pid, e). split; auto. apply filter_In. auto.
Qed.

Lemma differ_iff : forall f m0 m, differ (pids_of f m0) (pids_of f m) = true <->
  (exists pid, av_pids f m0 pid) /\ ~ (forall pid, av_pids f m0 pid <-> av_pids f m pid).
Proof.
  intros f m0 m. unfold differ. destruct (pids_of f m0) as [|x l] eqn:E.
  - split; [discriminate|]. intros [[pid H] _]. apply In_pids in H. rewrite E in H. destruct H.
  - rewrite <- E. destruct (zlist_eqb (pids_of f m0) (pids_of f m)) eqn:Q; cbn.
    + split; [discriminate|]. intros [_ N]. exfalso. apply N. intros pid. rewrite <- !In_pids.
      apply zlist_eqb_eq in Q. rewrite Q. tauto.
    + split; [|auto]. intros _. split.
      * exists x. apply In_pids. rewrite E. left. auto.
      * intros A. assert (pids_of f m0 = pids_of f m).
        { apply sorted_ext; auto using pids_sorted. intros z. rewrite !In_pids. auto. }
        apply zlist_eqb_eq in H. congruence.
Qed.

Section Seek.
Variable o : start_seeker_option.
Variable stage : nat.
Notation sid := (sso_sid o).

Definition changedb (m0 : option pmt) (m : pmt) : bool :=
  match m0 with
  | None => false
  | Some m0 => differ (pids_of es_video m0) (pids_of es_video m) || differ (pids_of es_audio m0) (pids_of es_audio m)
  end.

Lemma changed_by_iff : forall m0 m, changed_by m0 m <-> changedb (Some m0) m = true.
Proof.
  intros m0 m. unfold changed_by, changedb. rewrite orb_true_iff, !differ_iff. split.
  - intros [f [[-> | ->] H]]; auto.
  - intros [H|H]; eauto.
Qed.

Lemma changes_iff : forall pid t h, changes o (pid, t) h <->
  exists m, service_pmt sid (pid, tb_body t) = Some m /\ changedb (pmt_of o h) m = true.
Proof.
  intros pid t h. unfold changes. cbn [fst snd]. split.
  - intros [m0 [m [E1 [E2 C]]]]. exists m. rewrite E1. apply changed_by_iff in C. auto.
  - intros [m [E C]]. destruct (pmt_of o h) as [m0|] eqn:Em; [|discriminate]. exists m0, m. rewrite changed_by_iff. auto.
Qed.

Lemma transition_det : forall h j, transition o h j -> forall j', transition o h j' -> j = j'.
Proof.
  induction 1 as [x r C|x r j C T IH]; intros j' T'; inversion T'; subst; auto; contradiction.
Qed.

(** ** Tables *)
(** The PMTs of the service do not come on PID 0. *)
Definition elsewhere (h : tables) : Prop := forall x, In x h -> service_pmt sid (fst x, tb_body (snd x)) <> None -> fst x <> 0.
Lemma elsewhere_tl : forall x h, elsewhere (x :: h) -> elsewhere h.
Proof. intros x h E y I. apply E. right. exact I. Qed.

Record view (h : tables) (s : ss_state) : Prop := mkView {
  v_pcr : ss_pcr_pid s = match pmt_of o h with Some m => pmt_pcr_pid m | None => PID_NULL end;
  v_video : ss_video s = match pmt_of o h with Some m => pids_of es_video m | None => [] end;
  v_audio : ss_audio s = match pmt_of o h with Some m => pids_of es_audio m | None => [] end;
  v_pat : ss_pat s = pat_start o h;
  v_trans : (transition o h (ss_transition s)) \/
            ((forall j, ~ transition o h j) /\ ss_transition s = 0 /\ ss_pmt_pid s = pmt_pid_now sid (bodies h) /\
             (forall pid, In pid (ss_demux s) <-> tuned [0] sid (bodies h) pid));
  v_deaf : forall j, transition o h j -> elsewhere h -> ~ In 0 (ss_demux s) }.

Definition keeps (s s' : ss_state) : Prop :=
  ss_streaming s' = ss_streaming s /\ ss_packets s' = ss_packets s /\ ss_end_pcr s' = ss_end_pcr s.

Lemma view_mute : forall h s pid t, view h s -> service_pmt sid (pid, tb_body t) = None -> listing sid (pid, tb_body t) = None ->
  view ((pid, t) :: h) s.
Proof.
  intros h s pid t V S L. destruct V as [V1 V2 V3 V4 V5 V9].
  assert (Em : pmt_of o ((pid, t) :: h) = pmt_of o h) by (unfold pmt_of; cbn [bodies map latest fst snd]; rewrite S; auto).
  assert (N : ~ changes o (pid, t) h) by (rewrite changes_iff; intros [m [E _]]; congruence).
  constructor; rewrite ?Em; auto.
  - unfold pat_start in *. cbn [latest fst snd]. rewrite L. auto.
  - destruct V5 as [V5|[V5 [V6 [V7 V8]]]].
    + left. apply T_before; auto.
    + right. split; [intros j T; inversion T; subst; [auto|eapply V5; eauto]|]. split; auto. split.
      * rewrite V7. unfold pmt_pid_now. cbn [bodies map latest fst snd]. rewrite L. auto.
      * intros q. rewrite V8. cbn [bodies map fst snd]. symmetry. apply tuned_mute, L.
  - intros j T E. apply elsewhere_tl in E. inversion T; subst; [contradiction|eapply V9; eauto].
Qed.

Lemma view_table : forall h s pid t, view h s -> missing sid (pid, tb_body t) = false ->
  (elsewhere h -> pid = 0 -> forall j, ~ transition o h j) ->
  exists s', ss_handleTable o s pid t = Ok s' /\ view ((pid, t) :: h) s' /\ keeps s s'.
Proof.
  intros h s pid t V Mi Dz. unfold ss_handleTable.
  destruct (tb_body t) as [[tp|]|b|[tm|]|b|b|b|b|] eqn:Eb;
    try (exists s; split; [reflexivity|]; split; [|repeat split]; apply view_mute; auto; rewrite Eb; reflexivity).
  - unfold ss_HandlePat. destruct (Z.eqb_spec pid PID_PAT) as [Ep|Ep]; cbn [negb].
    2:{ exists s. split; [reflexivity|]. split; [|repeat split]. apply view_mute; auto; rewrite Eb; [reflexivity|].
        unfold listing, usable_pat. destruct (Z.eqb_spec pid 0); [contradiction|reflexivity]. }
    destruct (Z.eqb_spec (pat_tsid tp) 0) as [Ei|Ei].
    { exists s. split; [reflexivity|]. split; [|repeat split]. apply view_mute; auto; rewrite Eb; [reflexivity|].
      unfold listing, usable_pat. rewrite Ei, Z.eqb_refl, andb_false_r. auto. }
    unfold PID_PAT in Ep. subst pid.
    assert (Up : usable_pat (0, TPat (Some tp)) = Some tp) by (cbn; destruct (Z.eqb_spec (pat_tsid tp) 0); [contradiction|auto]).
    rewrite pmts_find.
    unfold missing in Mi. rewrite Up in Mi. destruct (pmt_pid_of sid tp) as [np|] eqn:En; [|discriminate].
    eexists. split; [reflexivity|]. split; [|repeat split].
    assert (L : listing sid (0, tb_body t) = Some (tp, np)) by (unfold listing; rewrite Eb, Up, En; auto).
    destruct V as [V1 V2 V3 V4 V5 V9].
    assert (Sp : service_pmt sid (0, tb_body t) = None) by (rewrite Eb; auto).
    assert (Em : pmt_of o ((0, t) :: h) = pmt_of o h) by (unfold pmt_of; cbn [bodies map latest fst snd]; rewrite Sp; auto).
    assert (N : ~ changes o (0, t) h) by (rewrite changes_iff; intros [m [E _]]; congruence).
    constructor; cbn [ss_pcr_pid ss_video ss_audio ss_pat ss_transition ss_pmt_pid ss_demux]; rewrite ?Em; auto.
    + unfold pat_start. cbn [latest fst snd]. rewrite L. auto.
    + destruct V5 as [V5|[V5 [V6 [V7 V8]]]].
      * left. apply T_before; auto.
      * right. split; [intros j T; inversion T; subst; [auto|eapply V5; eauto]|]. split; auto. split.
        -- unfold pmt_pid_now. cbn [bodies map latest fst snd]. rewrite L. auto.
        -- intros q. rewrite V7. cbn [bodies map fst snd]. apply (tuned_listing _ _ _ _ _ _ _ L V8).
    + intros j T E. apply elsewhere_tl in E. inversion T; subst; [contradiction|]. exfalso. eapply Dz; eauto.
  - exists s. split; [unfold ss_HandlePat; destruct (negb (pid =? PID_PAT)); reflexivity|]. split; [|repeat split].
    apply view_mute; auto; rewrite Eb; reflexivity.
  - unfold ss_HandlePmt. destruct (Z.eqb_spec (pmt_sid tm) sid) as [Es|Es]; cbn [negb].
    2:{ exists s. split; [reflexivity|]. split; [|repeat split]. apply view_mute; auto; rewrite Eb; [|reflexivity].
        cbn. destruct (Z.eqb_spec (pmt_sid tm) sid); [contradiction|auto]. }
    assert (Sp : service_pmt sid (pid, tb_body t) = Some tm) by (rewrite Eb; cbn; rewrite Es, Z.eqb_refl; auto).
    assert (L : listing sid (pid, tb_body t) = None) by (rewrite Eb; reflexivity).
    assert (Em : pmt_of o ((pid, t) :: h) = Some tm) by (unfold pmt_of; cbn [bodies map latest fst snd]; rewrite Sp; auto).
    destruct V as [V1 V2 V3 V4 V5 V9].
    assert (Ec : differ (ss_video s) (pids_of es_video tm) || differ (ss_audio s) (pids_of es_audio tm) = changedb (pmt_of o h) tm).
    { rewrite V2, V3. unfold changedb. destruct (pmt_of o h); auto. }
    rewrite Ec. assert (Pa : pat_start o ((pid, t) :: h) = pat_start o h) by (unfold pat_start; cbn [latest fst snd]; rewrite L; auto).
    destruct (changedb (pmt_of o h) tm) eqn:Ch; eexists; (split; [reflexivity|]); (split; [|repeat split]).
    + constructor; cbn [ss_pcr_pid ss_video ss_audio ss_pat ss_transition ss_pmt_pid ss_demux]; rewrite ?Em; auto; [congruence| |].
      { left. apply (T_here o (pid, t) h). apply changes_iff. eauto. }
      intros _ _ _ I. apply In_zrem in I as [I _]. apply I. reflexivity.
    + assert (N : ~ changes o (pid, t) h) by (rewrite changes_iff; intros [m [E C]]; congruence).
      constructor; cbn [ss_pcr_pid ss_video ss_audio ss_pat ss_transition ss_pmt_pid ss_demux]; rewrite ?Em; auto; [congruence| |].
      destruct V5 as [V5|[V5 [V6 [V7 V8]]]].
      * left. apply T_before; auto.
      * right. split; [intros j T; inversion T; subst; [auto|eapply V5; eauto]|]. split; auto. split.
        -- rewrite V7. unfold pmt_pid_now. cbn [bodies map latest fst snd]. rewrite L. auto.
        -- intros q. rewrite V8. cbn [bodies map fst snd]. symmetry. apply tuned_mute, L.
      * intros j T E. apply elsewhere_tl in E. inversion T; subst; [contradiction|eapply V9; eauto].
Qed.

Lemma transition_quiet : forall pid t h j, service_pmt sid (pid, tb_body t) = None -> transition o ((pid, t) :: h) j -> transition o h j.
Proof.
  intros pid t h j S T. inversion T as [x r C|x r j' C T']; subst; auto. exfalso. apply changes_iff in C as [m [E _]]. congruence.
Qed.

Lemma view_tables : forall ts h s p, view h s -> (forall t, In t ts -> missing sid (p_pid p, tb_body t) = false) ->
  (elsewhere h -> p_pid p = 0 -> forall j, ~ transition o h j) ->
  exists s', handle_tables (ss_handleTable o) s (p_pid p) ts = Ok s' /\ view (add h p ts) s' /\ keeps s s'.
Proof.
  induction ts as [|t ts IH]; intros h s p V M Dz.
  - exists s. split; [reflexivity|]. split; [exact V|repeat split].
  - destruct (view_table h s (p_pid p) t V (M t (or_introl eq_refl)) Dz) as [s1 [E1 [V1 K1]]].
    destruct (IH _ s1 p V1 (fun t' I => M t' (or_intror I))) as [s2 [E2 [V2 K2]]].
    { intros E Z0 j T. pose proof (E _ (or_introl eq_refl)) as Q. cbn [fst snd] in Q.
      apply (Dz (elsewhere_tl _ _ E) Z0 j). apply (transition_quiet (p_pid p) t); [|exact T].
      destruct (service_pmt sid (p_pid p, tb_body t)); [exfalso; apply Q; [discriminate|exact Z0]|reflexivity]. }
    exists s2. cbn [handle_tables]. rewrite E1. cbn [bind]. split; auto. split.
    + unfold add in *. cbn [map rev]. rewrite <- app_assoc. exact V2.
    + destruct K1 as [A1 [A2 A3]], K2 as [B1 [B2 B3]]. repeat split; congruence.
Qed.

(** A PAT without the service. *)
Lemma table_fails : forall s src t, (exists s', ss_handleTable o s src t = Ok s' /\ missing sid (src, tb_body t) = false) \/
  ss_handleTable o s src t = Fail AssertFail.
Proof.
  intros s src t. unfold ss_handleTable, missing, usable_pat. destruct (tb_body t) as [[tp|]|b|[tm|]|b|b|b|b|]; try (left; eexists; split; reflexivity).
  - unfold ss_HandlePat, PID_PAT. destruct (src =? 0) eqn:E0; cbn [negb andb]; [|left; eauto].
    destruct (pat_tsid tp =? 0); cbn [negb andb]; [left; eauto|]. rewrite pmts_find.
    destruct (pmt_pid_of sid tp); [left; eauto|right; reflexivity].
  - left. unfold ss_HandlePat. destruct (negb (src =? PID_PAT)); eauto.
  - left. unfold ss_HandlePmt. destruct (negb (pmt_sid tm =? sid)); [eauto|]. cbv zeta. destruct (_ || _); eauto.
Qed.
Lemma tables_missing : forall ts s src t, In t ts -> missing sid (src, tb_body t) = true ->
  handle_tables (ss_handleTable o) s src ts = Fail AssertFail.
Proof.
  induction ts as [|t0 ts IH]; intros s src t I M; [destruct I|]. cbn [handle_tables].
  destruct (table_fails s src t0) as [[s' [E Q]]| ->]; [|reflexivity]. rewrite E. cbn [bind].
  destruct I as [->|I]; [congruence|eauto].
Qed.
Lemma missing_dec : forall p ts, (forall t, In t ts -> missing sid (p_pid p, tb_body t) = false) \/
  exists t, In t ts /\ missing sid (p_pid p, tb_body t) = true.
Proof.
  intros p ts. destruct (existsb (fun t => missing sid (p_pid p, tb_body t)) ts) eqn:E; [right; apply existsb_exists; exact E|left].
  intros t I. destruct (missing sid (p_pid p, tb_body t)) eqn:M; [|reflexivity]. exfalso.
  enough (X : existsb (fun t => missing sid (p_pid p, tb_body t)) ts = true) by congruence. apply existsb_exists. eauto.
Qed.
Lemma missing_pid : forall x, missing sid x = true -> fst x = 0.
Proof.
  intros [pid b] M. unfold missing, usable_pat in M. destruct b as [[t|]| | | | | | |]; try discriminate.
  destruct (Z.eqb_spec pid 0); [auto|discriminate].
Qed.

Lemma transition_cons : forall x h j, transition o h j -> exists j', transition o (x :: h) j'.
Proof.
  intros [pid t] h j T. destruct (service_pmt sid (pid, tb_body t)) as [m|] eqn:S.
  - destruct (changedb (pmt_of o h) m) eqn:C.
    + eexists. apply T_here. apply changes_iff. eauto.
    + exists j. apply T_before; [|exact T]. rewrite changes_iff. intros [m' [E Q]]. congruence.
  - exists j. apply T_before; [|exact T]. rewrite changes_iff. intros [m' [E Q]]. congruence.
Qed.
Lemma transition_stays : forall p ts h j, transition o h j -> exists j', transition o (add h p ts) j'.
Proof.
  intros p ts h j T. unfold add. induction (rev (map (fun t => (p_pid p, t)) ts)) as [|x l [j' IH]]; [exists j; exact T|].
  cbn [app]. eapply transition_cons. exact IH.
Qed.

(** The tables of a packet: heard, or the end of the program, or not heard after
    a change. *)
Definition trouble (h : tables) (ps : list packet) : Prop := (forall j, ~ transition o h j) /\ loses o stage h ps.

Lemma packet_tables : forall h s p ps, view h s -> elsewhere h \/ (forall t, In t (p_tabs p stage) -> missing sid (p_pid p, tb_body t) = false) ->
  (trouble h (p :: ps) /\ handle_tables (ss_handleTable o) s (p_pid p) (demux_feed (ss_demux s) stage p) = Fail AssertFail) \/
  (exists s', handle_tables (ss_handleTable o) s (p_pid p) (demux_feed (ss_demux s) stage p) = Ok s' /\
     view (add h p (demux_feed (ss_demux s) stage p)) s' /\ keeps s s' /\
     (trouble h (p :: ps) -> trouble (add h p (demux_feed (ss_demux s) stage p)) ps)).
Proof.
  intros h s p ps V El. set (ts := demux_feed (ss_demux s) stage p).
  assert (Its : forall t, In t ts -> In t (p_tabs p stage) /\ In (p_pid p) (ss_demux s)).
  { intros t I. unfold ts, demux_feed in I. destruct (zmem (p_pid p) (ss_demux s)) eqn:Z0; [|destruct I]. split; auto. apply zmem_In. exact Z0. }
  assert (Dz : elsewhere h -> p_pid p = 0 -> ts <> [] -> forall j, ~ transition o h j).
  { intros E Z0 Nt j T. destruct ts as [|t ts']; [congruence|]. destruct (Its t (or_introl eq_refl)) as [_ I].
    rewrite Z0 in I. exact (v_deaf _ _ V j T E I). }
  assert (Hr : (forall j, ~ transition o h j) -> hears o stage h p ts).
  { intros N. apply delivered_feed. destruct (v_trans _ _ V) as [T|[_ [_ [_ B]]]]; [exfalso; eapply N; eauto|exact B]. }
  destruct (missing_dec p ts) as [M|[t [It M]]].
  - right.
    assert (X : exists s', handle_tables (ss_handleTable o) s (p_pid p) ts = Ok s' /\ view (add h p ts) s' /\ keeps s s').
    { destruct ts as [|t0 ts'] eqn:Et; [exists s; split; [reflexivity|]; split; [exact V|repeat split]|].
      rewrite <- Et in *. apply view_tables; auto. intros E Z0. apply Dz; auto. congruence. }
    destruct X as [s' [E1 [V1 K1]]]. exists s'. split; [exact E1|]. split; [exact V1|]. split; [exact K1|].
    intros [N L]. specialize (Hr N). inversion L as [h0 p0 ps0 ts0 t H0 I0 M0|h0 p0 ps0 ts0 H0 N0 L0]; subst.
    + pose proof (delivered_det _ _ _ _ _ _ _ Hr H0) as Q. subst ts0. rewrite (M _ I0) in M0. discriminate.
    + pose proof (delivered_det _ _ _ _ _ _ _ Hr H0) as Q. subst ts0. split; assumption.
  - left. split; [|apply (tables_missing ts s _ t It M)].
    destruct El as [E|Nm]; [|rewrite (Nm t (proj1 (Its _ It))) in M; discriminate].
    assert (N : forall j, ~ transition o h j) by (apply Dz; [exact E|apply missing_pid in M; exact M|intros Q; rewrite Q in It; destruct It]).
    split; [exact N|]. apply (L_here o stage h p ps ts t); auto.
Qed.

(** ** Runs *)
Variable k : sink packet.
Variable Inv : sk_state k -> Prop.
Hypothesis acc : forall d p, Inv d -> exists d1, sk_handle k d p = Ok (d1, true) /\ Inv d1.
Hypothesis ends : forall d, Inv d -> exists d1 c, sk_end k d = Ok d1 /\ sk_exit k d1 = Ok c.
Notation handle := (ss_HandlePacket o k stage).

(** All packets are accepted. *)
Definition gives (d : sk_state k) (qs : list packet) (d' : sk_state k) : Prop := hand k d qs = (qs, Ok (d', true)).
Lemma gives_all : forall qs d, Inv d -> exists d', gives d qs d' /\ Inv d'.
Proof.
  induction qs as [|q qs IH]; intros d Hi; [exists d; split; [reflexivity|exact Hi]|].
  destruct (acc d q Hi) as [d1 [E H1]]. destruct (IH d1 H1) as [d2 [E2 H2]]. exists d2. split; [|exact H2].
  unfold gives in *. cbn [hand]. rewrite E, E2. reflexivity.
Qed.
Lemma gives_app : forall a b d d1 d2, gives d a d1 -> gives d1 b d2 -> gives d (a ++ b) d2.
Proof. intros a b d d1 d2 A B. unfold gives in *. rewrite hand_app, A, B. reflexivity. Qed.
Lemma send_all_gives : forall qs d d', gives d qs d' -> ss_send_all k d qs = Ok (d', true).
Proof.
  induction qs as [|q qs IH]; intros d d' G; unfold gives in G; cbn [hand] in G.
  - inversion G. reflexivity.
  - cbn [ss_send_all]. destruct (sk_handle k d q) as [[d1 [|]]|f]; cbn [bind]; [|discriminate|discriminate].
    destruct (hand k d1 qs) as [out x] eqn:E. inversion G; subst. apply IH. exact E.
Qed.

(** Streaming: everything is passed on. *)
(** Nothing goes missing, or the PMTs do not come on PID 0. *)
Definition fit (h : tables) (ps : list packet) : Prop :=
  (forall p t, In p ps -> In t (p_tabs p stage) -> missing sid (p_pid p, tb_body t) = false) \/
  (elsewhere h /\ forall p t, In p ps -> In t (p_tabs p stage) -> service_pmt sid (p_pid p, tb_body t) <> None -> p_pid p <> 0).
Lemma fit_here : forall h p ps, fit h (p :: ps) -> elsewhere h \/ (forall t, In t (p_tabs p stage) -> missing sid (p_pid p, tb_body t) = false).
Proof. intros h p ps [F|[F _]]; [right; intros t; apply F; left; auto|left; exact F]. Qed.
Lemma fit_next : forall h p ps ds, fit h (p :: ps) -> fit (add h p (demux_feed ds stage p)) ps.
Proof.
  intros h p ps ds [F|[F G]]; [left; intros q t I; apply F; right; auto|right]. split; [|intros q t I; apply G; right; auto].
  intros x I S. unfold add in I. rewrite in_app_iff, <- in_rev, in_map_iff in I. destruct I as [[t [<- I]]|I]; [|auto]. cbn [fst snd] in *.
  apply (G p t (or_introl eq_refl)); [|exact S]. unfold demux_feed in I. destruct (zmem (p_pid p) ds); [exact I|destruct I].
Qed.

Lemma stream_loop : forall start en ex ps n h s d, (List.length ps < n)%nat -> ss_streaming s = true -> ss_packets s = [] -> Inv d ->
  fit h ps -> view h s ->
  (exists s' d', gives d ps d' /\ Inv d' /\ ss_packets s' = [] /\ ~ trouble h ps /\
    feed_loop (list_source packet) (mkSink _ start handle en ex) n ps (s, d) = Some (Ok (s', d'))) \/
  (trouble h ps /\ feed_loop (list_source packet) (mkSink _ start handle en ex) n ps (s, d) = Some (Fail AssertFail)).
Proof.
  intros start en ex ps. induction ps as [|p ps IH]; intros n h s d Hn S Pk Hi M V; (destruct n as [|n]; [cbn in Hn; lia|]).
  - left. exists s, d. split; [reflexivity|]. split; [auto|]. split; [auto|]. split; [|reflexivity]. intros [_ L]. inversion L.
  - cbn [feed_loop list_source sr_next sk_handle ss_HandlePacket].
    destruct (packet_tables h s p ps V (fit_here _ _ _ M)) as [[Tr E1]|[s1 [E1 [V1 [[K1 [K2 K3]] Nt]]]]]; rewrite E1; cbn [bind]; [right; auto|].
    rewrite K1, S.
    destruct (acc d p Hi) as [d1 [E H1]]. rewrite E. cbn [bind].
    destruct (IH n _ s1 d1 ltac:(cbn in Hn; lia) ltac:(congruence) ltac:(congruence) H1 (fit_next _ _ _ _ M) V1) as [[s' [d' [G [I [P [Q F]]]]]]|[Tr F]].
    + left. exists s', d'. split; [unfold gives in *; cbn [hand]; rewrite E, G; reflexivity|].
      split; [exact I|]. split; [exact P|]. split; [|exact F]. intros B. apply Q, Nt, B.
    + right. split; [|exact F]. destruct Tr as [N L].
      assert (N0 : forall j, ~ transition o h j) by (intros j T; eapply transition_stays in T as [j' T]; eapply N; exact T).
      split; [exact N0|]. eapply L_later; [|exact N|exact L]. apply delivered_feed.
      destruct (v_trans _ _ V) as [T|[_ [_ [_ B]]]]; [exfalso; eapply N0; eauto|exact B].
Qed.

Definition end_of (base : option Z) : Z :=
  match base with None => -1 | Some b => (b + ticks_per_ms * sso_max_duration o) mod pcr_cycle end.

(** Seeking. *)
Record seeking (h : tables) (base : option Z) (held : list packet) (s : ss_state) : Prop := mkSeeking {
  k_view : view h s;
  k_none : forall j, ~ transition o h j;
  k_off : ss_streaming s = false;
  k_held : ss_packets s = held;
  k_end : ss_end_pcr s = end_of base;
  k_base : forall b, base = Some b -> 0 <= b < pcr_cycle;
  k_few : sso_max_packets o = 0 \/ zlen held < sso_max_packets o;
  k_first : forall x, In x h -> 0 <= tb_first (snd x) < zlen held /\
    (service_pmt sid (fst x, tb_body (snd x)) <> None -> 0 < tb_first (snd x)) }.

Lemma no_trans_view : forall h s, view h s -> (forall j, ~ transition o h j) ->
  ss_transition s = 0 /\ (forall pid, In pid (ss_demux s) <-> tuned [0] sid (bodies h) pid).
Proof. intros h s V N. destruct (v_trans _ _ V) as [T|[_ [A [_ B]]]]; [exfalso; eapply N; eauto|auto]. Qed.

Lemma add_in : forall ts h p x, In x (add h p ts) <-> (exists t, In t ts /\ x = (p_pid p, t)) \/ In x h.
Proof. intros. unfold add. rewrite in_app_iff, <- in_rev, in_map_iff. split; intros [[t [A B]]|A]; eauto. Qed.

(** Where the tables of an orderly input start. *)
Lemma pat_start_bound : forall h n, 0 < n -> (forall x, In x h -> 0 <= tb_first (snd x) < n) -> 0 <= pat_start o h < n.
Proof.
  intros h n Hn H. unfold pat_start.
  destruct (latest (fun x => match listing sid (fst x, tb_body (snd x)) with Some _ => Some (tb_first (snd x)) | None => None end) h) as [i|] eqn:E; [|lia].
  destruct (latest_some _ _ _ _ _ E) as [x [I F]]. specialize (H _ I). destruct (listing sid (fst x, tb_body (snd x))); [|discriminate].
  injection F as <-. auto.
Qed.
Lemma transition_in : forall h j, transition o h j -> exists x, In x h /\ tb_first (snd x) = j /\ service_pmt sid (fst x, tb_body (snd x)) <> None.
Proof.
  induction 1 as [x r C|x r j C T [y [I [A B]]]].
  - exists x. split; [left; auto|]. split; auto. destruct C as [m0 [m [_ [E _]]]]. congruence.
  - exists y. split; [right; auto|auto].
Qed.

Variable all : list packet.
Hypothesis order : forall n p, znth n all = Some p ->
  (forall v, p_pcr p = Some v -> 0 <= v < pcr_cycle) /\
  (forall t, In t (p_tabs p stage) -> 0 <= tb_first t <= n /\ (service_pmt sid (p_pid p, tb_body t) <> None -> 0 < tb_first t)).
Hypothesis sane : sane_seek o.

Lemma release_ok : forall s d d', gives d (ss_packets s) d' -> ss_release k s d = Ok ((ss_set_streaming (ss_set_packets s []), d'), true).
Proof.
  intros s d d' G. unfold ss_release, ss_SendPackets. rewrite zdrop_0 by lia. rewrite (send_all_gives _ _ _ G). reflexivity.
Qed.

Lemma view_set : forall h s s', view h s -> ss_pcr_pid s' = ss_pcr_pid s -> ss_video s' = ss_video s -> ss_audio s' = ss_audio s ->
  ss_pat s' = ss_pat s -> ss_transition s' = ss_transition s -> ss_pmt_pid s' = ss_pmt_pid s -> ss_demux s' = ss_demux s -> view h s'.
Proof.
  intros h s s' [V1 V2 V3 V4 V5 V6] E1 E2 E3 E4 E5 E6 E7. constructor; try congruence; [rewrite E5, E6, E7; exact V5|rewrite E7; exact V6].
Qed.

Lemma seek_loop : forall start en ex ps n h base held s d, (List.length ps < n)%nat -> held ++ ps = all -> seeking h base held s -> Inv d ->
  fit h ps ->
  (exists r s' d' out, seek o stage h base (zlen held) ps r /\ gives d out d' /\ Inv d' /\ out ++ ss_packets s' = seek_output all r /\ ~ trouble h ps /\
    feed_loop (list_source packet) (mkSink _ start handle en ex) n ps (s, d) = Some (Ok (s', d'))) \/
  (trouble h ps /\ feed_loop (list_source packet) (mkSink _ start handle en ex) n ps (s, d) = Some (Fail AssertFail)).
Proof.
  intros start en ex ps. induction ps as [|p ps IH]; intros n h base held s d Hn Ha K Hi M; (destruct n as [|n]; [cbn in Hn; lia|]).
  { left. rewrite app_nil_r in Ha. exists (Whole (zlen held)), s, d, []. split; [constructor|]. split; [reflexivity|]. split; [exact Hi|].
    split; [cbn; rewrite (k_held _ _ _ _ K); auto|]. split; [intros [_ L]; inversion L|reflexivity]. }
  assert (Np : znth (zlen held) all = Some p).
  { rewrite <- Ha, znth_app_r, Z.sub_diag by lia. reflexivity. }
  destruct (order _ _ Np) as [Opcr Otab].
  pose proof (zlen_nonneg _ held) as Hl.
  destruct K as [V N Off He En Bb Few Fi].
  destruct (no_trans_view _ _ V N) as [T0 Dm].
  set (ts := demux_feed (ss_demux s) stage p).
  assert (Hr : hears o stage h p ts) by (apply delivered_feed; auto).
  assert (Its : forall t, In t ts -> In t (p_tabs p stage)).
  { intros t I. unfold ts, demux_feed in I. destruct (zmem (p_pid p) (ss_demux s)); [auto|destruct I]. }
  cbn [feed_loop list_source sr_next sk_handle ss_HandlePacket].
  destruct (packet_tables h s p ps V (fit_here _ _ _ M)) as [[Tr E1]|[s1 [E1 [V1 [[K1 [K2 K3]] Nt]]]]]; fold ts in E1 |- *; rewrite E1; cbn [bind]; [right; auto|].
  fold ts in V1, Nt. pose proof (fit_next _ _ _ (ss_demux s) M) as M1. fold ts in M1.
  set (h1 := add h p ts) in *.
  assert (Tr1 : trouble h1 ps -> trouble h (p :: ps)) by (intros [N1 L]; split; [exact N|eapply L_later; eauto]).
  assert (Fi1 : forall x, In x h1 -> 0 <= tb_first (snd x) < zlen held + 1 /\ (service_pmt sid (fst x, tb_body (snd x)) <> None -> 0 < tb_first (snd x))).
  { intros x I. apply add_in in I as [[t [I ->]]|I].
    - destruct (Otab t (Its t I)) as [O2 O4]. cbn [fst snd]. split; [lia|auto].
    - destruct (Fi _ I). split; [lia|auto]. }
  set (s2 := ss_set_packets s1 (held ++ [p])).
  assert (Pk : ss_set_packets s1 (ss_packets s1 ++ [p]) = s2) by (subst s2; rewrite K2, He; auto).
  assert (V2 : view h1 s2) by (apply (view_set h1 s1); auto).
  rewrite K1, Off.
  unfold ss_Seek. rewrite Pk. cbv zeta.
  assert (Ha2 : (held ++ [p]) ++ ps = all) by (rewrite <- app_assoc; exact Ha).
  assert (Hl2 : zlen (held ++ [p]) = zlen held + 1) by (rewrite zlen_app; reflexivity).
  (* releasing everything *)
  assert (Nt1 : ~ trouble h1 ps -> ~ trouble h (p :: ps)) by (intros A B; apply A, Nt, B). clear Nt.
  assert (Rel : seek o stage h base (zlen held) (p :: ps) (Whole (zlen held + 1)) ->
    let run := match ss_release k s2 d with
      | Ok (s3, true) => feed_loop (list_source packet) (mkSink _ start handle en ex) n ps s3
      | Ok (s3, false) => Some (Ok s3)
      | Fail f => Some (Fail f)
      end in
    (exists r s' d' out, seek o stage h base (zlen held) (p :: ps) r /\ gives d out d' /\ Inv d' /\ out ++ ss_packets s' = seek_output all r /\
      ~ trouble h (p :: ps) /\ run = Some (Ok (s', d'))) \/ (trouble h (p :: ps) /\ run = Some (Fail AssertFail))).
  { intros Sk. cbv zeta. destruct (gives_all (held ++ [p]) d Hi) as [d1 [G1 H1]].
    rewrite (release_ok s2 d d1 G1).
    destruct (stream_loop start en ex ps n h1 (ss_set_streaming (ss_set_packets s2 [])) d1 ltac:(cbn in Hn; lia) eq_refl eq_refl H1 M1) as [[s' [d' [G2 [I2 [P [Q F]]]]]]|[Tr F]].
    { apply (view_set h1 s2); auto. }
    2:{ right. auto. }
    left. exists (Whole (zlen held + 1)), s', d', ((held ++ [p]) ++ ps). split; auto. split; [eapply gives_app; eauto|]. split; [exact I2|].
    split; [rewrite P, app_nil_r; exact Ha2|]. auto. }
  destruct (v_trans _ _ V2) as [T|[N1 [T1 _]]].
  - (* found *)
    destruct (transition_in _ _ T) as [x [Ix [Ex Sx]]]. destruct (Fi1 _ Ix) as [Bx Px]. specialize (Px Sx).
    destruct (Z.ltb_spec 0 (ss_transition s2)) as [Lt|Lt]; [|lia].
    assert (Bp : 0 <= pat_start o h1 < zlen held + 1) by (apply pat_start_bound; [lia|intros y Iy; apply (Fi1 _ Iy)]).
    unfold ss_SendPacket. change (ss_packets s2) with (held ++ [p]).
    rewrite (v_pat _ _ V2).
    destruct (znth_some _ (pat_start o h1) (held ++ [p]) ltac:(lia)) as [q Eq]. rewrite Eq.
    destruct (acc d q Hi) as [d1 [Ed H1]]. rewrite Ed. cbn [bind].
    unfold ss_SendPackets. change (ss_packets s2) with (held ++ [p]).
    destruct (gives_all (zdrop (ss_transition s2) (held ++ [p])) d1 H1) as [d2 [G2 H2]]. rewrite (send_all_gives _ _ _ G2). cbn [bind].
    destruct (stream_loop start en ex ps n h1 (ss_set_streaming (ss_set_packets s2 [])) d2 ltac:(cbn in Hn; lia) eq_refl eq_refl H2 M1) as [[s' [d' [G3 [I3 [P [Q F]]]]]]|[Tr F]].
    { apply (view_set h1 s2); auto. }
    2:{ right. auto. }
    left. exists (Cut (pat_start o h1) (ss_transition s2) (zlen held + 1)), s', d', ([q] ++ zdrop (ss_transition s2) (held ++ [p]) ++ ps).
    split; [apply (K_found o stage h base _ p ps ts); auto|]. split.
    { eapply gives_app; [|eapply gives_app; eauto]. unfold gives. cbn [hand]. rewrite Ed. reflexivity. }
    split; [exact I3|]. split; [|auto]. rewrite P, app_nil_r. unfold seek_output.
    rewrite <- Ha2. rewrite (znth_app_l _ _ (held ++ [p]) ps), Eq by lia. rewrite (zdrop_app_le _ _ (held ++ [p]) ps) by lia. reflexivity.
  - rewrite T1. cbn [Z.ltb Z.compare]. change (ss_packets s2) with (held ++ [p]). rewrite Hl2.
    destruct sane as [Sd Sm].
    destruct (negb (sso_max_packets o =? 0) && (sso_max_packets o =? zlen held + 1)) eqn:B.
    { apply andb_prop in B as [B1 B2]. apply Z.eqb_eq in B2. destruct (Z.eqb_spec (sso_max_packets o) 0) as [|B3]; [discriminate|].
      apply Rel. apply (K_packets o stage h base _ p ps ts); auto. }
    assert (Q : (sso_max_packets o =? 0) || (zlen held + 1 <? sso_max_packets o) = true /\ zlen held + 1 <> sso_max_packets o /\
                (sso_max_packets o = 0 \/ zlen (held ++ [p]) < sso_max_packets o)).
    { rewrite Hl2. destruct (Z.eqb_spec (sso_max_packets o) 0), (Z.eqb_spec (sso_max_packets o) (zlen held + 1)), (Z.ltb_spec (zlen held + 1) (sso_max_packets o));
        cbn in *; try discriminate; lia. }
    destruct Q as [Q1 [Q2 Q3]]. unfold assert. rewrite Q1. clear B Q1.
    assert (So : ss_streaming s2 = false) by (change (ss_streaming s1 = false); congruence).
    assert (Se : ss_end_pcr s2 = end_of base) by (change (ss_end_pcr s1 = end_of base); congruence).
    rewrite (v_pcr _ _ V2).
    assert (Fi2 : forall x, In x h1 -> 0 <= tb_first (snd x) < zlen (held ++ [p]) /\ (service_pmt sid (fst x, tb_body (snd x)) <> None -> 0 < tb_first (snd x)))
      by (rewrite Hl2; exact Fi1).
    assert (Skip : pcr_of o h1 p = None -> (exists r s' d' out, seek o stage h base (zlen held) (p :: ps) r /\ gives d out d' /\ Inv d' /\ out ++ ss_packets s' = seek_output all r /\
        ~ trouble h (p :: ps) /\ feed_loop (list_source packet) (mkSink _ start handle en ex) n ps (s2, d) = Some (Ok (s', d'))) \/
        (trouble h (p :: ps) /\ feed_loop (list_source packet) (mkSink _ start handle en ex) n ps (s2, d) = Some (Fail AssertFail))).
    { intros Pn. destruct (IH n h1 base (held ++ [p]) s2 d ltac:(cbn in Hn; lia) Ha2) as [[r [s' [d' [out [S' [X1 [X2 [X3 [X4 X5]]]]]]]]]|[X1 X2]].
      { constructor; auto. }
      { exact Hi. }
      { exact M1. }
      2:{ right. auto. }
      left. exists r, s', d', out. split; [|auto 8]. rewrite Hl2 in S'. apply (K_other o stage h base _ p ps ts); auto. }
    unfold pcr_of in Skip.
    assert (Pv : forall v, pcr_of o h1 p = Some v -> p_pcr p = Some v).
    { intros v Ev. unfold pcr_of in Ev. destruct (pmt_of o h1); [|discriminate]. destruct (negb _ && _); [auto|discriminate]. }
    destruct (pmt_of o h1) as [m|] eqn:Em; [|rewrite Z.eqb_refl; cbn [orb]; apply Skip; auto].
    rewrite (Z.eqb_sym (pmt_pcr_pid m) (p_pid p)). unfold PID_NULL.
    destruct (pmt_pcr_pid m =? 8191) eqn:Q4; cbn [orb negb andb] in *; [apply Skip; auto|].
    destruct (p_pid p =? pmt_pcr_pid m) eqn:Q5; cbn [negb]; [|apply Skip; auto].
    destruct (p_pcr p) as [v|] eqn:Ev; [|apply Skip; auto]. clear Skip.
    assert (Pc : pcr_of o h1 p = Some v) by (unfold pcr_of; rewrite Em, Q4, Q5; cbn; auto).
    specialize (Opcr v eq_refl).
    rewrite Se. destruct base as [b|]; cbn [end_of].
    + assert (Bm : 0 <= (b + ticks_per_ms * sso_max_duration o) mod pcr_cycle < pcr_cycle) by (apply Z.mod_pos_bound; reflexivity).
      destruct (Z.ltb_spec ((b + ticks_per_ms * sso_max_duration o) mod pcr_cycle) 0) as [Ln|_]; [lia|].
      destruct (compare_reached v ((b + ticks_per_ms * sso_max_duration o) mod pcr_cycle) Opcr Bm) as [c [Ec [_ Ec2]]].
      rewrite Ec. cbn [bind]. rewrite Ec2.
      destruct (reached v ((b + ticks_per_ms * sso_max_duration o) mod pcr_cycle)) eqn:Re; cbn [negb].
      * apply Rel. apply (K_duration o stage h b _ p ps ts v); auto.
      * destruct (IH n h1 (Some b) (held ++ [p]) s2 d ltac:(cbn in Hn; lia) Ha2) as [[r [s' [d' [out [S' [X1 [X2 [X3 [X4 X5]]]]]]]]]|[X1 X2]].
        { constructor; auto. }
        { exact Hi. }
        { exact M1. }
        2:{ right. auto. }
        left. exists r, s', d', out. split; [|auto 8]. rewrite Hl2 in S'. apply (K_within o stage h b _ p ps ts v); auto.
    + change (-1 <? 0) with true. cbv iota.
      change kPcrTicksPerMs with 27000. change pcr_cycle with (8589934592 * 300) in Opcr.
      change (2 ^ 44) with 17592186044416 in Sd.
      assert (I1 : i64 (sso_max_duration o * 27000) = Ok (sso_max_duration o * 27000)) by (apply i64_ok; unfold int64_min, int64_max; lia).
      assert (I2 : i64 (v + sso_max_duration o * 27000) = Ok (v + sso_max_duration o * 27000)) by (apply i64_ok; unfold int64_min, int64_max; lia).
      rewrite I1. cbn [bind]. rewrite I2. cbn [bind].
      assert (Eq : Z.rem (v + sso_max_duration o * 27000) kPcrUpperBound = end_of (Some v)).
      { rewrite Z.rem_mod_nonneg by (try reflexivity; lia). unfold end_of, ticks_per_ms. change kPcrUpperBound with pcr_cycle. f_equal. lia. }
      rewrite Eq.
      destruct (IH n h1 (Some v) (held ++ [p]) (ss_set_end_pcr s2 (end_of (Some v))) d ltac:(cbn in Hn; lia) Ha2) as [[r [s' [d' [out [S' [X1 [X2 [X3 [X4 X5]]]]]]]]]|[X1 X2]].
      { constructor; auto.
        - apply (view_set h1 s2); auto.
        - intros b Eb. injection Eb as <-. exact Opcr. }
      { exact Hi. }
      { exact M1. }
      2:{ right. auto. }
      left. exists r, s', d', out. split; [|auto 8]. rewrite Hl2 in S'. apply (K_base o stage h _ p ps ts v); auto.
Qed.

Lemma init_view : view [] ss_init.
Proof.
  constructor; auto; [|intros j T; inversion T]. right. split; [intros j T; inversion T|]. split; auto. split; auto.
  intros pid. rewrite tuned_nil. cbn [ss_init ss_demux]. rewrite In_zadd. cbn. unfold PID_PAT. intuition.
Qed.

Lemma seek_run : forall n d d1, (List.length all < n)%nat -> sk_start k d = Ok (d1, true) -> Inv d1 -> fit [] all ->
  (~ loses o stage [] all /\ exists r s d2 d3 c, seek o stage [] None 0 all r /\ gives d1 (seek_output all r) d2 /\ sk_end k d2 = Ok d3 /\ sk_exit k d3 = Ok c /\
    FeedPackets (list_source packet) (start_seeker o k stage) n all (ss_init, d) = Some (Ok (c, (s, d3)))) \/
  (loses o stage [] all /\ FeedPackets (list_source packet) (start_seeker o k stage) n all (ss_init, d) = Some (Fail AssertFail)).
Proof.
  intros n d d1 Hn Es Hi M.
  assert (K0 : seeking [] None [] ss_init).
  { constructor; auto using init_view.
    - intros j T; inversion T.
    - discriminate.
    - destruct sane. change (zlen (@nil packet)) with 0. lia.
    - intros x []. }
  assert (E0 : sk_start (start_seeker o k stage) (ss_init, d) = Ok ((ss_init, d1), true)).
  { cbn [sk_start start_seeker snd fst]. rewrite Es. reflexivity. }
  destruct (seek_loop (sk_start (start_seeker o k stage)) (sk_end (start_seeker o k stage)) (sk_exit (start_seeker o k stage))
      all n [] None [] ss_init d1 Hn eq_refl K0 Hi M) as [[r [s [d2 [out [S [G [H2 [E [Q F]]]]]]]]]|[[_ Q] F]].
  2:{ right. split; [exact Q|]. unfold FeedPackets. rewrite E0.
      change (feed_loop (list_source packet) (start_seeker o k stage) n all (ss_init, d1) = Some (Fail AssertFail)) in F. rewrite F. reflexivity. }
  left. split; [intros L; apply Q; split; [intros j T; inversion T|exact L]|].
  destruct (gives_all (ss_packets s) d2 H2) as [d3 [G3 H3]]. destruct (ends d3 H3) as [d4 [c [Ed Ec]]].
  exists r, (ss_set_packets s []), d3, d4, c. split; [exact S|]. split; [rewrite <- E; eapply gives_app; eauto|]. split; [auto|]. split; [auto|].
  unfold FeedPackets. rewrite E0.
  change (feed_loop (list_source packet) (start_seeker o k stage) n all (ss_init, d1) = Some (Ok (s, d2))) in F.
  rewrite F. cbn [bind start_seeker sk_end sk_exit fst snd].
  unfold ss_SendPackets. rewrite zdrop_0 by lia. rewrite (send_all_gives _ _ _ G3). cbn [bind fst snd]. rewrite Ed. cbn [bind fst snd]. rewrite Ec. reflexivity.
Qed.

End Seek.

Lemma in_znth : forall A (x : A) l, In x l -> exists i, znth i l = Some x.
Proof.
  intros A x l I. apply In_nth_error in I as [i E]. exists (Z.of_nat i). unfold znth.
  destruct (Z.ltb_spec (Z.of_nat i) 0); [lia|]. rewrite Nat2Z.id. exact E.
Qed.

Lemma willing_takes : forall k d (p : packet), willing k d -> exists d1, sk_handle k d p = Ok (d1, true) /\ willing k d1.
Proof.
  intros k d p W. destruct (W [p]) as [x [_ [_ [E _]]]]. cbn [hand] in E.
  destruct (sk_handle k d p) as [[d1 [|]]|] eqn:Ep; try discriminate. exists d1. split; [reflexivity|]. intros qs.
  destruct (W (p :: qs)) as [y [z [c [E1 X]]]]. cbn [hand] in E1. rewrite Ep in E1. exists y, z, c. split; [|exact X].
  destruct (hand k d1 qs) as [o r]. inversion E1. reflexivity.
Qed.

Lemma seek_run_all : forall o stage k ps n d d1, sk_start k d = Ok (d1, true) -> willing k d1 -> orderly o stage ps -> sane_seek o ->
  (List.length ps < n)%nat ->
  exists r s d2 d3 c, seek o stage [] None 0 ps r /\ hand k d1 (seek_output ps r) = (seek_output ps r, Ok (d2, true)) /\ sk_end k d2 = Ok d3 /\ sk_exit k d3 = Ok c /\
    FeedPackets (list_source packet) (start_seeker o k stage) n ps (ss_init, d) = Some (Ok (c, (s, d3))).
Proof.
  intros o stage k ps n d d1 E W O Sa L.
  assert (Nm : forall p t, In p ps -> In t (p_tabs p stage) -> missing (sso_sid o) (p_pid p, tb_body t) = false).
  { intros p t Ip. apply in_znth in Ip as [i Ei]. intros It. apply (O _ _ Ei). exact It. }
  destruct (seek_run o stage k (willing k)) with (all := ps) (n := n) (d := d) (d1 := d1) as [[_ X]|[X _]]; auto.
  - intros. apply willing_takes. auto.
  - intros d2 W2. destruct (W2 []) as [x [y [c [X Y]]]]. inversion X. subst. eauto.
  - intros i p Ei. destruct (O i p Ei) as [O1 O2]. split; [exact O1|]. intros t It. destruct (O2 t It) as [_ [A [_ B]]]. auto.
  - left. exact Nm.
  - exfalso. clear - X Nm. induction X as [h p ps ts t [[_ ->]|[_ ->]] It M|h p ps ts Hr N X IH]; [|destruct It|].
    + rewrite (Nm p t (or_introl eq_refl) It) in M. discriminate.
    + apply IH. intros q t I. apply Nm. right. exact I.
Qed.

Lemma seek_run_ordered : forall o stage k ps n d d1, sk_start k d = Ok (d1, true) -> willing k d1 -> ordered o stage ps -> sane_seek o ->
  (List.length ps < n)%nat ->
  (~ loses o stage [] ps /\ exists r s d2 d3 c, seek o stage [] None 0 ps r /\ hand k d1 (seek_output ps r) = (seek_output ps r, Ok (d2, true)) /\ sk_end k d2 = Ok d3 /\ sk_exit k d3 = Ok c /\
    FeedPackets (list_source packet) (start_seeker o k stage) n ps (ss_init, d) = Some (Ok (c, (s, d3)))) \/
  (loses o stage [] ps /\ FeedPackets (list_source packet) (start_seeker o k stage) n ps (ss_init, d) = Some (Fail AssertFail)).
Proof.
  intros o stage k ps n d d1 E W O Sa L. apply (seek_run o stage k (willing k)) with (d1 := d1); auto.
  - intros. apply willing_takes. auto.
  - intros d2 W2. destruct (W2 []) as [x [y [c [X Y]]]]. inversion X. subst. eauto.
  - intros i p Ei. destruct (O i p Ei) as [O1 O2]. split; [exact O1|]. intros t It. destruct (O2 t It) as [A [_ B]]. split; [exact A|]. intros S. apply B, S.
  - right. split; [intros x []|]. intros p t Ip It S. apply in_znth in Ip as [i Ei]. destruct (O i p Ei) as [_ O2]. apply (O2 t It). exact S.
Qed.

Lemma seek_fails_iff : forall o stage k ps n d d1, sk_start k d = Ok (d1, true) -> willing k d1 -> ordered o stage ps -> sane_seek o ->
  (List.length ps < n)%nat ->
  (exists f, FeedPackets (list_source packet) (start_seeker o k stage) n ps (ss_init, d) = Some (Fail f)) <-> loses o stage [] ps.
Proof.
  intros o stage k ps n d d1 E W O Sa L.
  destruct (seek_run_ordered o stage k ps n d d1 E W O Sa L) as [[Q [r [s [d2 [d3 [c [_ [_ [_ [_ X]]]]]]]]]]|[Q X]].
  - rewrite X. split; [intros [f F]; discriminate F|contradiction].
  - rewrite X. split; eauto.
Qed.

(** ** Consequences *)
Section Props.
Variable o : start_seeker_option.
Variable stage : nat.

Lemma seek_det : forall h base n ps r, seek o stage h base n ps r -> forall r', seek o stage h base n ps r' -> r = r'.
Proof.
  induction 1; intros r' S'; inversion S'; subst; auto;
    match goal with A : hears o stage ?h ?p ?a, B : hears o stage ?h ?p ?b |- _ => pose proof (delivered_det _ _ _ _ _ _ _ A B); subst b end;
    try (exfalso; match goal with N : (forall j, ~ transition o ?g j), T : transition o ?g ?j |- _ => exact (N j T) end);
    try congruence; auto.
  - f_equal. eapply transition_det; eauto.
  - apply IHseek. congruence.
Qed.

(** Where the indices of the cut come from. *)
Definition listed (x : Z * table) : Prop := listing (sso_sid o) (fst x, tb_body (snd x)) <> None.
Definition from_input (all : list packet) (n : Z) (h : tables) : Prop :=
  forall x, In x h -> (0 <= tb_first (snd x) < n /\ exists q, znth (tb_first (snd x)) all = Some q /\ p_pid q = fst x) /\
    (fst x = 0 \/ exists y, In y h /\ listed y).

Lemma tuned_listed : forall h pid, tuned [0] (sso_sid o) (bodies h) pid -> pid = 0 \/ exists y, In y h /\ listed y.
Proof.
  intros h pid T.
  assert (X : forall x, In x (bodies h) -> forall t, listing (sso_sid o) x = Some t -> exists y, In y h /\ listed y).
  { intros x I t L. unfold bodies in I. apply in_map_iff in I as [y [<- I]]. exists y. split; auto. unfold listed. congruence. }
  destruct T as [[t T]|[[T _]|[_ [x [t [I L]]]]]].
  - right. destruct (latest_some _ _ _ _ _ T) as [x [I L]]. eauto.
  - left. destruct T as [|[]]; auto.
  - right. eauto.
Qed.

Lemma from_add : forall h p ts held ps all, all = held ++ p :: ps -> orderly o stage all -> hears o stage h p ts ->
  from_input all (zlen held) h -> from_input all (zlen (held ++ [p])) (add h p ts).
Proof.
  intros h p ts held ps all -> O Hr Fr x I. rewrite zlen_app. change (zlen [p]) with 1.
  assert (Up : forall y, In y h -> In y (add h p ts)) by (intros; apply add_in; auto).
  apply add_in in I as [[t [I ->]]|I].
  - cbn [fst snd].
    assert (Np : znth (zlen held) (held ++ p :: ps) = Some p) by (rewrite znth_app_r, Z.sub_diag by lia; reflexivity).
    destruct (O _ _ Np) as [_ Ot]. destruct Hr as [[Tu ->]|[_ ->]]; [|destruct I].
    destruct (Ot t I) as [_ [B [X _]]]. split; [split; [lia|auto]|].
    destruct (tuned_listed _ _ Tu) as [|[y [Iy L]]]; eauto.
  - destruct (Fr _ I) as [[B X] [G|[y [Iy G]]]]; (split; [split; [lia|auto]|eauto]).
Qed.

Lemma seek_cut : forall h base n ps r, seek o stage h base n ps r -> forall i j m all held, r = Cut i j m -> all = held ++ ps ->
  orderly o stage all -> from_input all (zlen held) h -> (forall j, ~ transition o h j) ->
  exists a p b ha ts, ps = a ++ p :: b /\ hears o stage ha p ts /\ (forall j, ~ transition o ha j) /\
    transition o (add ha p ts) j /\ i = pat_start o (add ha p ts) /\ 0 < j /\ m = n + zlen a + 1 /\ from_input all (zlen held + zlen a + 1) (add ha p ts).
Proof.
  induction 1; intros i j' m all held Er Ea O Fr N; try discriminate.
  1: { injection Er as <- <- <-. exists [], p, ps, h, ts. do 6 (split; [auto|]). change (zlen (@nil packet)) with 0. rewrite !Z.add_0_r.
    split; [reflexivity|]. pose proof (from_add h p ts held ps all Ea O H Fr) as X. rewrite zlen_app in X. exact X. }
  - destruct (IHseek i j' m all (held ++ [p]) Er ltac:(rewrite <- app_assoc; auto) O (from_add h p ts held ps all Ea O H Fr) H0)
      as [a [q [b' [ha [ts' [-> [X1 [X2 [X3 [X4 [X5 [X6 X]]]]]]]]]]]];
    exists (p :: a), q, b', ha, ts'; (split; [auto|]); rewrite zlen_cons; rewrite zlen_app in X; change (zlen [p]) with 1 in X;
    replace (zlen held + (1 + zlen a) + 1) with (zlen held + 1 + zlen a + 1) by lia; repeat (split; [assumption || lia|]); exact X.
  - destruct (IHseek i j' m all (held ++ [p]) Er ltac:(rewrite <- app_assoc; auto) O (from_add h p ts held ps all Ea O H Fr) H0)
      as [a [q [b' [ha [ts' [-> [X1 [X2 [X3 [X4 [X5 [X6 X]]]]]]]]]]]];
    exists (p :: a), q, b', ha, ts'; (split; [auto|]); rewrite zlen_cons; rewrite zlen_app in X; change (zlen [p]) with 1 in X;
    replace (zlen held + (1 + zlen a) + 1) with (zlen held + 1 + zlen a + 1) by lia; repeat (split; [assumption || lia|]); exact X.
  - destruct (IHseek i j' m all (held ++ [p]) Er ltac:(rewrite <- app_assoc; auto) O (from_add h p ts held ps all Ea O H Fr) H0)
      as [a [q [b' [ha [ts' [-> [X1 [X2 [X3 [X4 [X5 [X6 X]]]]]]]]]]]];
    exists (p :: a), q, b', ha, ts'; (split; [auto|]); rewrite zlen_cons; rewrite zlen_app in X; change (zlen [p]) with 1 in X;
    replace (zlen held + (1 + zlen a) + 1) with (zlen held + 1 + zlen a + 1) by lia; repeat (split; [assumption || lia|]); exact X.
Qed.

Lemma listing_pid : forall x y, listing (sso_sid o) x = Some y -> fst x = 0.
Proof.
  intros [pid b] y E. unfold listing, usable_pat in E. cbn [fst] in *.
  destruct b as [[t|]| | | | | | |]; try discriminate. destruct (Z.eqb_spec pid 0); [auto|]. cbn in E. discriminate.
Qed.

Lemma seek_shape : forall ps i j m, orderly o stage ps -> seek o stage [] None 0 ps (Cut i j m) ->
  exists p ts ha, znth (m - 1) ps = Some p /\ hears o stage ha p ts /\ (forall j, ~ transition o ha j) /\ transition o (add ha p ts) j /\
    0 < j < m /\ 0 <= i < m /\
    exists q, znth j ps = Some q /\ (p_pid q <> 0 -> exists a, znth i ps = Some a /\ p_pid a = 0).
Proof.
  intros ps i j m O S.
  destruct (seek_cut _ _ _ _ _ S i j m ps [] eq_refl eq_refl O ltac:(intros x []) ltac:(intros j0 T; inversion T))
    as [a [p [b [ha [ts [Ep [Hr [Nh [T [Ei [Pj [Em Fr]]]]]]]]]]]].
  pose proof (zlen_nonneg _ a) as La. change (zlen (@nil packet)) with 0 in Fr. rewrite Z.add_0_l in Fr, Em.
  exists p, ts, ha. split; [rewrite Ep, Em, znth_app_r by lia; replace (zlen a + 1 - 1 - zlen a) with 0 by lia; reflexivity|]. do 3 (split; [auto|]).
  destruct (transition_in _ _ _ T) as [x [Ix [Ex Sx]]]. destruct (Fr _ Ix) as [[Bx [q [Nq Pq]]] Gx].
  split; [lia|].
  assert (Bi : 0 <= pat_start o (add ha p ts) < zlen a + 1) by (apply pat_start_bound; [lia|intros y Iy; apply (Fr _ Iy)]).
  split; [lia|]. exists q. split; [congruence|]. intros Nz. destruct Gx as [Gx|[y [Iy L]]]; [congruence|].
  unfold pat_start in Ei.
  destruct (latest (fun x => match listing (sso_sid o) (fst x, tb_body (snd x)) with Some _ => Some (tb_first (snd x)) | None => None end) (add ha p ts)) as [f|] eqn:E.
  - destruct (latest_some _ _ _ _ _ E) as [z [Iz Fz]]. destruct (Fr _ Iz) as [[_ [c [Nc Pc]]] _].
    destruct (listing (sso_sid o) (fst z, tb_body (snd z))) as [l|] eqn:Ll; [|discriminate]. injection Fz as <-. subst i.
    exists c. split; auto. apply listing_pid in Ll. cbn [fst] in Ll. congruence.
  - exfalso. pose proof (proj1 (FilterProofs.latest_none _ _ _ _) E y Iy) as F. cbn beta in F. unfold listed in L.
    destruct (listing (sso_sid o) (fst y, tb_body (snd y))); [discriminate|auto].
Qed.

End Props.

(** ** Any sink *)
Section Any.
Variable o : start_seeker_option.
Variable stage : nat.
Variable k : sink packet.

Lemma tables_streaming : forall ts s src s', handle_tables (ss_handleTable o) s src ts = Ok s' -> keeps s s'.
Proof.
  assert (K1 : forall s src t s', ss_handleTable o s src t = Ok s' -> keeps s s').
  { intros s src t s' E. unfold ss_handleTable, ss_HandlePat, ss_HandlePmt in E. unfold keeps.
    destruct (tb_body t) as [[b|]| |[b|]| | | | |]; repeat match type of E with
      | (if ?c then _ else _) = _ => destruct c
      | match ?c with Some _ => _ | None => _ end = _ => destruct c
      end; try discriminate; injection E as <-; auto. }
  induction ts as [|t ts IH]; intros s src s' E; cbn [handle_tables] in E; [injection E as <-; unfold keeps; auto|].
  destruct (ss_handleTable o s src t) as [s1|] eqn:E1; [|discriminate]. cbn [bind] in E.
  destruct (K1 _ _ _ _ E1) as [A1 [A2 A3]]. destruct (IH _ _ _ E) as [B1 [B2 B3]]. unfold keeps. intuition congruence.
Qed.

Lemma streaming_hands : forall ps s d out s' d' b, ss_streaming s = true ->
  hand (start_seeker o k stage) (s, d) ps = (out, Ok ((s', d'), b)) -> hand k d ps = (out, Ok (d', b)) /\ ss_packets s' = ss_packets s /\ ss_streaming s' = true.
Proof.
  induction ps as [|p ps IH]; intros s d out s' d' b St E; cbn [hand] in *; [injection E as <- <- <- <-; auto|].
  cbn [sk_handle start_seeker] in E. unfold ss_HandlePacket in E.
  destruct (handle_tables (ss_handleTable o) s (p_pid p) (demux_feed (ss_demux s) stage p)) as [s1|] eqn:E1; [|discriminate].
  cbn [bind] in E. destruct (tables_streaming _ _ _ _ E1) as [A1 [A2 A3]]. rewrite A1, St in E.
  destruct (sk_handle k d p) as [[d1 [|]]|] eqn:E2; cbn [bind] in E; [| |discriminate].
  - destruct (hand (start_seeker o k stage) (s1, d1) ps) as [out1 r1] eqn:E3. injection E as <- ->.
    destruct (IH s1 d1 out1 s' d' b ltac:(congruence) E3) as [X [Y W]]. rewrite X. split; auto. split; congruence.
  - injection E as <- <- <- <-. split; auto. split; congruence.
Qed.

(** The buffer stays below the limit. *)
Lemma few_held : forall ps s d out s' d' b, 0 < sso_max_packets o ->
  (ss_streaming s = true /\ ss_packets s = []) \/ (ss_streaming s = false /\ zlen (ss_packets s) < sso_max_packets o) ->
  hand (start_seeker o k stage) (s, d) ps = (out, Ok ((s', d'), b)) ->
  (ss_streaming s' = true /\ ss_packets s' = []) \/ (ss_streaming s' = false /\ b = true /\ zlen (ss_packets s') = zlen (ss_packets s) + zlen ps /\
     zlen (ss_packets s') < sso_max_packets o).
Proof.
  induction ps as [|p ps IH]; intros s d out s' d' b M I E.
  - cbn [hand] in E. injection E as <- <- <- <-. change (zlen (@nil packet)) with 0. destruct I as [I|I]; [auto|right]. intuition lia.
  - destruct I as [[St Pk]|[St Pk]].
    { destruct (streaming_hands _ _ _ _ _ _ _ St E) as [_ [X Y]]. left. split; congruence. }
    cbn [hand sk_handle start_seeker] in E. unfold ss_HandlePacket in E.
    destruct (handle_tables (ss_handleTable o) s (p_pid p) (demux_feed (ss_demux s) stage p)) as [s1|] eqn:E1; [|discriminate].
    cbn [bind] in E. destruct (tables_streaming _ _ _ _ E1) as [A1 [A2 A3]]. rewrite A1, St in E.
    assert (Go : forall s2 d2, (ss_streaming s2 = true /\ ss_packets s2 = []) \/ (ss_streaming s2 = false /\ ss_packets s2 = ss_packets s ++ [p] /\ zlen (ss_packets s) + 1 < sso_max_packets o) ->
       ss_Seek o k s1 d p = Ok ((s2, d2), true) ->
       (ss_streaming s' = true /\ ss_packets s' = []) \/ (ss_streaming s' = false /\ b = true /\
          zlen (ss_packets s') = zlen (ss_packets s) + zlen (p :: ps) /\ zlen (ss_packets s') < sso_max_packets o)).
    { intros s2 d2 C Es. rewrite Es in E. destruct (hand (start_seeker o k stage) (s2, d2) ps) as [out1 r1] eqn:E3.
      injection E as <- ->. rewrite zlen_cons.
      destruct C as [C|[C1 [C2 C3]]].
      - destruct (IH _ _ _ _ _ _ M (or_introl C) E3) as [X|X]; [auto|]. destruct X as [X1 X]. exfalso.
        destruct (streaming_hands _ _ _ _ _ _ _ (proj1 C) E3) as [_ [_ Y]]. congruence.
      - assert (L : zlen (ss_packets s2) = zlen (ss_packets s) + 1) by (rewrite C2, zlen_app; reflexivity).
        destruct (IH _ _ _ _ _ _ M (or_intror (conj C1 (eq_ind_r (fun z => z < _) C3 L))) E3) as [X|[X1 [X2 [X3 X4]]]]; [auto|].
        right. repeat split; auto. lia. }
    destruct (ss_Seek o k s1 d p) as [[[s2 d2] go]|] eqn:Es; [|discriminate].
    assert (X : go = true /\ ((ss_streaming s2 = true /\ ss_packets s2 = []) \/
       (ss_streaming s2 = false /\ ss_packets s2 = ss_packets s ++ [p] /\ zlen (ss_packets s) + 1 < sso_max_packets o))).
    { clear - Es A1 A2 St M. unfold ss_Seek in Es. cbv zeta in Es.
      set (s3 := ss_set_packets s1 (ss_packets s1 ++ [p])) in *.
      assert (R : forall x, ss_release k s3 d = Ok x -> snd x = true /\ ss_streaming (fst (fst x)) = true /\ ss_packets (fst (fst x)) = []).
      { intros x R. unfold ss_release, ss_SendPackets in R. destruct (ss_send_all k d (zdrop 0 (ss_packets s3))) as [[? ?]|]; [|discriminate].
        cbn [bind] in R. injection R as <-. auto. }
      destruct (0 <? ss_transition s3).
      { destruct (ss_SendPacket k s3 d (ss_pat s3)) as [[? ?]|]; [|discriminate]. cbn [bind] in Es. unfold ss_SendPackets in Es.
        destruct (ss_send_all k _ _) as [[? ?]|]; [|discriminate]. cbn [bind] in Es. injection Es as <- <- <-. cbn. auto. }
      assert (L : zlen (ss_packets s3) = zlen (ss_packets s) + 1) by (subst s3; cbn [ss_packets ss_set_packets]; rewrite zlen_app, A2; reflexivity).
      rewrite L in Es.
      destruct (Z.eqb_spec (sso_max_packets o) 0); [lia|]. cbn [negb andb orb] in Es.
      destruct (Z.eqb_spec (sso_max_packets o) (zlen (ss_packets s) + 1)).
      { apply R in Es. cbn in Es. intuition. }
      unfold assert in Es. destruct (Z.ltb_spec (zlen (ss_packets s) + 1) (sso_max_packets o)); [|discriminate].
      assert (P3 : ss_packets s3 = ss_packets s ++ [p]) by (subst s3; cbn; congruence).
      assert (S3 : ss_streaming s3 = false) by (subst s3; cbn; congruence).
      destruct ((ss_pcr_pid s3 =? PID_NULL) || negb (ss_pcr_pid s3 =? p_pid p)); [injection Es as <- <- <-; auto|].
      destruct (p_pcr p) as [v|]; [|injection Es as <- <- <-; auto].
      destruct (ss_end_pcr s3 <? 0).
      - destruct (i64 (sso_max_duration o * kPcrTicksPerMs)) as [x1|]; [|discriminate]. cbn [bind] in Es.
        destruct (i64 (v + x1)) as [x2|]; [|discriminate]. cbn [bind] in Es. injection Es as <- <- <-. cbn [ss_set_end_pcr ss_packets ss_streaming]. auto.
      - destruct (ComparePcr v (ss_end_pcr s3)) as [c|]; [|discriminate]. cbn [bind] in Es. destruct (c <? 0); [injection Es as <- <- <-; auto|].
        apply R in Es. cbn in Es. intuition. }
    destruct X as [-> X]. apply (Go s2 d2 X eq_refl).
Qed.

End Any.

Lemma load_limit : forall sid dur n o, ss_LoadOption sid dur (Some n) = Some o -> 0 < n < 2 ^ 32 -> sso_max_packets o = n.
Proof.
  intros sid dur n o E B. unfold ss_LoadOption in E. destruct (_ && _); [discriminate|]. injection E as <-. cbn [sso_max_packets].
  apply Z.mod_small. lia.
Qed.

Lemma limit_held : forall sid dur n o stage k ps d out s d' b, ss_LoadOption sid dur (Some n) = Some o -> 0 < n < 2 ^ 32 ->
  hand (start_seeker o k stage) (ss_init, d) ps = (out, Ok ((s, d'), b)) ->
  zlen (ss_packets s) < n /\ (n <= zlen ps -> ss_streaming s = true /\ ss_packets s = []).
Proof.
  intros sid dur n o stage k ps d out s d' b El B E. pose proof (load_limit _ _ _ _ El B) as M.
  destruct (few_held o stage k ps ss_init d out s d' b ltac:(lia)) as [[X1 X2]|[X1 [X2 [X3 X4]]]]; auto.
  - right. split; auto. change (zlen (ss_packets ss_init)) with 0. lia.
  - rewrite X2. change (zlen (@nil packet)) with 0. split; [lia|auto].
  - change (zlen (ss_packets ss_init)) with 0 in X3. split; [lia|]. lia.
Qed.

Lemma seek_survives : forall o stage k ps n d d1, sk_start k d = Ok (d1, true) -> willing k d1 -> orderly o stage ps -> sane_seek o ->
  (List.length ps < n)%nat ->
  exists c x, FeedPackets (list_source packet) (start_seeker o k stage) n ps (ss_init, d) = Some (Ok (c, x)).
Proof.
  intros o stage k ps n d d1 E W O Sa L. destruct (seek_run_all o stage k ps n d d1 E W O Sa L) as [r [s [d2 [d3 [c [_ [_ [_ [_ X]]]]]]]]]. eauto.
Qed.

Lemma seek_output_ordered : forall o stage k ps n d d1, sk_start k d = Ok (d1, true) -> willing k d1 -> ordered o stage ps -> sane_seek o ->
  (List.length ps < n)%nat -> ~ loses o stage [] ps ->
  exists r s d2 d3 c, seek o stage [] None 0 ps r /\ hand k d1 (seek_output ps r) = (seek_output ps r, Ok (d2, true)) /\ sk_end k d2 = Ok d3 /\ sk_exit k d3 = Ok c /\
    FeedPackets (list_source packet) (start_seeker o k stage) n ps (ss_init, d) = Some (Ok (c, (s, d3))).
Proof.
  intros o stage k ps n d d1 E W O Sa L N. destruct (seek_run_ordered o stage k ps n d d1 E W O Sa L) as [[_ X]|[X _]]; [exact X|contradiction].
Qed.
