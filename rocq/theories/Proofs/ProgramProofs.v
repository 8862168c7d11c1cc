From Coq Require Import ZArith Lia List Bool.
From Verif Require Import Base.Outcome Base.Util Model.Pcr Model.Sink Model.Ts Model.ProgramFilter
  Spec.PcrSpec Spec.FilterSpec Spec.TuneSpec Spec.TransSpec Spec.ProgramSpec
  Proofs.PcrProofs Proofs.FilterProofs Proofs.TuneProofs Proofs.TransProofs.
Import ListNotations.
Open Scope Z_scope.

Lemma compare_reached : forall v e, 0 <= v < pcr_cycle -> 0 <= e < pcr_cycle ->
  exists c, ComparePcr v e = Ok c /\ (0 <=? c) = reached v e /\ (c <? 0) = negb (reached v e).
Proof.
  intros v e Hv He. eexists. split; [apply compare_total; apply valid_iff; auto|].
  unfold reached. rewrite cycle_val in *.
  destruct (Z.ltb_spec (Z.abs (v - e)) (Z.abs (v - (2576980377600 + e)))); lia.
Qed.

Lemma to_pcr_valid : forall a b t, 0 <= to_pcr a b t < pcr_cycle.
Proof. intros. unfold to_pcr. apply Z.mod_pos_bound. rewrite cycle_val. lia. Qed.

Section Pf.
Variable npackets : pmt -> nat.
Hypothesis np_pos : forall m, (1 <= npackets m)%nat.
Variable o : program_filter_option.
Notation sid := (pfo_sid o).

(** ** Streams *)
Lemma unwanted_eq : forall e, pf_unwanted o e = unwanted o e.
Proof.
  intros e. unfold pf_unwanted, unwanted, asked, tagged, zmem.
  destruct (es_video e), (es_audio e), (pfo_video_tags o) as [|a l], (pfo_audio_tags o) as [|a' l'], (es_tag e); reflexivity.
Qed.

Lemma In_black : forall l acc pid,
  In pid (fold_left (fun l e => if pf_unwanted o (snd e) then zadd (fst e) l else l) l acc) <->
  In pid acc \/ exists e, In (pid, e) l /\ unwanted o e = true.
Proof.
  induction l as [|[a e] l IH]; intros acc pid; cbn [fold_left].
  - split; auto. intros [?|[? [[] _]]]; auto.
  - rewrite IH. cbn [fst snd In]. rewrite unwanted_eq. destruct (unwanted o e) eqn:E.
    + rewrite In_zadd. split.
      * intros [[->|K]|[e' [K1 K2]]]; auto; right; [exists e|exists e']; auto.
      * intros [K|[e' [[K1|K1] K2]]]; auto; [inversion K1; subst; auto|right; eauto].
    + split.
      * intros [K|[e' [K1 K2]]]; auto. right; eauto.
      * intros [K|[e' [[K1|K1] K2]]]; auto; [inversion K1; subst; congruence|right; eauto].
Qed.

Definition black_of (t : pmt) := fold_left (fun l e => if pf_unwanted o (snd e) then zadd (fst e) l else l) (pmt_streams t) [].

Lemma black_removed : forall t pid, zmem pid (black_of t) = removed o t pid.
Proof.
  intros. apply eq_true_iff_eq. unfold black_of, removed. rewrite zmem_In, In_black, existsb_exists. cbn [In]. split.
  - intros [[]|[e [K1 K2]]]. exists (pid, e). cbn. rewrite Z.eqb_refl. auto.
  - intros [[a e] [K1 K2]]. cbn in K2. apply andb_prop in K2 as [K2 K3]. apply Z.eqb_eq in K2. subst. right. eauto.
Qed.

Lemma reduced_eq : forall t, (match black_of t with
   | [] => t
   | _ => mkPmt (pmt_sid t) (pmt_version t) (pmt_pcr_pid t) (pmt_ca_pids t)
             (filter (fun e => negb (zmem (fst e) (black_of t))) (pmt_streams t)) end) = reduced o t.
Proof.
  intros t. unfold reduced.
  assert (F : filter (fun e => negb (zmem (fst e) (black_of t))) (pmt_streams t) =
              filter (fun x => negb (unwanted o (snd x))) (pmt_streams t)).
  { apply filter_ext_in. intros [a e] He. cbn [fst snd]. f_equal. apply eq_true_iff_eq. unfold black_of.
    rewrite zmem_In, In_black. cbn [In]. split.
    - intros [[]|[e' [K1 K2]]]. unfold pmt_streams in *. apply In_map_of_mfind in He, K1. congruence.
    - intros K. right. eauto. }
  destruct (existsb (fun x => unwanted o (snd x)) (pmt_streams t)) eqn:Ex.
  - apply existsb_exists in Ex as [[a e] [K1 K2]]. cbn in K2.
    assert (B : In a (black_of t)) by (apply In_black; right; eauto).
    rewrite F. destruct (black_of t); [destruct B|reflexivity].
  - destruct (black_of t) as [|a l] eqn:Eb; auto. exfalso.
    assert (B : In a (black_of t)) by (rewrite Eb; left; auto).
    apply In_black in B as [[]|[e [K1 K2]]].
    assert (X : existsb (fun x => unwanted o (snd x)) (pmt_streams t) = true) by (apply existsb_exists; exists (a, e); auto).
    congruence.
Qed.

(** ** The relation between past and state *)
Definition clk_rel (c : pf_clock) (x : Z * option Z * option Z) : Prop :=
  let '(pid, pcr, time) := x in
  pc_pid c = pid /\
  match pcr with Some v => pc_pcr_ready c = true /\ pc_pcr c = v | None => pc_pcr_ready c = false end /\
  match time with Some v => pc_time_ready c = true /\ pc_time c = v | None => pc_time_ready c = false end.

Definition win_rel (w : pf_window) (e : option event) (x : option (Z * Z)) : Prop :=
  match e with
  | None => pw_ready w = false
  | Some e => pw_ready w = true /\ pw_start_time w = ev_start e - pfo_start_margin o /\
      pw_end_time w = ev_start e + (ev_duration e * 1000 + pfo_end_margin o)
  end /\
  match x with None => True | Some (a, b) => pw_start_pcr w = a /\ pw_end_pcr w = b end.

Definition clk_sane (x : Z * option Z * option Z) : Prop :=
  let '(_, pcr, time) := x in
  (forall v, pcr = Some v -> 0 <= v < pcr_cycle) /\ (forall t, time = Some t -> Z.abs t < 2 ^ 44).
Definition ev_sane (e : event) : Prop := 0 <= ev_start e < 2 ^ 44 /\ 0 <= ev_duration e < 2 ^ 30.

Record pf_rel (h : past) (s : pf_state) : Prop := mkPfRel {
  Q_demux : forall pid, In pid (pf_demux s) <-> tuned base_pids sid (tabs h) pid;
  Q_stream : pf_streaming s = begun h;
  Q_pats : begun h = false -> pf_pats s = pats h;
  Q_pmt : match pmt_now o h with
          | None => pf_pcr_pid_ready s = false
          | Some (src, m) => pf_pcr_pid_ready s = true /\ pf_pcr_pid s = pmt_pcr_pid m /\
              (forall pid, zmem pid (pf_black s) = removed o m pid) /\
              pf_pz s = mkPacketizer src (Some (reduced o m)) (pmt_count o h mod npackets (reduced o m))
          end;
  Q_pid : pf_pmt_pid s = pmt_pid o h;
  Q_clk : clk_rel (pf_clk s) (clock_now o h);
  Q_win : win_rel (pf_win s) (event_now o h) (window o h);
  Q_stop : pf_stop s = given_up o h;
  Q_retry : pf_retry s = false;
  Q_begun : begun h = true -> pmt_now o h <> None /\ event_now o h <> None;
  Q_count : begun h = false -> pmt_count o h = 0%nat;
  Q_csane : clk_sane (clock_now o h);
  Q_esane : forall e, event_now o h = Some e -> ev_sane e }.

Hypothesis sane : sane_option o.

Lemma rel_init : pf_rel [] (pf_init o).
Proof.
  destruct sane as [S1 [S2 _]].
  constructor.
  - intros pid. change (tabs []) with (@nil (Z * body)). rewrite tuned_nil.
    change (pf_demux (pf_init o)) with (zadd PID_TOT (zadd PID_EIT (zadd PID_PAT []))).
    rewrite !In_zadd. unfold base_pids, PID_TOT, PID_EIT, PID_PAT. cbn [In].
    assert (E : forall x : Z, pid = x <-> x = pid) by (intros; split; auto).
    rewrite (E 0), (E 0x12), (E 0x14). tauto.
  - reflexivity.
  - reflexivity.
  - reflexivity.
  - reflexivity.
  - cbn. auto.
  - split; cbn; auto.
  - reflexivity.
  - reflexivity.
  - discriminate.
  - reflexivity.
  - split; intros v [= <-]; auto.
  - discriminate.
Qed.

(** ** PCR range *)
Lemma conv_ok : forall s t pid pcr time, clk_rel (pf_clk s) (pid, Some pcr, Some time) ->
  0 <= pcr < pcr_cycle -> Z.abs (t - time) < 2 ^ 46 -> pf_ConvertTimeToPcr s t = Ok (to_pcr pcr time t).
Proof.
  intros s t pid pcr time [H1 [[H2 H3] [H4 H5]]] V B. unfold pf_ConvertTimeToPcr, assert.
  rewrite H2, H4, H3, H5. rewrite (proj2 (valid_iff pcr) V).
  change kPcrTicksPerMs with 27000. rewrite cycle_val in V.
  rewrite i64_ok by (unfold int64_min, int64_max; lia). cbn [bind].
  rewrite i64_ok by (unfold int64_min, int64_max; lia). cbn [bind].
  rewrite i64_ok by (unfold int64_min, int64_max; lia). cbn [bind].
  destruct (while_neg_rem (pcr + (t - time) * 27000)) as [q [E1 [E2 E3]]].
  rewrite E1. destruct (Z.leb_spec 0 q); [|lia]. f_equal. rewrite E3. unfold to_pcr. f_equal. lia.
Qed.

Lemma bound_sum : forall e time, ev_sane e -> Z.abs time < 2 ^ 44 ->
  Z.abs (ev_start e - pfo_start_margin o - time) < 2 ^ 46 /\
  Z.abs (ev_start e + (ev_duration e * 1000 + pfo_end_margin o) - time) < 2 ^ 46.
Proof.
  intros e time [H1 H2] T. destruct sane as [_ [_ [S3 S4]]].
  change (2 ^ 44) with 17592186044416 in *. change (2 ^ 46) with 70368744177664. change (2 ^ 30) with 1073741824 in *. lia.
Qed.

Lemma range_ok : forall s pid pcr time e x, clk_rel (pf_clk s) (pid, Some pcr, Some time) ->
  clk_sane (pid, Some pcr, Some time) -> ev_sane e -> win_rel (pf_win s) (Some e) x ->
  pf_UpdatePcrRange s = Ok (pf_set_win s (mkPfWindow (pw_start_time (pf_win s)) (pw_end_time (pf_win s))
    (to_pcr pcr time (ev_start e - pfo_start_margin o))
    (to_pcr pcr time (ev_start e + (ev_duration e * 1000 + pfo_end_margin o))) true)).
Proof.
  intros s pid pcr time e x C [V T] E [[W1 [W2 W3]] _].
  pose proof C as [C1 [[C2 C3] [C4 C5]]].
  destruct (bound_sum e time E (T _ eq_refl)) as [B1 B2].
  unfold pf_UpdatePcrRange, assert. rewrite W1, C2, C4, W2, W3.
  rewrite (conv_ok s _ pid pcr time C (V _ eq_refl) B1). cbn [bind].
  rewrite (conv_ok s _ pid pcr time C (V _ eq_refl) B2). cbn [bind]. reflexivity.
Qed.

(** [pf_rel] only depends on these parts of the past. *)
Lemma window_ext : forall h h', clock_now o h' = clock_now o h -> event_now o h' = event_now o h -> window o h' = window o h.
Proof. intros h h' A B. unfold window. rewrite A, B. reflexivity. Qed.

(** A table without effect. *)
Lemma rel_mute : forall h s pid b, pf_rel h s ->
  listing sid (pid, b) = None -> service_pmt_from o (pid, b) = None -> event_in o (pid, b) = None ->
  clock_now o (Tab pid b :: h) = clock_now o h -> gives_up o (Tab pid b) h = false -> pf_rel (Tab pid b :: h) s.
Proof.
  intros h s pid b [H1 H2 H3 H4 H5 H6 H7 H8 H9 H10 H11 H12 H13] L M E C G.
  assert (EM : pmt_now o (Tab pid b :: h) = pmt_now o h) by (unfold pmt_now; cbn [tabs latest]; rewrite M; auto).
  assert (EE : event_now o (Tab pid b :: h) = event_now o h) by (unfold event_now; cbn [tabs latest]; rewrite E; auto).
  assert (EC : pmt_count o (Tab pid b :: h) = pmt_count o h) by (cbn [pmt_count]; rewrite M; auto).
  constructor.
  - intros q. cbn [tabs]. rewrite tuned_mute by auto. auto.
  - auto.
  - auto.
  - rewrite EM, EC. auto.
  - unfold pmt_pid. cbn [tabs latest]. rewrite L. exact H5.
  - rewrite C. auto.
  - rewrite EE, (window_ext h); auto.
  - cbn [given_up]. rewrite G, orb_false_r. auto.
  - auto.
  - rewrite EM, EE. auto.
  - rewrite EC. auto.
  - rewrite C. auto.
  - rewrite EE. auto.
Qed.

Lemma rel_table : forall h s pid tb, pf_rel h s -> sane_table (tb_body tb) ->
  if missing sid (pid, tb_body tb) then pf_handleTable o s pid tb = Fail AssertFail
  else exists s', pf_handleTable o s pid tb = Ok s' /\ pf_rel (Tab pid (tb_body tb) :: h) s'.
Proof.
  intros h s pid tb R Sn. pose proof R as [H1 H2 H3 H4 H5 H6 H7 H8 H9 H10 H11 H12 H13]. unfold pf_handleTable.
  assert (Cn : forall b, (forall t, b <> TPmt (Some t)) -> (forall t, b <> TTot (Some t)) -> clock_now o (Tab pid b :: h) = clock_now o h).
  { intros b N1 N2. cbn [clock_now]. destruct (clock_now o h) as [[c1 c2] c3].
    destruct b as [?|?|[?|]|?|[?|]|?|?|]; try reflexivity; [exfalso; eapply N1; reflexivity|exfalso; eapply N2; reflexivity]. }
  assert (Mu : forall b, match b with TCat _ | TSdt _ | TNit _ | TOther | TPat None | TPmt None | TEit None | TTot None => True | _ => False end ->
     pf_rel (Tab pid b :: h) s).
  { intros b K. apply rel_mute; auto; destruct b as [[?|]|?|[?|]|[?|]|[?|]|?|?|]; try contradiction; try reflexivity;
    apply Cn; intros; discriminate. }
  destruct (tb_body tb) as [t|t|t|t|t|t|t|].
  - (* PAT *)
    unfold pf_HandlePat. change PID_PAT with 0.
    destruct t as [t|]; [|destruct (negb (pid =? 0)); exists s; split; auto].
    assert (L0 : listing sid (pid, TPat (Some t)) = None -> pf_rel (Tab pid (TPat (Some t)) :: h) s).
    { intros L. apply rel_mute; auto. apply Cn; intros; discriminate. }
    unfold missing. cbn [usable_pat].
    destruct (Z.eqb_spec pid 0) as [->|Hp]; cbn [negb andb].
    2:{ exists s. split; auto. apply L0. unfold listing, usable_pat. destruct (Z.eqb_spec pid 0); [lia|auto]. }
    destruct (Z.eqb_spec (pat_tsid t) 0) as [Ht|Ht]; cbn [negb andb].
    { exists s. split; auto. apply L0. unfold listing, usable_pat. rewrite Ht. auto. }
    rewrite pmts_find. destruct (pmt_pid_of sid t) as [np|] eqn:E; [|reflexivity].
    assert (L : listing sid (0, TPat (Some t)) = Some (t, np)).
    { unfold listing. cbn [usable_pat]. destruct (Z.eqb_spec (pat_tsid t) 0); [lia|]. cbn. rewrite E. auto. }
    eexists. split; [reflexivity|].
    assert (C : clock_now o (Tab 0 (TPat (Some t)) :: h) = clock_now o h) by (apply Cn; intros; discriminate).
    constructor; cbn [pf_demux pf_streaming pf_pats pf_black pf_pz pf_clk pf_pmt_pid pf_pcr_pid pf_pcr_pid_ready pf_win pf_stop pf_retry]; auto.
    + cbn [tabs]. rewrite H5. apply (tuned_listing base_pids sid (tabs h) _ _ _ _ L H1).
    + unfold pmt_pid. cbn [tabs latest]. rewrite L. auto.
    + rewrite C. auto.
    + rewrite (window_ext h); auto.
    + cbn. rewrite orb_false_r. auto.
    + rewrite C. auto.
  - exists s; split; auto.
  - (* PMT *)
    change (missing sid (pid, TPmt t)) with false. cbv iota.
    unfold pf_HandlePmt. destruct t as [t|]; [|exists s; split; auto].
    destruct (Z.eqb_spec (pmt_sid t) sid) as [Es|Es]; cbn [negb].
    2:{ assert (N : (pmt_sid t =? sid) = false) by (apply Z.eqb_neq; auto).
        exists s. split; auto. apply rel_mute; auto; [cbn; rewrite N; auto|].
        cbn. destruct (clock_now o h) as [[c1 c2] c3]. rewrite N. auto. }
    assert (N : (pmt_sid t =? sid) = true) by (apply Z.eqb_eq; auto).
    eexists. split; [reflexivity|].
    assert (EM : pmt_now o (Tab pid (TPmt (Some t)) :: h) = Some (pid, t)).
    { unfold pmt_now. cbn. rewrite N. auto. }
    assert (EC : pmt_count o (Tab pid (TPmt (Some t)) :: h) = 0%nat) by (cbn; rewrite N; auto).
    fold (black_of t).
    constructor; cbn [pf_demux pf_streaming pf_pats pf_black pf_pz pf_clk pf_pmt_pid pf_pcr_pid pf_pcr_pid_ready pf_win pf_stop pf_retry]; auto.
    + intros q. cbn [tabs]. rewrite tuned_mute by reflexivity. auto.
    + rewrite EM, EC. split; auto. split; auto. split; [apply black_removed|].
      rewrite reduced_eq. rewrite Nat.mod_0_l; auto. specialize (np_pos (reduced o t)). lia.
    + cbn [clock_now]. destruct (clock_now o h) as [[c1 c2] c3]. pose proof H6 as [C1 [C2 C3]].
      rewrite N. cbn [andb]. rewrite (Z.eqb_sym (pmt_pcr_pid t) c1), C1.
      destruct (Z.eqb_spec c1 (pmt_pcr_pid t)); cbn [negb]; [exact H6|]. cbn. auto.
    + assert (W : window o (Tab pid (TPmt (Some t)) :: h) = window o h \/ window o (Tab pid (TPmt (Some t)) :: h) = None).
      { unfold window. change (event_now o (Tab pid (TPmt (Some t)) :: h)) with (event_now o h). cbn [clock_now].
        destruct (clock_now o h) as [[c1 c2] c3]. destruct (_ && _); auto. }
      change (event_now o (Tab pid (TPmt (Some t)) :: h)) with (event_now o h).
      destruct W as [->| ->]; auto. destruct H7. split; auto.
    + cbn. rewrite orb_false_r. auto.
    + intros B. rewrite EM. split; [discriminate|]. apply H10. auto.
    + cbn [clock_now]. destruct (clock_now o h) as [[c1 c2] c3]. destruct (_ && _); auto.
      split; intros; discriminate.
  - (* EIT *)
    change (missing sid (pid, TEit t)) with false. cbv iota.
    unfold pf_HandleEit. destruct t as [t|]; [|exists s; split; auto].
    destruct (Z.eqb_spec (eit_sid t) sid) as [Es|Es]; cbn [negb].
    2:{ assert (N : (eit_sid t =? sid) = false) by (apply Z.eqb_neq; auto).
        exists s. split; auto. apply rel_mute; auto; try (cbn; rewrite N; auto; fail).
        apply Cn; intros; discriminate. }
    assert (N : (eit_sid t =? sid) = true) by (apply Z.eqb_eq; auto).
    assert (C : clock_now o (Tab pid (TEit (Some t)) :: h) = clock_now o h) by (apply Cn; intros; discriminate).
    assert (Stop : event_in o (pid, TEit (Some t)) = None -> gives_up o (Tab pid (TEit (Some t))) h = true ->
              pf_rel (Tab pid (TEit (Some t)) :: h) (pf_set_stop s)).
    { intros Ev G. assert (EE : event_now o (Tab pid (TEit (Some t)) :: h) = event_now o h) by (unfold event_now; cbn [tabs latest]; rewrite Ev; auto).
      constructor; cbn [pf_set_stop pf_demux pf_streaming pf_pats pf_black pf_pz pf_clk pf_pmt_pid pf_pcr_pid pf_pcr_pid_ready pf_win pf_stop pf_retry]; auto.
      - intros q. cbn [tabs]. rewrite tuned_mute by reflexivity. auto.
      - rewrite C. auto.
      - rewrite EE, (window_ext h); auto.
      - cbn [given_up]. rewrite G, orb_true_r. auto.
      - rewrite EE. auto.
      - rewrite C. auto.
      - rewrite EE. auto. }
    assert (Found : forall e, event_in o (pid, TEit (Some t)) = Some e -> gives_up o (Tab pid (TEit (Some t))) h = false -> ev_sane e ->
              exists s', pf_UpdateEventTime o s e = Ok s' /\ pf_rel (Tab pid (TEit (Some t)) :: h) s').
    { intros e Ev G Se.
      assert (EE : event_now o (Tab pid (TEit (Some t)) :: h) = Some e) by (unfold event_now; cbn [tabs latest]; rewrite Ev; auto).
      unfold pf_UpdateEventTime. pose proof Se as [Se1 Se2]. destruct sane as [_ [_ [S3 S4]]].
      change MilliSecPerSec with 1000.
      change (2 ^ 44) with 17592186044416 in *. change (2 ^ 30) with 1073741824 in *.
      rewrite i64_ok by (unfold int64_min, int64_max; lia). cbn [bind].
      rewrite i64_ok by (unfold int64_min, int64_max; lia). cbn [bind].
      rewrite i64_ok by (unfold int64_min, int64_max; lia). cbn [bind].
      rewrite i64_ok by (unfold int64_min, int64_max; lia). cbn [bind].
      set (s1 := pf_set_win s _).
      assert (Fin : forall w, win_rel w (Some e) (window o (Tab pid (TEit (Some t)) :: h)) -> pf_rel (Tab pid (TEit (Some t)) :: h) (pf_set_win s w)).
      { intros w Hw.
        constructor; cbn [pf_set_win pf_demux pf_streaming pf_pats pf_black pf_pz pf_clk pf_pmt_pid pf_pcr_pid pf_pcr_pid_ready pf_win pf_stop pf_retry]; auto.
        - intros q. cbn [tabs]. rewrite tuned_mute by reflexivity. auto.
        - rewrite C. auto.
        - rewrite EE. auto.
        - cbn [given_up]. rewrite G, orb_false_r. auto.
        - intros B. rewrite EE. split; [apply H10; auto|discriminate].
        - rewrite C. auto.
        - rewrite EE. intros ? [= <-]. auto. }
      assert (Wn : window o (Tab pid (TEit (Some t)) :: h) =
        match clock_now o h with
        | (_, Some pcr, Some time) => Some (to_pcr pcr time (ev_start e - pfo_start_margin o), to_pcr pcr time (ev_start e + (ev_duration e * 1000 + pfo_end_margin o)))
        | _ => None end).
      { unfold window. rewrite C, EE. destruct (clock_now o h) as [[? [?|]] [?|]]; reflexivity. }
      rewrite Wn in Fin. clear Wn.
      destruct (clock_now o h) as [[c1 c2] c3] eqn:Ec. pose proof H6 as [C1 [C2 C3]].
      change (pf_clk s1) with (pf_clk s).
      destruct c3 as [time|]; [destruct C3 as [C3 C3']; destruct c2 as [pcr|]; [destruct C2 as [C2 C2']|]|].
      - rewrite C2, C3. cbn [andb].
        assert (Wr : win_rel (pf_win s1) (Some e) None) by (subst s1; split; cbn; auto).
        assert (K : clk_rel (pf_clk s1) (c1, Some pcr, Some time)) by exact H6.
        rewrite (range_ok s1 c1 pcr time e None K H12 Se Wr).
        eexists. split; [reflexivity|]. unfold s1, pf_set_win at 1.
        cbn [pf_set_win pf_demux pf_streaming pf_pats pf_black pf_pz pf_clk pf_pmt_pid pf_pcr_pid pf_pcr_pid_ready pf_win pf_stop pf_retry pw_start_time pw_end_time].
        apply Fin. split; cbn; auto.
      - rewrite C2, C3. cbn [andb]. exists s1. split; auto. apply Fin. split; cbn; auto.
      - rewrite C3. cbn [andb]. exists s1. split; auto. apply Fin. destruct c2; split; cbn; auto. }
    cbn [sane_table] in Sn.
    destruct (eit_events t) as [|e r] eqn:Et.
    { exists (pf_set_stop s). split; auto. apply Stop; cbn; rewrite N, Et; auto. }
    inversion Sn as [|? ? Se Sr]; subst.
    destruct (Z.eqb_spec (ev_id e) (pfo_eid o)) as [Ei|Ei].
    { assert (Ev : event_in o (pid, TEit (Some t)) = Some e) by (cbn; rewrite N, Et, Ei, Z.eqb_refl; auto).
      apply Found; auto. cbn [gives_up]. rewrite N, Et, Ev. cbn. rewrite andb_false_r. auto. }
    assert (Ni : (ev_id e =? pfo_eid o) = false) by (apply Z.eqb_neq; auto).
    destruct r as [|f r].
    { assert (Ev : event_in o (pid, TEit (Some t)) = None) by (cbn; rewrite N, Et, Ni; auto).
      rewrite H2. destruct (begun h) eqn:B.
      - exists s. split; auto. apply rel_mute; auto. cbn [gives_up]. rewrite B. cbn. rewrite N, Et. auto.
      - exists (pf_set_stop s). split; auto. apply Stop; auto. cbn [gives_up]. rewrite B, N, Et, Ev. auto. }
    inversion Sr as [|? ? Sf Sr']; subst.
    destruct (Z.eqb_spec (ev_id f) (pfo_eid o)) as [Fi|Fi].
    { assert (Ev : event_in o (pid, TEit (Some t)) = Some f) by (cbn; rewrite N, Et, Ni, Fi, Z.eqb_refl; auto).
      apply Found; auto. cbn [gives_up]. rewrite N, Et, Ev. cbn. rewrite andb_false_r. auto. }
    assert (Nf : (ev_id f =? pfo_eid o) = false) by (apply Z.eqb_neq; auto).
    assert (Ev : event_in o (pid, TEit (Some t)) = None) by (cbn; rewrite N, Et, Ni, Nf; auto).
    rewrite H2. destruct (begun h) eqn:B.
    { exists s. split; auto. apply rel_mute; auto. cbn [gives_up]. rewrite B. cbn. rewrite N, Et. auto. }
    destruct (pfo_wait_until o) as [w|] eqn:Ew.
    + exists s. split; auto. apply rel_mute; auto. cbn [gives_up]. rewrite B, N, Et, Ev, Ew. auto.
    + exists (pf_set_stop s). split; auto. apply Stop; auto. cbn [gives_up]. rewrite B, N, Et, Ev, Ew. auto.
  - (* TOT *)
    change (missing sid (pid, TTot t)) with false. cbv iota.
    unfold pf_HandleTot. destruct t as [t|]; [|exists s; split; auto].
    cbn [sane_table] in Sn.
    set (s1 := if pf_streaming s then s else pf_CheckTimeLimit o s t).
    assert (S1 : s1 = s /\ gives_up o (Tab pid (TTot (Some t))) h = false \/
                 s1 = pf_set_stop s /\ gives_up o (Tab pid (TTot (Some t))) h = true).
    { subst s1. rewrite H2. cbn [gives_up]. destruct (begun h); cbn; auto. unfold pf_CheckTimeLimit.
      destruct (pfo_wait_until o) as [w|]; auto. destruct (w <? t); auto. }
    assert (Main : forall s2, pf_stop s2 = given_up o (Tab pid (TTot (Some t)) :: h) ->
        pf_demux s2 = pf_demux s -> pf_streaming s2 = pf_streaming s -> pf_pats s2 = pf_pats s -> pf_black s2 = pf_black s ->
        pf_pz s2 = pf_pz s -> pf_pmt_pid s2 = pf_pmt_pid s -> pf_pcr_pid s2 = pf_pcr_pid s ->
        pf_pcr_pid_ready s2 = pf_pcr_pid_ready s -> pf_retry s2 = pf_retry s ->
        clk_rel (pf_clk s2) (clock_now o (Tab pid (TTot (Some t)) :: h)) ->
        win_rel (pf_win s2) (event_now o h) (window o (Tab pid (TTot (Some t)) :: h)) ->
        pf_rel (Tab pid (TTot (Some t)) :: h) s2).
    { intros s2 K0 K1 K2 K3 K4 K5 K6 K7 K8 K9 K10 K11.
      constructor; rewrite ?K1, ?K2, ?K3, ?K4, ?K5, ?K6, ?K7, ?K8, ?K9; auto.
      - intros q. cbn [tabs]. rewrite tuned_mute by reflexivity. auto.
      - cbn [clock_now]. destruct (clock_now o h) as [[c1 c2] c3]. destruct H12 as [V T]. split; auto.
        intros x Hx. destruct c3; auto. inversion Hx; subst. lia. }
    assert (Sp : forall x, pf_stop (pf_set_win x (pf_win x)) = pf_stop x) by reflexivity.
    assert (Cl1 : pf_clk s1 = pf_clk s /\ pf_win s1 = pf_win s) by (destruct S1 as [[-> _]|[-> _]]; auto).
    destruct Cl1 as [Cl1 Wi1].
    destruct (clock_now o h) as [[c1 c2] c3] eqn:Ec. pose proof H6 as [C1 [C2 C3]].
    assert (St : pf_stop s1 = given_up o (Tab pid (TTot (Some t)) :: h)).
    { cbn [given_up]. rewrite <- H8. destruct S1 as [[-> ->]|[-> ->]]; cbn; [rewrite orb_false_r|rewrite orb_true_r]; auto. }
    assert (Oth : pf_demux s1 = pf_demux s /\ pf_streaming s1 = pf_streaming s /\ pf_pats s1 = pf_pats s /\ pf_black s1 = pf_black s /\
        pf_pz s1 = pf_pz s /\ pf_pmt_pid s1 = pf_pmt_pid s /\ pf_pcr_pid s1 = pf_pcr_pid s /\
        pf_pcr_pid_ready s1 = pf_pcr_pid_ready s /\ pf_retry s1 = pf_retry s).
    { destruct S1 as [[-> _]|[-> _]]; cbn; repeat split. }
    destruct Oth as [O1 [O2 [O3 [O4 [O5 [O6 [O7 [O8 O9]]]]]]]].
    rewrite Cl1. destruct c3 as [time|].
    { destruct C3 as [C3 C3']. rewrite C3. exists s1. split; auto. apply Main; auto.
      - rewrite Cl1. cbn [clock_now]. rewrite Ec. exact H6.
      - rewrite Wi1. rewrite (window_ext h); auto. cbn [clock_now]. rewrite Ec. auto. }
    rewrite C3. unfold pf_UpdateClockTime. rewrite Cl1, C3. cbn [negb assert].
    set (s2 := pf_set_clk s1 _).
    assert (Cn2 : clock_now o (Tab pid (TTot (Some t)) :: h) = (c1, c2, Some t)) by (cbn [clock_now]; rewrite Ec; auto).
    assert (Cr : clk_rel (pf_clk s2) (c1, c2, Some t)) by (subst s2; cbn; destruct c2; auto).
    change (pf_win s2) with (pf_win s1). rewrite Wi1.
    assert (Cp : pc_pcr_ready (pf_clk s2) = pc_pcr_ready (pf_clk s)) by reflexivity. rewrite Cp.
    assert (Wn : window o (Tab pid (TTot (Some t)) :: h) =
        match c2, event_now o h with
        | Some pcr, Some e => Some (to_pcr pcr t (ev_start e - pfo_start_margin o), to_pcr pcr t (ev_start e + (ev_duration e * 1000 + pfo_end_margin o)))
        | _, _ => None end).
    { unfold window. rewrite Cn2. change (event_now o (Tab pid (TTot (Some t)) :: h)) with (event_now o h). destruct c2; auto. }
    rewrite Wn in Main. rewrite Cn2 in Main. clear Wn.
    destruct (event_now o h) as [e|] eqn:Ee.
    + destruct c2 as [pcr|].
      * destruct C2 as [C2 C2']. rewrite C2. pose proof H7 as [[W1 [W2 W3]] _]. rewrite W1. cbn [andb].
        assert (Wr : win_rel (pf_win s2) (Some e) None) by (change (pf_win s2) with (pf_win s1); rewrite Wi1; split; cbn; auto).
        assert (Sn2 : clk_sane (c1, Some pcr, Some t)) by (destruct H12 as [V T]; split; auto; intros x [= <-]; lia).
        rewrite (range_ok s2 c1 pcr t e None Cr Sn2 (H13 _ eq_refl) Wr).
        eexists. split; [reflexivity|]. apply Main; auto.
        destruct Wr as [Wr _]. split; [|cbn; auto]. cbn. destruct Wr as [_ [Wr2 Wr3]]. auto.
      * rewrite C2, andb_false_r. exists s2. split; auto. apply Main; auto.
        change (pf_win s2) with (pf_win s1); rewrite Wi1. destruct H7. split; auto.
    + pose proof H7 as [W1 _]. rewrite W1. cbn [andb]. exists s2. split; auto. apply Main; auto.
      change (pf_win s2) with (pf_win s1); rewrite Wi1. destruct H7. split; auto. destruct c2; auto.
  - exists s; split; auto.
  - exists s; split; auto.
  - exists s; split; auto.
Qed.

Lemma rel_tables : forall tbs h s p, pf_rel h s -> (forall t, In t tbs -> sane_table (tb_body t)) ->
  (bad_pat o p tbs /\ handle_tables (pf_handleTable o) s (p_pid p) tbs = Fail AssertFail) \/
  (~ bad_pat o p tbs /\ exists s', handle_tables (pf_handleTable o) s (p_pid p) tbs = Ok s' /\ pf_rel (hear h p tbs) s').
Proof.
  induction tbs as [|tb tbs IH]; intros h s p R Sn.
  - right. split; [intros [? [[] _]]|]. cbn. eauto.
  - cbn [handle_tables]. pose proof (rel_table h s (p_pid p) tb R (Sn _ (or_introl eq_refl))) as T.
    destruct (missing sid (p_pid p, tb_body tb)) eqn:M.
    + left. rewrite T. split; auto. exists tb. cbn. auto.
    + destruct T as [s1 [E1 R1]]. rewrite E1. cbn [bind].
      destruct (IH _ _ p R1 (fun t Ht => Sn t (or_intror Ht))) as [[[t [B1 B2]] E]|[B [s' [E R']]]].
      * left. split; auto. exists t. cbn; auto.
      * right. split; [intros [t [[<-|B1] B2]]; [congruence|apply B; exists t; auto]|].
        exists s'. split; auto. unfold hear in *. cbn. rewrite <- app_assoc. exact R'.
Qed.

(** ** A PCR *)
Lemma clk_step : forall h s v, pf_rel h s -> 0 <= v < pcr_cycle -> event_now o h <> None ->
  exists s', (if pf_NeedClockSync s then pf_UpdateClockPcr s v else Ok s) = Ok s' /\ pf_rel (Clk v :: h) s' /\
   pf_NeedClockSync s' = (match window o (Clk v :: h) with None => true | Some _ => false end).
Proof.
  intros h s v R V En. pose proof R as [H1 H2 H3 H4 H5 H6 H7 H8 H9 H10 H11 H12 H13].
  destruct (event_now o h) as [e|] eqn:Ee; [clear En|congruence].
  destruct (clock_now o h) as [[c1 c2] c3] eqn:Ec. pose proof H6 as [C1 [C2 C3]].
  assert (Cn : clock_now o (Clk v :: h) = match c2, c3 with Some _, Some _ => (c1, c2, c3) | _, _ => (c1, Some v, c3) end).
  { cbn [clock_now]. rewrite Ec. reflexivity. }
  assert (Main : forall s2, pf_stop s2 = pf_stop s ->
        pf_demux s2 = pf_demux s -> pf_streaming s2 = pf_streaming s -> pf_pats s2 = pf_pats s -> pf_black s2 = pf_black s ->
        pf_pz s2 = pf_pz s -> pf_pmt_pid s2 = pf_pmt_pid s -> pf_pcr_pid s2 = pf_pcr_pid s ->
        pf_pcr_pid_ready s2 = pf_pcr_pid_ready s -> pf_retry s2 = pf_retry s ->
        clk_rel (pf_clk s2) (clock_now o (Clk v :: h)) ->
        win_rel (pf_win s2) (event_now o h) (window o (Clk v :: h)) ->
        pf_rel (Clk v :: h) s2).
  { intros s2 K0 K1 K2 K3 K4 K5 K6 K7 K8 K9 K10 K11.
    constructor; rewrite ?K0, ?K1, ?K2, ?K3, ?K4, ?K5, ?K6, ?K7, ?K8, ?K9; auto.
    - cbn [given_up gives_up]. rewrite orb_false_r. auto.
    - change (event_now o (Clk v :: h)) with (event_now o h). rewrite Ee. auto.
    - rewrite Cn. destruct H12 as [S1 S2]. destruct c2, c3; split; auto; intros x [= <-]; auto.
    - change (event_now o (Clk v :: h)) with (event_now o h). rewrite Ee. auto. }
  rewrite Ee, Cn in Main.
  assert (Wn : window o (Clk v :: h) = match c2, c3 with
     | Some pcr, Some time => Some (to_pcr pcr time (ev_start e - pfo_start_margin o), to_pcr pcr time (ev_start e + (ev_duration e * 1000 + pfo_end_margin o)))
     | None, Some time => Some (to_pcr v time (ev_start e - pfo_start_margin o), to_pcr v time (ev_start e + (ev_duration e * 1000 + pfo_end_margin o)))
     | _, None => None end).
  { unfold window. rewrite Cn. change (event_now o (Clk v :: h)) with (event_now o h). rewrite Ee. destruct c2, c3; auto. }
  rewrite Wn in *.
  assert (Wh : window o h = match c2, c3 with
     | Some pcr, Some time => Some (to_pcr pcr time (ev_start e - pfo_start_margin o), to_pcr pcr time (ev_start e + (ev_duration e * 1000 + pfo_end_margin o)))
     | _, _ => None end).
  { unfold window. rewrite Ec, Ee. destruct c2, c3; auto. }
  rewrite Wh in H7. pose proof H7 as [[W1 [W2 W3]] W4].
  unfold pf_NeedClockSync at 1.
  destruct c3 as [time|].
  - destruct C3 as [C3 C3']. rewrite C3. destruct c2 as [pcr|].
    + destruct C2 as [C2 C2']. rewrite C2. cbn [negb orb]. exists s. split; auto. split; [apply Main; auto|].
      unfold pf_NeedClockSync. rewrite C2, C3. auto.
    + rewrite C2. cbn [negb orb]. unfold pf_UpdateClockPcr, pf_NeedClockSync. rewrite C3, C2. cbn [negb orb assert].
      set (s2 := pf_set_clk s _). change (pf_win s2) with (pf_win s). rewrite W1.
      change (pc_time_ready (pf_clk s2)) with true. cbn [andb].
      assert (Cr : clk_rel (pf_clk s2) (c1, Some v, Some time)) by (subst s2; cbn; auto).
      assert (Sn2 : clk_sane (c1, Some v, Some time)) by (destruct H12 as [S1 S2]; split; auto; intros x [= <-]; lia).
      assert (Wr : win_rel (pf_win s2) (Some e) None) by (subst s2; split; cbn; auto).
      rewrite (range_ok s2 c1 v time e None Cr Sn2 (H13 _ eq_refl) Wr).
      eexists. split; [reflexivity|]. split; [|reflexivity]. apply Main; auto. split; cbn; auto.
  - rewrite C3. cbn [negb orb]. unfold pf_UpdateClockPcr, pf_NeedClockSync. rewrite C3. cbn [negb orb assert].
    set (s2 := pf_set_clk s _). change (pf_win s2) with (pf_win s). rewrite W1.
    change (pc_time_ready (pf_clk s2)) with false. cbn [andb].
    exists s2. split; auto. split; [|destruct c2; reflexivity]. apply Main; auto; destruct c2; cbn; auto.
Qed.

Lemma rel_saved : forall h s p, pf_rel h s -> begun h = false ->
  pf_rel (PatPkt p :: h) (pf_set_pats s ((if p_pusi p then [] else pf_pats s) ++ [p])).
Proof.
  intros h s p [H1 H2 H3 H4 H5 H6 H7 H8 H9 H10 H11 H12 H13] B.
  constructor; cbn [pf_set_pats pf_demux pf_streaming pf_pats pf_black pf_pz pf_clk pf_pmt_pid pf_pcr_pid pf_pcr_pid_ready pf_win pf_stop pf_retry]; auto.
  - intros _. cbn [pats]. rewrite H3 by auto. reflexivity.
  - cbn [clock_now]. destruct (clock_now o h) as [[c1 c2] c3]. auto.
  - rewrite (window_ext h); auto. cbn [clock_now]. destruct (clock_now o h) as [[c1 c2] c3]. auto.
  - cbn [given_up gives_up]. rewrite orb_false_r. auto.
  - cbn [clock_now]. destruct (clock_now o h) as [[c1 c2] c3]. auto.
Qed.

Lemma rel_begun : forall h s, pf_rel h s -> pmt_now o h <> None -> event_now o h <> None ->
  forall s', pf_set_pats s' [] = pf_set_streaming (pf_set_pats s []) -> pf_rel (Begun :: h) s'.
Proof.
  intros h s [H1 H2 H3 H4 H5 H6 H7 H8 H9 H10 H11 H12 H13] Np Ne s' E.
  unfold pf_set_pats, pf_set_streaming in E. cbn in E. injection E as E1 E2 E3 E4 E5 E6 E7 E8 E9 E10 E11.
  constructor; rewrite ?E1, ?E2, ?E3, ?E4, ?E5, ?E6, ?E7, ?E8, ?E9, ?E10, ?E11; auto; try discriminate.
  - cbn [clock_now]. destruct (clock_now o h) as [[c1 c2] c3]. auto.
  - rewrite (window_ext h); auto. cbn [clock_now]. destruct (clock_now o h) as [[c1 c2] c3]. auto.
  - cbn [given_up gives_up]. rewrite orb_false_r. auto.
  - cbn [clock_now]. destruct (clock_now o h) as [[c1 c2] c3]. auto.
Qed.

Lemma mod_next : forall c n, (1 <= n)%nat -> (if Nat.ltb (S (c mod n)) n then S (c mod n) else 0)%nat = (S c mod n)%nat.
Proof.
  intros c n Hn. pose proof (Nat.mod_upper_bound c n ltac:(lia)) as B.
  pose proof (Nat.div_mod c n ltac:(lia)) as D.
  destruct (Nat.ltb_spec (S (c mod n)) n).
  - apply (Nat.mod_unique (S c) n (c / n)); lia.
  - apply (Nat.mod_unique (S c) n (S (c / n))); [lia|]. assert (S (c mod n) = n) by lia. nia.
Qed.

Lemma rel_sent : forall h s z src m, pf_rel h s -> begun h = true -> pmt_now o h = Some (src, m) ->
  z = mkPacketizer src (Some (reduced o m)) (S (pmt_count o h) mod npackets (reduced o m)) ->
  pf_rel (PmtSent :: h) (pf_set_pz s z).
Proof.
  intros h s z src m [H1 H2 H3 H4 H5 H6 H7 H8 H9 H10 H11 H12 H13] B Em ->.
  constructor; cbn [pf_set_pz pf_demux pf_streaming pf_pats pf_black pf_pz pf_clk pf_pmt_pid pf_pcr_pid pf_pcr_pid_ready pf_win pf_stop pf_retry]; auto.
  - change (pmt_now o (PmtSent :: h)) with (pmt_now o h). rewrite Em in *. cbn [pmt_count]. tauto.
  - cbn [clock_now]. destruct (clock_now o h) as [[c1 c2] c3]. auto.
  - rewrite (window_ext h); auto. cbn [clock_now]. destruct (clock_now o h) as [[c1 c2] c3]. auto.
  - cbn [given_up gives_up]. rewrite orb_false_r. auto.
  - cbn. congruence.
  - cbn [clock_now]. destruct (clock_now o h) as [[c1 c2] c3]. auto.
Qed.

Section Sink.
Variable k : sink packet.

Lemma send_all_hand : forall qs d, pf_send_all k d qs = snd (hand k d qs).
Proof.
  induction qs as [|q qs IH]; intros d; cbn; auto.
  destruct (sk_handle k d q) as [[d1 [|]]|f]; cbn; auto. rewrite IH. destruct (hand k d1 qs); auto.
Qed.

Lemma set_pz_pz : forall s a b, pf_set_pz (pf_set_pz s a) b = pf_set_pz s b.
Proof. reflexivity. Qed.

(** One cycle of PMT packets. *)
Lemma send_pmt_hand : forall n s d i src t fuel, pf_pz s = mkPacketizer src (Some t) i -> src = pf_pmt_pid s ->
  (i + S n = npackets t)%nat -> (n < fuel)%nat ->
  match snd (hand k d (map (pmt_packet src t) (seq i (S n)))) with
  | Fail f => pf_send_pmt npackets k fuel s d = Some (Fail f)
  | Ok (d1, true) => pf_send_pmt npackets k fuel s d = Some (Ok ((pf_set_pz s (mkPacketizer src (Some t) 0), d1), true))
  | Ok (d1, false) => exists z, pf_send_pmt npackets k fuel s d = Some (Ok ((pf_set_pz s z, d1), false))
  end.
Proof.
  induction n as [|n IH]; intros s d i src t fuel Ez Ep Hn Hf; (destruct fuel as [|fuel]; [lia|]);
    cbn [seq map hand pf_send_pmt]; rewrite Ez; cbn [pz_next pz_table pz_index pz_pid p_pid pf_pmt_pid pf_set_pz];
    rewrite <- Ep, (Z.eqb_refl src); fold (pmt_packet src t i).
  - destruct (sk_handle k d (pmt_packet src t i)) as [[d1 [|]]|f]; cbn [snd]; [|eauto|auto].
    destruct (Nat.ltb_spec (S i) (npackets t)); [lia|]. reflexivity.
  - destruct (sk_handle k d (pmt_packet src t i)) as [[d1 [|]]|f]; cbn [snd]; [|eauto|auto].
    destruct (Nat.ltb_spec (S i) (npackets t)); [|lia].
    change (pz_at_boundary (mkPacketizer src (Some t) (S i))) with false. cbv iota.
    set (s1 := pf_set_pz s _).
    specialize (IH s1 d1 (S i) src t fuel eq_refl Ep ltac:(lia) ltac:(lia)).
    match goal with |- context [snd (let (_, _) := ?T in _)] => change T with (hand k d1 (map (pmt_packet src t) (seq (S i) (S n)))) end.
    destruct (hand k d1 (map (pmt_packet src t) (seq (S i) (S n)))) as [out [[d2 [|]]|f]]; cbn [snd] in *; auto.
Qed.

Definition pf_fin (h : past) (s : pf_state) : Prop := pf_retry s = given_up o h && negb (begun h).
Lemma rel_fin : forall h s, pf_rel h s -> given_up o h = false \/ begun h = true -> pf_fin h s.
Proof.
  intros h s R [G|G]; unfold pf_fin; rewrite (Q_retry _ _ R), G; auto. cbn. rewrite andb_false_r. auto.
Qed.

(** What [refines_step] asks, for a result of the specification and one of the model. *)
Definition agrees (d : sk_state k) (x : list packet * verdict * past) (r : res ((pf_state * sk_state k) * bool)) : Prop :=
  let '(qs, v, h') := x in
  match hand k d qs with
  | (_, Fail f) => r = Fail f
  | (_, Ok (d', false)) => exists s', r = Ok ((s', d'), false) /\ pf_fin h' s'
  | (_, Ok (d', true)) =>
      match v with
      | Go => exists s', r = Ok ((s', d'), true) /\ (pf_rel h' s' /\ (given_up o h' = true -> begun h' = true))
      | Halt => exists s', r = Ok ((s', d'), false) /\ pf_fin h' s'
      | Boom f => r = Fail f
      end
  end.

Definition pf_inv (h : past) (s : pf_state) : Prop := pf_rel h s /\ (given_up o h = true -> begun h = true).

Lemma inv_fin : forall h s, pf_inv h s -> pf_fin h s.
Proof.
  intros h s [R G]. apply rel_fin; auto. destruct (given_up o h) eqn:E; auto.
Qed.

Lemma agrees_send : forall h h' s d p q, pf_rel h' s -> given_up o h' = false -> q = p -> h = h' ->
  agrees d ([q], Go, h) (let* (d1, ok) := sk_handle k d p in Ok ((s, d1), ok)).
Proof.
  intros h h' s d p q R G -> ->. unfold agrees. cbn [hand]. destruct (sk_handle k d p) as [[d1 [|]]|f]; cbn; auto.
  - exists s. split; auto. split; auto. congruence.
  - exists s. split; auto. apply rel_fin; auto.
Qed.

Lemma wait_ok : forall h s d p, pf_rel h s -> begun h = false -> (forall v, p_pcr p = Some v -> 0 <= v < pcr_cycle) ->
  agrees d (waiting npackets o h p) (pf_WaitReady npackets o k s d p).
Proof.
  intros h s d p R B V. unfold waiting, pf_WaitReady. rewrite (Q_stop _ _ R).
  destruct (given_up o h) eqn:G.
  { cbn. exists (pf_set_retry s). split; auto. unfold pf_fin. cbn. rewrite G, B. auto. }
  change PID_PAT with 0.
  destruct ((p_pid p =? 0) && pfo_pre_streaming o) eqn:Pre.
  { apply agrees_send with h; auto. }
  set (h1 := if p_pid p =? 0 then PatPkt p :: h else h).
  set (s1 := if p_pid p =? 0 then pf_set_pats s ((if p_pusi p then [] else pf_pats s) ++ [p]) else s).
  assert (R1 : pf_rel h1 s1) by (subst h1 s1; destruct (p_pid p =? 0); auto; apply rel_saved; auto).
  assert (B1 : begun h1 = false) by (subst h1; destruct (p_pid p =? 0); auto).
  assert (G1 : given_up o h1 = false) by (subst h1; destruct (p_pid p =? 0); cbn; rewrite ?orb_false_r; auto).
  assert (E1 : event_now o h = event_now o h1) by (subst h1; destruct (p_pid p =? 0); auto).
  assert (M1 : service_pcr o h p = service_pcr o h1 p) by (subst h1; unfold service_pcr; destruct (p_pid p =? 0); auto).
  rewrite E1, M1. clear E1 M1. clearbody h1 s1.
  assert (Idle : agrees d ([], Go, h1) (Ok ((s1, d), true))).
  { cbn. exists s1. split; auto. split; auto. congruence. }
  pose proof R1 as [H1 H2 H3 H4 H5 H6 H7 H8 H9 H10 H11 H12 H13].
  unfold service_pcr. destruct (pmt_now o h1) as [[src m]|] eqn:Em.
  2:{ rewrite H4. cbn [negb orb]. destruct (event_now o h1); auto. }
  destruct H4 as [P1 [P2 [P3 P4]]]. rewrite P1. cbn [negb orb].
  destruct (event_now o h1) as [e|] eqn:Ee.
  2:{ destruct H7 as [W1 _]. rewrite W1. auto. }
  pose proof H7 as [[W1 _] _]. rewrite W1. cbn [negb]. rewrite P2.
  destruct (Z.eqb_spec (p_pid p) (pmt_pcr_pid m)) as [Ep|Ep]; cbn [negb]; [|auto].
  destruct (p_pcr p) as [v|] eqn:Epcr; [|auto].
  specialize (V _ eq_refl).
  destruct (clk_step h1 s1 v R1 V ltac:(congruence)) as [s2 [Ec [R2 N2]]]. rewrite Ec. cbn [bind]. rewrite N2.
  assert (G2 : given_up o (Clk v :: h1) = false) by (cbn; rewrite orb_false_r; auto).
  assert (Idle2 : agrees d ([], Go, Clk v :: h1) (Ok ((s2, d), true))).
  { cbn [agrees hand]. exists s2. split; auto. split; auto. congruence. }
  pose proof (Q_win _ _ R2) as W. destruct (window o (Clk v :: h1)) as [[ws we]|] eqn:Ew; [|exact Idle2].
  destruct W as [_ [Ws We]].
  assert (Vw : 0 <= ws < pcr_cycle /\ 0 <= we < pcr_cycle).
  { unfold window in Ew. destruct (clock_now o (Clk v :: h1)) as [[? [?|]] [?|]]; try discriminate.
    destruct (event_now o (Clk v :: h1)); inversion Ew; subst. split; apply to_pcr_valid. }
  destruct Vw as [Vs Ve]. rewrite We, Ws.
  destruct (compare_reached v we V Ve) as [c [Ecmp [K1 _]]]. rewrite Ecmp. cbn [bind]. rewrite K1.
  destruct (reached v we) eqn:Rr.
  { cbn [agrees hand]. exists s2. split; auto. apply rel_fin; auto. }
  destruct (compare_reached v ws V Vs) as [c' [Ecmp' [_ K2]]]. rewrite Ecmp'. cbn [bind]. rewrite K2.
  destruct (reached v ws) eqn:Rs; cbn [negb]; [|exact Idle2].
  (* beginning *)
  unfold begin. change (pmt_now o (Clk v :: h1)) with (pmt_now o h1). rewrite Em.
  change (pats (Clk v :: h1)) with (pats h1). change (pmt_pid o (Clk v :: h1)) with (pmt_pid o h1).
  pose proof R2 as [I1 I2 I3 I4 I5 I6 I7 I8 I9 I10 I11 I12 I13].
  change (pmt_now o (Clk v :: h1)) with (pmt_now o h1) in I4. rewrite Em in I4. destruct I4 as [J1 [J2 [J3 J4]]].
  change (begun (Clk v :: h1)) with (begun h1) in *. specialize (I3 B1). specialize (I11 B1).
  change (pats (Clk v :: h1)) with (pats h1) in I3.
  change (pmt_pid o (Clk v :: h1)) with (pmt_pid o h1) in I5.
  rewrite I11 in J4. rewrite Nat.mod_0_l in J4 by (specialize (np_pos (reduced o m)); lia).
  rewrite I3.
  (* the PMT cycle and the packet *)
  assert (Rest : forall s3 d3, (s3 = s2 \/ s3 = pf_set_pats s2 []) ->
     forall x, x = (if src =? pmt_pid o h1 then (pmt_cycle npackets src (reduced o m) ++ [p], Go, Begun :: Clk v :: h1) else ([], Boom AssertFail, Clk v :: h1)) ->
     agrees d3 x
       (match pf_send_pmt npackets k (pf_pmt_fuel npackets s3) s3 d3 with
        | None => Fail Undefined
        | Some r => let* (x4, ok) := r in
            if negb ok then Ok (x4, false)
            else let (s4, d4) := x4 in let* (d5, ok) := sk_handle k d4 p in Ok ((pf_set_streaming s4, d5), ok)
        end)).
  { intros s3 d3 Hs x ->.
    assert (Z3 : pf_pz s3 = mkPacketizer src (Some (reduced o m)) 0) by (destruct Hs as [->| ->]; auto).
    assert (P3' : pf_pmt_pid s3 = pmt_pid o h1) by (destruct Hs as [->| ->]; auto).
    assert (T3 : pf_retry s3 = false) by (destruct Hs as [->| ->]; auto).
    unfold pf_pmt_fuel. rewrite Z3. cbn [pz_table].
    destruct (Z.eqb_spec src (pmt_pid o h1)) as [Es|Es].
    - destruct (npackets (reduced o m)) as [|n] eqn:En; [specialize (np_pos (reduced o m)); lia|].
      pose proof (send_pmt_hand n s3 d3 0 src (reduced o m) (S (S n)) Z3 ltac:(congruence) ltac:(cbn; auto) ltac:(lia)) as Q.
      unfold agrees. rewrite hand_app. unfold pmt_cycle. rewrite En.
      destruct (hand k d3 (map (pmt_packet src (reduced o m)) (seq 0 (S n)))) as [out [[d1 [|]]|f]]; cbn [snd] in Q.
      + rewrite Q. cbn [bind negb hand]. destruct (sk_handle k d1 p) as [[d5 [|]]|f]; cbn [bind]; auto.
        * eexists. split; [reflexivity|]. split; [|auto]. apply rel_begun with s2; auto.
          -- change (pmt_now o (Clk v :: h1)) with (pmt_now o h1). congruence.
          -- change (event_now o (Clk v :: h1)) with (event_now o h1). congruence.
          -- destruct Hs as [->| ->]; unfold pf_set_pats, pf_set_streaming, pf_set_pz; cbn; rewrite J4; reflexivity.
        * eexists. split; [reflexivity|]. unfold pf_fin. cbn. rewrite T3, andb_false_r. auto.
      + destruct Q as [z ->]. cbn [bind negb]. eexists. split; [reflexivity|]. unfold pf_fin. cbn. rewrite T3, andb_false_r. auto.
      + rewrite Q. cbn. auto.
    - cbn [agrees hand]. cbn [pf_send_pmt]. rewrite Z3. cbn [pz_next pz_table pz_index pz_pid p_pid pf_pmt_pid pf_set_pz].
      rewrite P3'. destruct (Z.eqb_spec src (pmt_pid o h1)); [lia|]. reflexivity. }
  destruct (pfo_pre_streaming o) eqn:Ps.
  - cbn [negb bind andb app]. apply Rest; auto.
  - cbn [negb andb]. destruct (pats h1) as [|q0 ql] eqn:Epats.
    + cbn. reflexivity.
    + set (l := q0 :: ql) in *. cbn [negb assert]. rewrite send_all_hand.
      assert (F : forall A (x y : A), (match l with [] => x | _ :: _ => y end) = y) by reflexivity. rewrite ?F. cbn [negb assert].
      destruct (src =? pmt_pid o h1) eqn:Es.
      * unfold agrees. rewrite hand_app. destruct (hand k d l) as [out [[d1 [|]]|f]]; cbn [snd bind negb]; auto.
        -- specialize (Rest (pf_set_pats s2 []) d1 ltac:(auto) _ eq_refl). unfold agrees in Rest.
           destruct (hand k d1 (pmt_cycle npackets src (reduced o m) ++ [p])) as [out2 r2] eqn:Eh. exact Rest.
        -- eexists. split; [reflexivity|]. unfold pf_fin. rewrite I9. cbn. rewrite andb_false_r. auto.
      * unfold agrees. destruct (hand k d l) as [out [[d1 [|]]|f]]; cbn [snd bind negb]; auto.
        -- apply (Rest (pf_set_pats s2 []) d1 ltac:(auto) _ eq_refl).
        -- eexists. split; [reflexivity|]. unfold pf_fin. rewrite I9. rewrite G2. auto.
Qed.

Lemma pass_ok : forall h s d p, pf_rel h s -> begun h = true -> given_up o h = false ->
  agrees d (pass npackets o h p) (pf_forward npackets k s d p).
Proof.
  intros h s d p R B G. pose proof R as [H1 H2 H3 H4 H5 H6 H7 H8 H9 H10 H11 H12 H13].
  unfold pass, pf_forward. rewrite H5. destruct (pmt_now o h) as [[src m]|] eqn:Em; [|destruct (H10 B); congruence].
  destruct H4 as [P1 [P2 [P3 P4]]].
  destruct (Z.eqb_spec (p_pid p) (pmt_pid o h)) as [Ep|Ep].
  - rewrite P4. cbn [pz_next pz_table pz_index pz_pid p_pid]. fold (pmt_packet src (reduced o m) (pmt_count o h mod npackets (reduced o m))).
    rewrite Ep. destruct (Z.eqb_spec src (pmt_pid o h)) as [Es|Es]; cbn [assert].
    + unfold agrees. cbn [hand]. rewrite mod_next by apply np_pos.
      destruct (sk_handle k d _) as [[d1 [|]]|f]; cbn [bind]; auto; eexists; (split; [reflexivity|]).
      * split; [|cbn; auto]. eapply rel_sent; eauto.
      * unfold pf_fin. cbn. rewrite H9, B. cbn. rewrite andb_false_r. auto.
    + cbn. auto.
  - rewrite P3. destruct (removed o m (p_pid p)).
    + cbn. exists s. split; auto.
    + apply agrees_send with h; auto.
Qed.

Lemma stream_ok : forall h s d p, pf_rel h s -> begun h = true -> (forall v, p_pcr p = Some v -> 0 <= v < pcr_cycle) ->
  agrees d (streaming npackets o h p) (pf_DoStreaming npackets k s d p).
Proof.
  intros h s d p R B V. pose proof R as [H1 H2 H3 H4 H5 H6 H7 H8 H9 H10 H11 H12 H13].
  unfold streaming, pf_DoStreaming. rewrite H8. destruct (given_up o h) eqn:G.
  { cbn. exists s. split; auto. apply rel_fin; auto. }
  destruct (pmt_now o h) as [[src m]|] eqn:Em; [|destruct (H10 B); congruence].
  destruct H4 as [P1 [P2 [P3 P4]]]. rewrite P2.
  destruct (p_pid p =? pmt_pcr_pid m); [|apply pass_ok; auto].
  destruct (p_pcr p) as [v|]; [|apply agrees_send with h; auto].
  specialize (V _ eq_refl).
  destruct (clk_step h s v R V ltac:(apply (H10 B))) as [s2 [Ec [R2 N2]]]. rewrite Ec. cbn [bind]. rewrite N2.
  assert (G2 : given_up o (Clk v :: h) = false) by (cbn; rewrite orb_false_r; auto).
  pose proof (Q_win _ _ R2) as W. destruct (window o (Clk v :: h)) as [[ws we]|] eqn:Ew.
  2:{ apply agrees_send with (Clk v :: h); auto. }
  destruct W as [_ [Ws We]].
  assert (Ve : 0 <= we < pcr_cycle).
  { unfold window in Ew. destruct (clock_now o (Clk v :: h)) as [[? [?|]] [?|]]; try discriminate.
    destruct (event_now o (Clk v :: h)); inversion Ew; subst. apply to_pcr_valid. }
  rewrite We. destruct (compare_reached v we V Ve) as [c [Ecmp [K1 _]]]. rewrite Ecmp. cbn [bind]. rewrite K1.
  destruct (reached v we).
  - cbn [agrees hand]. exists s2. split; auto. apply rel_fin; auto.
  - apply pass_ok; auto.
Qed.

Lemma program_refines_step : forall stage,
  refines_step (program_step npackets o stage) pf_state k (pf_HandlePacket npackets o k stage) pf_inv pf_fin (sane_packet stage).
Proof.
  intros stage h s d p [V St] [R G].
  pose proof (delivered_feed base_pids sid stage (tabs h) (pf_demux s) p (Q_demux _ _ R)) as D.
  set (ts := demux_feed (pf_demux s) stage p) in *.
  assert (Sn : forall t, In t ts -> sane_table (tb_body t)).
  { intros t Ht. apply St. destruct D as [[_ E]|[_ E]]; rewrite E in Ht; [auto|destruct Ht]. }
  unfold pf_HandlePacket. fold ts. destruct (rel_tables ts h s p R Sn) as [[Bp E]|[Bp [s1 [E R1]]]]; rewrite E; cbn [bind].
  - exists [], (Boom AssertFail), h. split; [exists ts; split; auto|]. cbn. auto.
  - assert (A : agrees d (react npackets o (hear h p ts) p)
       (if pf_streaming s1 then pf_DoStreaming npackets k s1 d p else pf_WaitReady npackets o k s1 d p)).
    { rewrite (Q_stream _ _ R1). unfold react. destruct (begun (hear h p ts)) eqn:B.
      - apply stream_ok; auto.
      - apply wait_ok; auto. }
    destruct (react npackets o (hear h p ts) p) as [[qs v] h'] eqn:Er.
    exists qs, v, h'. split; [exists ts; split; auto|]. exact A.
Qed.

End Sink.

Lemma program_step_det : forall stage h p q1 v1 h1 q2 v2 h2,
  program_step npackets o stage h p q1 v1 h1 -> program_step npackets o stage h p q2 v2 h2 -> q1 = q2 /\ v1 = v2 /\ h1 = h2.
Proof.
  intros stage h p q1 v1 h1 q2 v2 h2 [t1 [D1 X1]] [t2 [D2 X2]].
  rewrite (delivered_det _ _ _ _ _ _ _ D1 D2) in X1.
  destruct X1 as [[B1 E1]|[B1 E1]], X2 as [[B2 E2]|[B2 E2]]; try tauto; rewrite <- E2 in E1; inversion E1; auto.
Qed.

End Pf.
