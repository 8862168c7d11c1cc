(** When filter-program fails, exactly. *)
From Coq Require Import ZArith List Bool Lia.
From Verif Require Import Base.Outcome Base.Util Model.Sink Model.Ts Model.ProgramFilter Spec.FeedSpec Spec.FilterSpec Spec.TuneSpec Spec.TransSpec
  Spec.ProgramSpec Proofs.TransProofs Proofs.TuneProofs Proofs.ProgramProofs Proofs.ProgramMain.
Import ListNotations.
Open Scope Z_scope.

(** For any program in front of a sink that takes everything. *)
Section Trans.
Context {P H : Type}.
Variable step : H -> P -> list P -> verdict -> H -> Prop.
Hypothesis det : forall h p q1 v1 h1 q2 v2 h2, step h p q1 v1 h1 -> step h p q2 v2 h2 -> q1 = q2 /\ v1 = v2 /\ h1 = h2.
Variable k : sink P.
Hypothesis fine : never_fails k.
Hypothesis open : never_refuses k.

Lemma hand_open : forall qs d, exists d', hand k d qs = (qs, Ok (d', true)).
Proof.
  induction qs as [|q qs IH]; intros d; cbn [hand]; [eauto|]. destruct fine as [_ [K _]]. destruct (K d q) as [[d1 b] E].
  rewrite E. destruct open as [_ R]. rewrite (R _ _ _ _ E). destruct (IH d1) as [d2 ->]. eauto.
Qed.

Lemma trans_boom_iff : forall h d ps out e h' d', trans step k h d ps out e h' d' ->
  (exists f, e = TransSpec.Crashed f) <->
  exists pre p post o1 h1 d1 qs f h2, ps = pre ++ p :: post /\ trans step k h d pre o1 TransSpec.AtEnd h1 d1 /\ step h1 p qs (Boom f) h2.
Proof.
  intros h d ps out e h' d' T. split.
  - intros [f E]. induction T as [h d|h d p ps qs h' out d' out' e he de S Ed F IH|h d p ps qs h' out d' S Ed|h d p ps qs f0 h' out d' S Ed|h d p ps qs v h' out d' S Ed|h d p ps qs v h' out f0 S Ed];
      try discriminate.
    + destruct (IH E) as (pre & p0 & post & o1 & h1 & d1 & qs0 & f0 & h2 & -> & T1 & S1).
      exists (p :: pre), p0, post, (out ++ o1), h1, d1, qs0, f0, h2. split; [reflexivity|]. split; [|exact S1].
      eapply X_go; eauto.
    + exists [], p, ps, [], h, d, qs, f0, h'. split; [reflexivity|]. split; [constructor|exact S].
    + destruct (hand_open qs d) as [d' E']. congruence.
  - intros (pre & p & post & o1 & h1 & d1 & qs & f & h2 & -> & T1 & S1).
    destruct (hand_open qs d1) as [d2 Eh].
    pose proof (X_boom step k h1 d1 p post qs f h2 qs d2 S1 Eh) as T2.
    destruct (trans_det step det _ _ _ _ _ _ _ _ _ _ _ _ T (trans_app step k _ _ _ _ _ _ _ _ _ _ _ T1 T2)) as [_ [-> _]]. eauto.
Qed.
End Trans.

Section Program.
Variable npackets : pmt -> nat.
Variable o : program_filter_option.
Variable stage : nat.

Lemma window_pat : forall v p h, window o (Clk v :: PatPkt p :: h) = window o (Clk v :: h).
Proof.
  intros v p h. apply window_ext; [|reflexivity]. cbn [clock_now]. destruct (clock_now o h) as [[? ?] ?]. reflexivity.
Qed.

Lemma window_event : forall v h x, window o (Clk v :: h) = Some x -> exists e, event_now o h = Some e.
Proof.
  intros v h x H. unfold window in H. destruct (clock_now o (Clk v :: h)) as [[? [?|]] [?|]]; try discriminate.
  change (event_now o (Clk v :: h)) with (event_now o h) in H. destruct (event_now o h); [eauto|discriminate].
Qed.

Definition boom (r : list packet * verdict * past) : Prop := exists f, snd (fst r) = Boom f.

Lemma begin_boom : forall h p, boom (begin npackets o h p) <->
  exists src m, pmt_now o h = Some (src, m) /\ (src <> pmt_pid o h \/ (pfo_pre_streaming o = false /\ pats h = [])).
Proof.
  intros h p. unfold begin, boom. destruct (pmt_now o h) as [[src m]|].
  2:{ split; [intros [f E]; discriminate E|intros (src & m & E & _); discriminate E]. }
  destruct (negb (pfo_pre_streaming o) && match pats h with [] => true | _ => false end) eqn:B.
  - apply andb_prop in B as [B1 B2]. split; [intros _|cbn [fst snd]; eauto]. exists src, m. split; [reflexivity|]. right.
    destruct (pfo_pre_streaming o); [discriminate|]. destruct (pats h); [auto|discriminate].
  - destruct (Z.eqb_spec src (pmt_pid o h)) as [E|E].
    + split; [intros [f X]; discriminate X|]. intros (src' & m' & X & [N|[N1 N2]]); [congruence|].
      rewrite N1, N2 in B. discriminate B.
    + split; [intros _; exists src, m; auto|cbn [fst snd]; eauto].
Qed.

Lemma pass_boom : forall h p, boom (pass npackets o h p) <->
  exists src m, pmt_now o h = Some (src, m) /\ p_pid p = pmt_pid o h /\ src <> pmt_pid o h.
Proof.
  intros h p. unfold pass, boom. destruct (pmt_now o h) as [[src m]|].
  2:{ split; [intros [f E]; discriminate E|intros (src & m & E & _); discriminate E]. }
  destruct (Z.eqb_spec (p_pid p) (pmt_pid o h)) as [E|E].
  - destruct (Z.eqb_spec src (p_pid p)) as [E2|E2].
    + split; [intros [f X]; discriminate X|]. intros (src' & m' & X & _ & N). congruence.
    + split; [intros _; exists src, m; split; [auto|split; congruence]|cbn [fst snd]; eauto].
  - split; [destruct (removed o m (p_pid p)); intros [f X]; discriminate X|]. intros (src' & m' & _ & N & _). congruence.
Qed.

Lemma react_boom : forall h p, boom (react npackets o h p) <-> troubled o h p.
Proof.
  intros h p. unfold react, troubled. destruct (begun h) eqn:Bg.
  - unfold streaming. destruct (given_up o h).
    { split; [intros [f E]; discriminate E|intros [E _]; discriminate E]. }
    destruct (pmt_now o h) as [[src m]|] eqn:Em.
    2:{ split; [intros [f E]; discriminate E|intros (_ & src & m & E & _); discriminate E]. }
    destruct (Z.eqb_spec (p_pid p) (pmt_pcr_pid m)) as [Ep|Ep].
    + destruct (p_pcr p) as [v|].
      2:{ split; [intros [f E]; discriminate E|]. intros (_ & src' & m' & E & [(_ & _ & _ & X)|(X & _)]); [|discriminate X].
          injection E as <- <-. destruct (X Ep) as (v & s & e & Y & _). discriminate Y. }
      destruct (window o (Clk v :: h)) as [[s e]|] eqn:Ew.
      2:{ split; [intros [f E]; discriminate E|]. intros (_ & src' & m' & E & [(_ & _ & _ & X)|(X & _)]); [|discriminate X].
          injection E as <- <-. destruct (X Ep) as (v' & s & e & Y & Z0 & _). injection Y as <-. congruence. }
      destruct (reached v e) eqn:Re.
      * split; [intros [f E]; discriminate E|]. intros (_ & src' & m' & E & [(_ & _ & _ & X)|(X & _)]); [|discriminate X].
        injection E as <- <-. destruct (X Ep) as (v' & s' & e' & Y & Z0 & R). injection Y as <-. rewrite Ew in Z0. injection Z0 as <- <-. congruence.
      * rewrite pass_boom. change (pmt_now o (Clk v :: h)) with (pmt_now o h). change (pmt_pid o (Clk v :: h)) with (pmt_pid o h). rewrite Em. split.
        -- intros (src' & m' & E & A & B). injection E as <- <-. split; [reflexivity|]. exists src, m. split; [reflexivity|]. left.
           split; [reflexivity|]. split; [exact A|]. split; [exact B|]. intros _. exists v, s, e. auto.
        -- intros (_ & src' & m' & E & [(_ & A & B & X)|(X & _)]); [|discriminate X]. exists src', m'. auto.
    + rewrite pass_boom, Em. split.
      * intros (src' & m' & E & A & B). injection E as <- <-. split; [reflexivity|]. exists src, m. split; [reflexivity|]. left.
        split; [reflexivity|]. split; [exact A|]. split; [exact B|]. intros; contradiction.
      * intros (_ & src' & m' & E & [(_ & A & B & X)|(X & _)]); [|discriminate X]. exists src', m'. auto.
  - unfold waiting. destruct (given_up o h).
    { split; [intros [f E]; discriminate E|intros [E _]; discriminate E]. }
    destruct ((p_pid p =? 0) && pfo_pre_streaming o) eqn:Pz.
    { split; [intros [f E]; discriminate E|]. intros (_ & src & m & _ & [(X & _)|(_ & X & _)]); [discriminate X|].
      apply andb_prop in Pz as [P1 P2]. apply Z.eqb_eq in P1. rewrite (X P1) in P2. discriminate. }
    set (h1 := if p_pid p =? 0 then PatPkt p :: h else h).
    assert (Wn : forall v, window o (Clk v :: h1) = window o (Clk v :: h)).
    { intros v. subst h1. destruct (p_pid p =? 0); [apply window_pat|reflexivity]. }
    assert (Pm : forall v, pmt_now o (Clk v :: h1) = pmt_now o h /\ pmt_pid o (Clk v :: h1) = pmt_pid o h).
    { intros v. subst h1. destruct (p_pid p =? 0); split; reflexivity. }
    assert (Pt : forall v, pats (Clk v :: h1) = [] <-> p_pid p <> 0 /\ pats h = []).
    { intros v. subst h1. cbn [pats]. destruct (Z.eqb_spec (p_pid p) 0) as [Q|Q]; cbn [pats]; [|tauto].
      split; [intros X; destruct (if p_pusi p then [] else pats h); discriminate X|tauto]. }
    assert (Pp : p_pid p = 0 -> pfo_pre_streaming o = false).
    { intros Q. rewrite Q in Pz. destruct (pfo_pre_streaming o); [discriminate Pz|reflexivity]. }
    clearbody h1. clear Pz.
    destruct (event_now o h) as [ev|] eqn:Ee.
    2:{ split; [intros [f E]; discriminate E|]. intros (_ & src & m & _ & [(X & _)|(_ & _ & v & s & e & _ & _ & W & _)]); [discriminate X|].
        destruct (window_event _ _ _ W) as [e0 X]. congruence. }
    unfold service_pcr. destruct (pmt_now o h) as [[src m]|] eqn:Em.
    2:{ split; [intros [f E]; discriminate E|intros (_ & src & m & E & _); discriminate E]. }
    destruct (Z.eqb_spec (p_pid p) (pmt_pcr_pid m)) as [Ep|Ep].
    2:{ split; [intros [f E]; discriminate E|]. intros (_ & src' & m' & E & [(X & _)|(_ & _ & v & s & e & X & _)]); [discriminate X|]. congruence. }
    destruct (p_pcr p) as [v|].
    2:{ split; [intros [f E]; discriminate E|]. intros (_ & src' & m' & E & [(X & _)|(_ & _ & v & s & e & _ & X & _)]); discriminate X. }
    rewrite Wn. destruct (window o (Clk v :: h)) as [[s e]|] eqn:Ew.
    2:{ split; [intros [f E]; discriminate E|]. intros (_ & src' & m' & E & [(X & _)|(_ & _ & v' & s & e & _ & X & Y & _)]); [discriminate X|].
        injection X as <-. congruence. }
    destruct (reached v e) eqn:Re.
    { split; [intros [f E]; discriminate E|]. intros (_ & src' & m' & E & [(X & _)|(_ & _ & v' & s' & e' & _ & X & Y & Z0 & _)]); [discriminate X|].
      injection X as <-. rewrite Ew in Y. injection Y as <- <-. congruence. }
    destruct (reached v s) eqn:Rs.
    2:{ split; [intros [f E]; discriminate E|]. intros (_ & src' & m' & E & [(X & _)|(_ & _ & v' & s' & e' & _ & X & Y & _ & Z0 & _)]); [discriminate X|].
      injection X as <-. rewrite Ew in Y. injection Y as <- <-. congruence. }
    rewrite begin_boom. pose proof (Pm v) as [P1 P2]. rewrite P1, P2. setoid_rewrite Pt. split.
    + intros (src' & m' & E & X). injection E as <- <-. split; [reflexivity|]. exists src, m. split; [reflexivity|]. right.
      split; [reflexivity|]. split; [exact Pp|]. exists v, s, e. repeat (split; [assumption || reflexivity|]). tauto.
    + intros (_ & src' & m' & E & [(X & _)|(_ & _ & v' & s' & e' & _ & _ & _ & _ & _ & X)]); [discriminate X|]. exists src', m'. split; [exact E|]. tauto.
Qed.

Lemma step_boom_iff : forall h p, (exists qs f h', program_step npackets o stage h p qs (Boom f) h') <->
  exists ts, delivered base_pids (pfo_sid o) stage (tabs h) p ts /\ (bad_pat o p ts \/ troubled o (hear h p ts) p).
Proof.
  intros h p. split.
  - intros (qs & f & h' & ts & D & [[B _]|[B E]]); exists ts; split; auto. right. apply react_boom. exists f. rewrite <- E. reflexivity.
  - intros (ts & D & X).
    assert (Dec : bad_pat o p ts \/ ~ bad_pat o p ts).
    { unfold bad_pat. destruct (existsb (fun t => missing (pfo_sid o) (p_pid p, tb_body t)) ts) eqn:E.
      - left. apply existsb_exists in E. exact E.
      - right. intros Q. apply existsb_exists in Q. congruence. }
    destruct Dec as [B|B]; [exists [], AssertFail, h, ts; split; auto|].
    destruct X as [X|X]; [contradiction|]. apply react_boom in X as [f X].
    destruct (react npackets o (hear h p ts) p) as [[qs v] h'] eqn:E. cbn [fst snd] in X. subst v.
    exists qs, f, h', ts. split; [exact D|]. right. auto.
Qed.

Lemma program_fails_iff : (forall m, (1 <= npackets m)%nat) -> sane_option o ->
  forall k ps n d d1, never_fails k -> never_refuses k -> Forall (sane_packet stage) ps -> (List.length ps < n)%nat -> sk_start k d = Ok (d1, true) ->
  (exists f, FeedPackets (list_source packet) (program_filter npackets o k stage) n ps (pf_init o, d) = Some (Fail f)) <->
  exists pre p post out h d2 ts, ps = pre ++ p :: post /\ trans (program_step npackets o stage) k [] d1 pre out TransSpec.AtEnd h d2 /\
    delivered base_pids (pfo_sid o) stage (tabs h) p ts /\ (bad_pat o p ts \/ troubled o (hear h p ts) p).
Proof.
  intros Np So k ps n d d1 K R Sp Hn Es. pose proof K as [_ [_ [K3 K4]]].
  destruct (program_refines npackets o stage Np So k ps n d d1 Sp Hn Es) as [out [e [h [d2 [T E]]]]]. cbv zeta in E.
  assert (Q : (exists f, FeedPackets (list_source packet) (program_filter npackets o k stage) n ps (pf_init o, d) = Some (Fail f)) <->
              exists f, e = TransSpec.Crashed f).
  { destruct (K3 d2) as [d3 E3]. rewrite E3 in E. destruct (K4 d3) as [c E4]. rewrite E4 in E.
    destruct e; [| | |rewrite E; split; intros [f0 X]; eauto];
      (destruct (given_up o h && negb (begun h)); destruct E as [s E]; rewrite E; split; intros [f0 X]; discriminate X). }
  rewrite Q, (trans_boom_iff _ (program_step_det npackets o stage) k K R _ _ _ _ _ _ _ T). split.
  - intros (pre & p & post & o1 & h1 & d3 & qs & f & h2 & -> & T1 & S1).
    destruct (proj1 (step_boom_iff h1 p)) as (ts & D & X); [eauto|].
    exists pre, p, post, o1, h1, d3, ts. auto.
  - intros (pre & p & post & o1 & h1 & d3 & ts & -> & T1 & D & X).
    destruct (proj2 (step_boom_iff h1 p)) as (qs & f & h2 & S1); [eauto|].
    exists pre, p, post, o1, h1, d3, qs, f, h2. auto.
Qed.
End Program.
