(** filter-program in real time. *)
From Coq Require Import ZArith Lia List Bool.
From Verif Require Import Base.Outcome Base.Util Model.Sink Model.Ts Model.ProgramFilter
  Spec.PcrSpec Spec.FilterSpec Spec.TuneSpec Spec.TransSpec Spec.ProgramSpec Spec.SeekSpec Spec.OnAirSpec
  Proofs.PcrProofs Proofs.FilterProofs Proofs.TuneProofs Proofs.TransProofs Proofs.ProgramProofs Proofs.ProgramMain.
Import ListNotations.
Open Scope Z_scope.

(** ** PCRs and time *)
Lemma reached_time : forall K t u, near t u ->
  (reached ((K + t) mod pcr_cycle) ((K + u) mod pcr_cycle) = true <-> u <= t /\ same_turn K u t).
Proof.
  intros K t u N. unfold near, same_turn, reached in *. rewrite cycle_val in *.
  pose proof (Z.div_mod (K + t) 2576980377600 ltac:(lia)) as D1. pose proof (Z.mod_pos_bound (K + t) 2576980377600 ltac:(lia)) as B1.
  pose proof (Z.div_mod (K + u) 2576980377600 ltac:(lia)) as D2. pose proof (Z.mod_pos_bound (K + u) 2576980377600 ltac:(lia)) as B2.
  generalize dependent ((K + t) mod 2576980377600). generalize dependent ((K + u) mod 2576980377600).
  generalize ((K + t) / 2576980377600) ((K + u) / 2576980377600). intros q r a Ea Ba b Eb Bb.
  rewrite andb_true_iff, Z.leb_le, Z.ltb_lt. split.
  - intros (L1 & L2). assert (q = r) by lia. subst. lia.
  - intros (L & E). subst. lia.
Qed.

Lemma to_pcr_time : forall K c t0 t, c = (K + 27000 * t0) mod pcr_cycle -> to_pcr c t0 t = (K + 27000 * t) mod pcr_cycle.
Proof. intros K c t0 t ->. unfold to_pcr. rewrite Zplus_mod_idemp_l. f_equal. ring. Qed.

(** ** Sinks that take everything *)
Lemma willing_hand : forall P (k : sink P) d qs, willing k d -> exists d', hand k d qs = (qs, Ok (d', true)) /\ willing k d'.
Proof.
  intros P k d qs W. destruct (W qs) as (d1 & d2 & c & E & _). exists d1. split; [exact E|].
  intros rs. destruct (W (qs ++ rs)) as (x & y & c' & E2 & X). exists x, y, c'. split; [|exact X].
  rewrite hand_app, E in E2. destruct (hand k d1 rs) as [out r]. inversion E2 as [[H1 H2]].
  apply app_inv_head in H1. congruence.
Qed.

Section OnAir.
Variable npackets : pmt -> nat.
Variable o : program_filter_option.
Variable stage : nat.
Variable mpid : Z.
Variable m : pmt.
Variable e : event.
Notation step := (program_step npackets o stage).
Notation sid := (pfo_sid o).
Hypothesis not_base : ~ In mpid base_pids.
Hypothesis pcr_pid : pmt_pcr_pid m = pfo_clock_pid o.

Record air (started : bool) (h : past) : Prop := {
  a_begun : begun h = started;
  a_clock : clock_now o h = (pfo_clock_pid o, Some (pfo_clock_pcr o), Some (pfo_clock_time o));
  a_up : given_up o h = false;
  a_event : forall e', event_now o h = Some e' -> e' = e;
  a_pmt : forall x, pmt_now o h = Some x -> x = (mpid, m);
  a_list : forall x t q, In x (tabs h) -> listing sid x = Some (t, q) -> q = mpid }.

Lemma gives_up_begun : forall pid b h h', begun h = begun h' -> gives_up o (Tab pid b) h = gives_up o (Tab pid b) h'.
Proof. intros pid b h h' E. unfold gives_up. rewrite E. reflexivity. Qed.

Lemma from_pid : forall pid b src m', service_pmt_from o (pid, b) = Some (src, m') -> src = pid /\ b = TPmt (Some m') /\ pmt_sid m' = sid.
Proof.
  intros pid b src m' E. unfold service_pmt_from in E. destruct b as [| |[t|]| | | | |]; try discriminate.
  destruct (Z.eqb_spec (pmt_sid t) sid); [|discriminate]. injection E as <- <-. auto.
Qed.

Lemma air_tab : forall st h pid b, air st h ->
  steady o mpid pid b -> (forall src m', service_pmt_from o (pid, b) = Some (src, m') -> m' = m) ->
  (forall e', event_in o (pid, b) = Some e' -> e' = e) ->
  gives_up o (Tab pid b) (if st then [Begun] else []) = false -> air st (Tab pid b :: h).
Proof.
  intros st h pid b [A1 A2 A3 A4 A5 A6] (S1 & S2 & S3) M E G. constructor.
  - exact A1.
  - cbn [clock_now]. rewrite A2. destruct b as [y|y|y|y|y|y|y|]; try reflexivity; destruct y as [t|]; try reflexivity.
    destruct (Z.eqb_spec (pmt_sid t) sid) as [Q|Q]; [|reflexivity].
    assert (t = m) as ->.
    { apply (M pid t). unfold service_pmt_from. rewrite Q, Z.eqb_refl. reflexivity. }
    rewrite pcr_pid, Z.eqb_refl. reflexivity.
  - cbn [given_up]. rewrite A3. cbn [orb]. rewrite <- G. apply gives_up_begun. rewrite A1. destruct st; reflexivity.
  - intros e'. unfold event_now. cbn [tabs latest]. destruct (event_in o (pid, b)) as [e1|] eqn:F; [intros [= <-]; auto|apply A4].
  - intros x. unfold pmt_now. cbn [tabs latest]. destruct (service_pmt_from o (pid, b)) as [[src m']|] eqn:F; [|apply A5].
    intros [= <-]. pose proof (M _ _ eq_refl). pose proof (S3 _ _ eq_refl). destruct (from_pid _ _ _ _ F) as (-> & _). congruence.
  - intros x t q. cbn [tabs In]. intros [<-|I] L; [exact (S2 _ _ L)|exact (A6 _ _ _ I L)].
Qed.

Lemma air_hear : forall st p ts h, air st h -> normal o stage mpid m e st p -> incl ts (p_tabs p stage) -> air st (hear h p ts).
Proof.
  intros st p ts. induction ts as [|t ts IH]; intros h A N I; [exact A|].
  unfold hear. cbn [map rev]. rewrite <- app_assoc. cbn [app].
  apply (IH (Tab (p_pid p) (tb_body t) :: h)); [|exact N|intros u Hu; apply I; right; exact Hu].
  destruct (N t (I t (or_introl eq_refl))) as (N1 & N2 & N3 & N4). apply air_tab; auto.
Qed.

Lemma air_same : forall st h h', air st h -> begun h' = st -> tabs h' = tabs h -> clock_now o h' = clock_now o h ->
  given_up o h' = given_up o h -> air st h'.
Proof.
  intros st h h' [A1 A2 A3 A4 A5 A6] B T C G. constructor; auto; try congruence.
  - unfold event_now. rewrite T. exact A4.
  - unfold pmt_now. rewrite T. exact A5.
  - rewrite T. exact A6.
Qed.

Lemma air_clk : forall st h v, air st h -> air st (Clk v :: h).
Proof.
  intros st h v A. apply (air_same st h); auto.
  - exact (a_begun st h A).
  - cbn [clock_now]. rewrite (a_clock st h A). reflexivity.
  - cbn [given_up gives_up]. apply orb_false_r.
Qed.

Lemma air_mark : forall st h x, air st h -> (exists p, x = PatPkt p) \/ x = PmtSent -> air st (x :: h).
Proof.
  intros st h x A X. apply (air_same st h); auto; destruct X as [(p & ->)| ->]; cbn; auto using (a_begun st h A), orb_false_r.
  all: try exact (a_begun st h A).
  all: destruct (clock_now o h) as [[? ?] ?]; reflexivity.
Qed.

Lemma delivered_incl : forall h p ts, delivered base_pids sid stage h p ts -> incl ts (p_tabs p stage).
Proof. intros h p ts [[_ ->]|[_ ->]]; [apply incl_refl|intros x []]. Qed.

Lemma no_bad_pat : forall st p ts, normal o stage mpid m e st p -> incl ts (p_tabs p stage) -> ~ bad_pat o p ts.
Proof. intros st p ts N I (t & Ht & M). destruct (N t (I t Ht)) as ((S1 & _) & _). congruence. Qed.

Lemma window_air : forall st h v, air st h -> event_now o h <> None ->
  window o (Clk v :: h) = Some (to_pcr (pfo_clock_pcr o) (pfo_clock_time o) (ev_start e - pfo_start_margin o),
                                to_pcr (pfo_clock_pcr o) (pfo_clock_time o) (ev_start e + (ev_duration e * 1000 + pfo_end_margin o))).
Proof.
  intros st h v A E. unfold window. rewrite (a_clock _ _ (air_clk st h v A)).
  change (event_now o (Clk v :: h)) with (event_now o h).
  destruct (event_now o h) as [e'|] eqn:F; [|congruence]. rewrite (a_event st h A e' F). reflexivity.
Qed.

(** Tables that were heard. *)
Definition listed (h : past) : Prop := exists x y, In x (tabs h) /\ listing sid x = Some y.

Lemma tuned_base : forall st h pid, air st h -> In pid base_pids -> tuned base_pids sid (tabs h) pid.
Proof.
  intros st h pid A I. right. left. split; [exact I|]. intros (x & t & Hx & L).
  apply not_base. rewrite <- (a_list st h A _ _ _ Hx L). exact I.
Qed.

Lemma latest_listed : forall st h, air st h -> listed h -> exists t, latest (listing sid) (tabs h) = Some (t, mpid).
Proof.
  intros st h A (x & y & I & L). destruct (latest (listing sid) (tabs h)) as [[t q]|] eqn:E.
  - destruct (latest_some _ _ _ _ _ E) as (z & Iz & Lz). rewrite (a_list st h A _ _ _ Iz Lz). eauto.
  - exfalso. exact (latest_none _ _ _ _ _ _ I L E).
Qed.

Lemma tuned_mpid : forall st h, air st h -> listed h -> tuned base_pids sid (tabs h) mpid.
Proof. intros st h A L. left. apply (latest_listed st h A L). Qed.

Lemma pmt_pid_air : forall st h, air st h -> listed h -> pmt_pid o h = mpid.
Proof. intros st h A L. unfold pmt_pid. destruct (latest_listed st h A L) as (t & ->). reflexivity. Qed.

Lemma in_hear : forall h p ts x, In x (tabs (hear h p ts)) <-> (exists t, In t ts /\ x = (p_pid p, tb_body t)) \/ In x (tabs h).
Proof. intros h p ts x. rewrite tabs_hear, in_app_iff, <- in_rev, in_map_iff. split; intros [[t [A B]]|A]; eauto. Qed.

Lemma pmt_count_hear : forall p ts h, pmt_count o (hear h p ts) =
  if existsb (fun t => match service_pmt_from o (p_pid p, tb_body t) with Some _ => true | None => false end) ts then O else pmt_count o h.
Proof.
  intros p ts. induction ts as [|t ts IH]; intros h; [reflexivity|].
  unfold hear. cbn [map rev existsb]. rewrite <- app_assoc. cbn [app]. fold (hear (Tab (p_pid p) (tb_body t) :: h) p ts).
  rewrite IH. cbn [pmt_count].
  destruct (service_pmt_from o (p_pid p, tb_body t)); cbn [orb]; [|reflexivity]. destruct (existsb _ ts); reflexivity.
Qed.

(** ** Before the program *)
Notation S_pcr := (to_pcr (pfo_clock_pcr o) (pfo_clock_time o) (ev_start e - pfo_start_margin o)).
Notation E_pcr := (to_pcr (pfo_clock_pcr o) (pfo_clock_time o) (ev_start e + (ev_duration e * 1000 + pfo_end_margin o))).

Definition early (p : packet) : Prop :=
  p_pid p = pfo_clock_pid o -> forall v, p_pcr p = Some v -> reached v S_pcr = false /\ reached v E_pcr = false.

Definition kept (p : packet) : list packet := if pfo_pre_streaming o && (p_pid p =? 0) then [p] else [].

Lemma service_pcr_air : forall st h p v, air st h -> service_pcr o h p = Some v -> p_pid p = pfo_clock_pid o /\ p_pcr p = Some v.
Proof.
  intros st h p v A E. unfold service_pcr in E. destruct (pmt_now o h) as [[src m']|] eqn:F; [|discriminate].
  pose proof (a_pmt st h A _ F) as Q. injection Q as -> ->. destruct (Z.eqb_spec (p_pid p) (pmt_pcr_pid m)); [|discriminate].
  rewrite <- pcr_pid. auto.
Qed.

Lemma early_step : forall h p qs v h', air false h -> normal o stage mpid m e false p -> early p -> step h p qs v h' ->
  v = Go /\ qs = kept p /\ air false h' /\ (pmt_count o h = O -> pmt_count o h' = O) /\
  exists ts, delivered base_pids sid stage (tabs h) p ts /\ tabs h' = tabs (hear h p ts).
Proof.
  intros h p qs v h' A N Ea (ts & D & X). pose proof (delivered_incl _ _ _ D) as I.
  pose proof (air_hear false p ts h A N I) as Ag. set (g := hear h p ts) in *.
  destruct X as [(B & _)|(_ & R)]; [exfalso; exact (no_bad_pat _ _ _ N I B)|].
  assert (Cg : pmt_count o h = O -> pmt_count o g = O).
  { intros C. unfold g. rewrite pmt_count_hear, C. destruct (existsb _ ts); reflexivity. }
  assert (Tg : exists us, delivered base_pids sid stage (tabs h) p us /\ tabs g = tabs (hear h p us)) by eauto.
  clearbody g. unfold react in R. rewrite (a_begun _ _ Ag) in R. unfold waiting in R. rewrite (a_up _ _ Ag) in R.
  unfold kept.
  destruct ((p_pid p =? 0) && pfo_pre_streaming o) eqn:Pp.
  { rewrite andb_comm, Pp. injection R as -> -> ->. auto 10. }
  rewrite andb_comm, Pp.
  set (h1 := if p_pid p =? 0 then PatPkt p :: g else g) in *.
  assert (A1 : air false h1).
  { subst h1. destruct (p_pid p =? 0); [apply air_mark; eauto|exact Ag]. }
  assert (T1 : tabs h1 = tabs g) by (subst h1; destruct (p_pid p =? 0); reflexivity).
  assert (C1 : pmt_count o h1 = pmt_count o g) by (subst h1; destruct (p_pid p =? 0); reflexivity).
  assert (Ev : event_now o h1 = event_now o g) by (unfold event_now; rewrite T1; reflexivity).
  clearbody h1.
  destruct (event_now o g) as [e'|] eqn:En; [|injection R as -> -> ->; rewrite C1, T1; auto 10].
  destruct (service_pcr o g p) as [c|] eqn:Es; [|injection R as -> -> ->; rewrite C1, T1; auto 10].
  destruct (service_pcr_air _ _ _ _ Ag Es) as (Q1 & Q2). destruct (Ea Q1 c Q2) as (E1 & E2).
  rewrite (window_air false h1 c A1 ltac:(congruence)), E2, E1 in R. injection R as -> -> ->.
  do 2 (split; [reflexivity|]). split; [apply air_clk, A1|]. cbn [pmt_count tabs]. rewrite C1, T1. auto.
Qed.

Lemma early_run : forall k pre rest h d out ed h' d', willing k d -> trans step k h d (pre ++ rest) out ed h' d' ->
  air false h -> pmt_count o h = O -> Forall (normal o stage mpid m e false) pre -> Forall early pre ->
  exists h1 d1 o2, trans step k h1 d1 rest o2 ed h' d' /\ willing k d1 /\ hand k d (concat (map kept pre)) = (concat (map kept pre), Ok (d1, true)) /\
    out = concat (map kept pre) ++ o2 /\ air false h1 /\ pmt_count o h1 = O /\
    trans step k h d pre (concat (map kept pre)) AtEnd h1 d1 /\
    incl (tabs h) (tabs h1) /\
    (forall p t, In p pre -> In (p_pid p) base_pids -> In t (p_tabs p stage) -> In (p_pid p, tb_body t) (tabs h1)) /\
    (listed h -> forall p t, In p pre -> p_pid p = mpid -> In t (p_tabs p stage) -> In (p_pid p, tb_body t) (tabs h1)).
Proof.
  induction pre as [|p pre IH]; intros rest h d out ed h' d' W T A C N Ea.
  { exists h, d, out. cbn. split; [exact T|]. split; [exact W|]. do 2 (split; [reflexivity|]). do 2 (split; [assumption|]).
    split; [constructor|]. split; [apply incl_refl|]. split; intros; contradiction. }
  inversion N as [|? ? N1 N2]; subst. inversion Ea as [|? ? Ea1 Ea2]; subst. cbn [app] in T.
  destruct (willing_hand _ k d (kept p) W) as (dp & Hp & Wp).
  assert (Z : forall qs v hh, step h p qs v hh -> v = Go /\ qs = kept p /\ air false hh /\ pmt_count o hh = O /\
     exists ts, delivered base_pids sid stage (tabs h) p ts /\ tabs hh = tabs (hear h p ts)).
  { intros qs v hh St. destruct (early_step h p qs v hh A N1 Ea1 St) as (E1 & E2 & E3 & E4 & E5).
    split; [exact E1|]. split; [exact E2|]. split; [exact E3|]. split; [exact (E4 C)|exact E5]. }
  inversion T as [|? ? ? ? qs h1 o1 d1 o2 ? ? ? S E F2|? ? ? ? qs h1 o1 d1 S E|? ? ? ? qs f h1 o1 d1 S E|? ? ? ? qs v h1 o1 d1 S E|? ? ? ? qs v h1 o1 f S E]; subst;
    destruct (Z _ _ _ S) as (Z1 & Z2 & Z3 & Z4 & ts & Z5 & Z6); try discriminate; subst qs; rewrite Hp in E; try discriminate.
  injection E as <- <-.
  destruct (IH rest h1 dp o2 ed h' d' Wp F2 Z3 Z4 N2 Ea2) as (h2 & d2 & o3 & R1 & R2 & R3 & R4 & R5 & R6 & R7 & R8 & R9 & R10).
  assert (Up : incl (tabs h) (tabs h2)).
  { intros x Hx. apply R8. rewrite Z6. apply in_hear. auto. }
  assert (Tn : forall t, tuned base_pids sid (tabs h) (p_pid p) -> In t (p_tabs p stage) -> In (p_pid p, tb_body t) (tabs h2)).
  { intros t Tu It. apply R8. rewrite Z6. apply in_hear. left. exists t. split; [|reflexivity].
    destruct Z5 as [[_ ->]|[Z5 _]]; [exact It|contradiction]. }
  exists h2, d2, o3. cbn [map concat]. split; [exact R1|]. split; [exact R2|].
  split; [rewrite hand_app, Hp, R3; reflexivity|]. split; [rewrite R4, app_assoc; reflexivity|]. do 2 (split; [assumption|]).
  split; [eapply X_go; eauto|]. split; [exact Up|]. split.
  - intros q t [<-|Hq] Hb Ht; [|eauto]. apply Tn; [apply (tuned_base false h _ A Hb)|exact Ht].
  - intros L q t [<-|Hq] Hb Ht.
    + apply Tn; [rewrite Hb; apply (tuned_mpid false h A L)|exact Ht].
    + apply R10; auto. destruct L as (x & y & L1 & L2). exists x, y. split; [|exact L2]. rewrite Z6. apply in_hear. auto.
Qed.

Lemma kept_pats : forall ps, concat (map kept ps) = if pfo_pre_streaming o then pat_packets ps else [].
Proof.
  unfold kept, pat_packets. destruct (pfo_pre_streaming o); cbn [andb].
  - induction ps as [|p ps IH]; cbn; [reflexivity|]. rewrite IH. destruct (p_pid p =? 0); reflexivity.
  - induction ps as [|p ps IH]; cbn; auto.
Qed.

(** ** The first packet *)
Lemma first_step : forall h p c qs v h', air false h -> normal o stage mpid m e false p -> step h p qs v h' ->
  p_pid p = pfo_clock_pid o -> pfo_clock_pid o <> 0 -> p_pcr p = Some c -> reached c S_pcr = true -> reached c E_pcr = false ->
  event_now o h <> None -> pmt_now o h <> None -> listed h -> (pfo_pre_streaming o = false -> pats h <> []) -> pmt_count o h = O ->
  v = Go /\ qs = (if pfo_pre_streaming o then [] else pats h) ++ pmt_cycle npackets mpid (reduced o m) ++ [p] /\
  air true h' /\ pmt_now o h' = Some (mpid, m) /\ event_now o h' <> None /\ listed h' /\ pmt_count o h' = O.
Proof.
  intros h p c qs v h' A N (ts & D & X) Q1 Q0 Q2 E1 E2 En Pn L Pa C. pose proof (delivered_incl _ _ _ D) as I.
  pose proof (air_hear false p ts h A N I) as Ag.
  assert (Lg : listed (hear h p ts)).
  { destruct L as (x & y & L1 & L2). exists x, y. split; [|exact L2]. apply in_hear. auto. }
  assert (Cg : pmt_count o (hear h p ts) = O).
  { rewrite pmt_count_hear, C. destruct (existsb _ ts); reflexivity. }
  assert (Eg : event_now o (hear h p ts) <> None).
  { destruct (event_now o h) as [e'|] eqn:F; [|congruence]. destruct (latest_some _ _ _ _ _ F) as (x & Ix & Fx).
    apply (latest_none _ _ _ _ x e'); [apply in_hear; auto|exact Fx]. }
  assert (Pg : pmt_now o (hear h p ts) = Some (mpid, m)).
  { destruct (pmt_now o (hear h p ts)) as [y|] eqn:F; [f_equal; apply (a_pmt _ _ Ag); exact F|]. exfalso.
    destruct (pmt_now o h) as [y|] eqn:F2; [|congruence]. destruct (latest_some _ _ _ _ _ F2) as (x & Ix & Fx).
    apply (latest_none _ _ (service_pmt_from o) (tabs (hear h p ts)) x y); [apply in_hear; auto|exact Fx|exact F]. }
  pose proof (pats_hear ts h p) as Pe.
  destruct X as [(B & _)|(_ & R)]; [exfalso; exact (no_bad_pat _ _ _ N I B)|].
  set (g := hear h p ts) in *. clearbody g. rewrite <- Pe in *. clear Pe.
  unfold react in R. rewrite (a_begun _ _ Ag) in R. unfold waiting in R. rewrite (a_up _ _ Ag) in R.
  destruct (Z.eqb_spec (p_pid p) 0) as [Z0|_]; [congruence|]. cbn [andb] in R.
  destruct (event_now o g) as [e'|] eqn:F; [|congruence].
  unfold service_pcr in R. rewrite Pg, pcr_pid, Q1, Z.eqb_refl, Q2 in R.
  rewrite (window_air false g c Ag ltac:(congruence)), E2, E1 in R.
  unfold begin in R. change (pmt_now o (Clk c :: g)) with (pmt_now o g) in R. rewrite Pg in R.
  change (pats (Clk c :: g)) with (pats g) in R.
  replace (pmt_pid o (Clk c :: g)) with mpid in R by (symmetry; exact (pmt_pid_air _ _ Ag Lg)). rewrite Z.eqb_refl in R.
  assert (R' : (qs, v, h') = ((if pfo_pre_streaming o then [] else pats g) ++ pmt_cycle npackets mpid (reduced o m) ++ [p], Go, Begun :: Clk c :: g)).
  { destruct (pfo_pre_streaming o); cbn [negb andb] in R; [exact R|]. destruct (pats g); [exfalso; exact (Pa eq_refl eq_refl)|exact R]. }
  injection R' as -> -> ->. do 2 (split; [reflexivity|]).
  split.
  { destruct (air_clk false g c Ag) as [B1 B2 B3 B4 B5 B6]. constructor; auto.
    - cbn [clock_now] in B2 |- *. destruct (clock_now o g) as [[? [?|]] [?|]]; exact B2.
    - cbn [given_up gives_up] in B3 |- *. rewrite B3. reflexivity. }
  split; [exact Pg|]. split; [|split; [exact Lg|exact Cg]].
  change (event_now o (Begun :: Clk c :: g)) with (event_now o g). congruence.
Qed.

(** ** The program *)
Definition within (p : packet) : Prop := p_pid p = pfo_clock_pid o -> forall v, p_pcr p = Some v -> reached v E_pcr = false.

(** What one packet leads to. *)
Definition shows (i : nat) (p : packet) : list packet * nat :=
  let i := if restarts o stage p then O else i in
  if (p_pid p =? pfo_clock_pid o) && (match p_pcr p with None => true | Some _ => false end) then ([p], i)
  else if p_pid p =? mpid then ([pmt_packet mpid (reduced o m) (i mod npackets (reduced o m))], S i)
  else if removed o m (p_pid p) then ([], i)
  else ([p], i).

Lemma shown_cons : forall i p r, shown npackets o stage mpid m i (p :: r) =
  fst (shows i p) ++ shown npackets o stage mpid m (snd (shows i p)) r.
Proof.
  intros i p r. cbn [shown]. unfold shows. destruct (_ && _); [reflexivity|]. destruct (_ =? mpid); [reflexivity|].
  destruct (removed _ _ _); reflexivity.
Qed.

Record going (i : nat) (h : past) : Prop := {
  g_air : air true h;
  g_pmt : pmt_now o h = Some (mpid, m);
  g_event : event_now o h <> None;
  g_listed : listed h;
  g_count : pmt_count o h = i }.

Lemma going_hear : forall i h p ts, going i h -> normal o stage mpid m e true p -> delivered base_pids sid stage (tabs h) p ts ->
  going (if restarts o stage p then O else i) (hear h p ts).
Proof.
  intros i h p ts [A Pn En L C] N D. pose proof (delivered_incl _ _ _ D) as I.
  pose proof (air_hear true p ts h A N I) as Ag. constructor; auto.
  - destruct (pmt_now o (hear h p ts)) as [y|] eqn:F; [f_equal; apply (a_pmt _ _ Ag); exact F|]. exfalso.
    destruct (latest_some _ _ _ _ _ Pn) as (x & Ix & Fx).
    apply (latest_none _ _ (service_pmt_from o) (tabs (hear h p ts)) x (mpid, m)); [apply in_hear; auto|exact Fx|exact F].
  - destruct (event_now o h) as [e'|] eqn:F; [|congruence]. destruct (latest_some _ _ _ _ _ F) as (x & Ix & Fx).
    apply (latest_none _ _ _ _ x e'); [apply in_hear; auto|exact Fx].
  - destruct L as (x & y & L1 & L2). exists x, y. split; [|exact L2]. apply in_hear. auto.
  - rewrite pmt_count_hear, C. unfold restarts.
    destruct D as [[Tu ->]|[Tu ->]]; [reflexivity|]. cbn [existsb].
    destruct (existsb _ (p_tabs p stage)) eqn:X; [|reflexivity]. exfalso.
    apply existsb_exists in X as (t & It & Ft). destruct (N t It) as ((_ & _ & S3) & _).
    destruct (service_pmt_from o (p_pid p, tb_body t)) as [[src m']|] eqn:F; [|discriminate].
    apply Tu. rewrite (S3 _ _ eq_refl). exact (tuned_mpid true h A L).
Qed.

Lemma going_clk : forall i h v, going i h -> going i (Clk v :: h).
Proof. intros i h v [A Pn En L C]. constructor; auto using air_clk. Qed.

Lemma pass_step : forall i h p qs v h', going i h -> (qs, v, h') = pass npackets o h p ->
  v = Go /\ qs = (if p_pid p =? mpid then [pmt_packet mpid (reduced o m) (i mod npackets (reduced o m))]
                  else if removed o m (p_pid p) then [] else [p]) /\
  going (if p_pid p =? mpid then S i else i) h'.
Proof.
  intros i h p qs v h' G R. pose proof G as [A Pn En L C]. unfold pass in R. rewrite Pn, (pmt_pid_air true h A L) in R.
  destruct (Z.eqb_spec (p_pid p) mpid) as [Q|Q].
  - rewrite Q, Z.eqb_refl, C in R. injection R as -> -> ->. do 2 (split; [reflexivity|]). constructor; auto.
    + apply air_mark; auto.
    + cbn [pmt_count]. rewrite C. reflexivity.
  - destruct (removed o m (p_pid p)); injection R as -> -> ->; auto.
Qed.

Lemma within_step : forall i h p qs v h', going i h -> normal o stage mpid m e true p -> within p -> step h p qs v h' ->
  v = Go /\ qs = fst (shows i p) /\ going (snd (shows i p)) h'.
Proof.
  intros i h p qs v h' G N Wi (ts & D & X).
  pose proof (going_hear i h p ts G N D) as Gg. unfold shows. set (j := if restarts o stage p then O else i) in *. clearbody j.
  destruct X as [(B & _)|(_ & R)]; [exfalso; exact (no_bad_pat _ _ _ N (delivered_incl _ _ _ D) B)|].
  set (g := hear h p ts) in *. clearbody g. pose proof Gg as [A Pn En L C].
  unfold react in R. rewrite (a_begun _ _ A) in R. unfold streaming in R. rewrite (a_up _ _ A), Pn, pcr_pid in R.
  assert (Fin : forall g', going j g' -> (qs, v, h') = pass npackets o g' p ->
    v = Go /\ qs = fst (if p_pid p =? mpid then ([pmt_packet mpid (reduced o m) (j mod npackets (reduced o m))], S j)
                        else if removed o m (p_pid p) then ([], j) else ([p], j)) /\
    going (snd (if p_pid p =? mpid then ([pmt_packet mpid (reduced o m) (j mod npackets (reduced o m))], S j)
                else if removed o m (p_pid p) then ([], j) else ([p], j))) h').
  { intros g' Gg' Rg. destruct (pass_step j g' p qs v h' Gg' Rg) as (R1 & R2 & R3).
    destruct (p_pid p =? mpid); [auto|]. destruct (removed o m (p_pid p)); auto. }
  destruct (Z.eqb_spec (p_pid p) (pfo_clock_pid o)) as [Q|Q]; cbn [andb].
  - destruct (p_pcr p) as [c|] eqn:Ec.
    + rewrite (window_air true g c A En), (Wi Q c Ec) in R. apply (Fin (Clk c :: g)); [apply going_clk, Gg|exact R].
    + injection R as -> -> ->. auto.
  - apply (Fin g); auto.
Qed.

Lemma within_run : forall k mid rest i h d out ed h' d', willing k d -> trans step k h d (mid ++ rest) out ed h' d' -> going i h ->
  Forall (normal o stage mpid m e true) mid -> Forall within mid ->
  exists j h1 d1 o2, trans step k h1 d1 rest o2 ed h' d' /\ willing k d1 /\
    hand k d (shown npackets o stage mpid m i mid) = (shown npackets o stage mpid m i mid, Ok (d1, true)) /\
    out = shown npackets o stage mpid m i mid ++ o2 /\ going j h1.
Proof.
  induction mid as [|p mid IH]; intros rest i h d out ed h' d' W T G N Wi.
  { exists i, h, d, out. cbn. auto 10. }
  inversion N as [|? ? N1 N2]; subst. inversion Wi as [|? ? Wi1 Wi2]; subst. cbn [app] in T.
  destruct (willing_hand _ k d (fst (shows i p)) W) as (dp & Hp & Wp).
  assert (Z : forall qs v hh, step h p qs v hh -> v = Go /\ qs = fst (shows i p) /\ going (snd (shows i p)) hh).
  { intros qs v hh St. exact (within_step i h p qs v hh G N1 Wi1 St). }
  inversion T as [|? ? ? ? qs h1 o1 d1 o2 ? ? ? S E F2|? ? ? ? qs h1 o1 d1 S E|? ? ? ? qs f h1 o1 d1 S E|? ? ? ? qs v h1 o1 d1 S E|? ? ? ? qs v h1 o1 f S E]; subst;
    destruct (Z _ _ _ S) as (Z1 & Z2 & Z3); try discriminate; subst qs; rewrite Hp in E; try discriminate.
  injection E as <- <-.
  destruct (IH rest (snd (shows i p)) h1 dp o2 ed h' d' Wp F2 Z3 N2 Wi2) as (j & h2 & d2 & o3 & R1 & R2 & R3 & R4 & R5).
  exists j, h2, d2, o3. rewrite shown_cons. split; [exact R1|]. split; [exact R2|].
  split; [rewrite hand_app, Hp, R3; reflexivity|]. split; [rewrite R4, app_assoc; reflexivity|exact R5].
Qed.

(** ** The end *)
Lemma end_step : forall i h p c qs v h', going i h -> normal o stage mpid m e true p -> step h p qs v h' ->
  p_pid p = pfo_clock_pid o -> p_pcr p = Some c -> reached c E_pcr = true -> v = Halt /\ qs = [] /\ begun h' = true.
Proof.
  intros i h p c qs v h' G N (ts & D & X) Q Ec Re.
  pose proof (going_hear i h p ts G N D) as Gg.
  destruct X as [(B & _)|(_ & R)]; [exfalso; exact (no_bad_pat _ _ _ N (delivered_incl _ _ _ D) B)|].
  set (g := hear h p ts) in *. clearbody g. pose proof Gg as [A Pn En L C].
  unfold react in R. rewrite (a_begun _ _ A) in R. unfold streaming in R. rewrite (a_up _ _ A), Pn, pcr_pid, Q, Z.eqb_refl, Ec in R.
  rewrite (window_air true g c A En), Re in R. injection R as -> -> ->. split; [reflexivity|]. split; [reflexivity|]. exact (a_begun _ _ A).
Qed.
End OnAir.

Lemma latest_pat_has : forall ps acc, acc <> [] \/ (exists p, In p ps /\ p_pid p = 0) -> latest_pat acc ps <> [].
Proof.
  induction ps as [|p ps IH]; intros acc H; cbn [latest_pat].
  - destruct H as [H|(p & [] & _)]; exact H.
  - apply IH. destruct (Z.eqb_spec (p_pid p) 0) as [Q|Q].
    + left. destruct (if p_pusi p then [] else acc); discriminate.
    + destruct H as [H|(q & [<-|I] & Hq)]; [auto|congruence|eauto].
Qed.

Lemma trans_on_air : forall npackets o stage mpid m e K k d1 pre x mid post out0 ed h d2,
  on_air o stage mpid m e K pre x mid post -> willing k d1 ->
  trans (program_step npackets o stage) k [] d1 (map fst (pre ++ x :: mid ++ post)) out0 ed h d2 ->
  let out := programme npackets o stage mpid m pre x mid in
  out0 = out /\ hand k d1 out = (out, Ok (d2, true)) /\ willing k d2 /\ ((ed = AtEnd /\ post = []) \/ (ed = Halted /\ post <> [])) /\ begun h = true.
Proof.
  intros npackets o stage mpid m e K k d1 pre x mid post out0 ed h d2 OA W T out.
  destruct OA as [Nb Pc Nz Ck Ti Ne Or Be (Fi1 & Fi2 & Fi3) Wi Af (Ta1 & Ta2) (a & b & Eab & (pa & Ipa & ta & ya & Ita & Lya) & (pb & Ipb & tb & yb & Itb & Lyb) & (pe & Ipe & Ppe & te & ye & Ite & Lye))].
  (* times *)
  assert (Es : to_pcr (pfo_clock_pcr o) (pfo_clock_time o) (ev_start e - pfo_start_margin o) = (K + start_tick o e) mod pcr_cycle).
  { apply to_pcr_time. exact Ck. }
  assert (Ee : to_pcr (pfo_clock_pcr o) (pfo_clock_time o) (ev_start e + (ev_duration e * 1000 + pfo_end_margin o)) = (K + end_tick o e) mod pcr_cycle).
  { apply to_pcr_time. exact Ck. }
  assert (Tv : forall y v, In y (pre ++ x :: mid ++ firstn 1 post) -> p_pid (fst y) = pfo_clock_pid o -> p_pcr (fst y) = Some v ->
            v = (K + snd y) mod pcr_cycle /\ near (snd y) (start_tick o e) /\ near (snd y) (end_tick o e)).
  { intros y v Iy Q Ev. rewrite Forall_forall in Ti. split; [exact (Ti y Iy Q v Ev)|]. apply Ne; [exact Iy|]. split; [exact Q|congruence]. }
  assert (Fe : Forall (early o e) (map fst pre)).
  { apply Forall_forall. intros p Hp. apply in_map_iff in Hp as (y & <- & Iy). intros Q v Ev.
    destruct (Tv y v ltac:(apply in_or_app; auto) Q Ev) as (-> & N1 & N2).
    assert (Lt : snd y < start_tick o e) by (apply Be; [exact Iy|split; [exact Q|congruence]]).
    rewrite Es, Ee. split; apply not_true_iff_false; rewrite reached_time by assumption; lia. }
  assert (Fw : Forall (within o e) (map fst mid)).
  { apply Forall_forall. intros p Hp. apply in_map_iff in Hp as (y & <- & Iy). intros Q v Ev.
    destruct (Tv y v ltac:(apply in_or_app; right; right; apply in_or_app; auto) Q Ev) as (-> & N1 & N2).
    assert (Lt : snd y < end_tick o e) by (apply Wi; [right; exact Iy|split; [exact Q|congruence]]).
    rewrite Ee. apply not_true_iff_false. rewrite reached_time by assumption. lia. }
  (* before *)
  assert (A0 : air o mpid m e false []).
  { constructor; try reflexivity; try discriminate. intros y t q []. }
  rewrite map_app, Forall_app in Ta1. destruct Ta1 as (Ta1 & Tax). inversion Tax as [|? ? Tx _]; subst.
  rewrite map_app in T. cbn [map] in T. rewrite map_app in T.
  set (tail := fst x :: map fst mid ++ map fst post) in *.
  rewrite Eab in T, Fe, Ta1. rewrite <- app_assoc in T.
  rewrite Forall_app in Fe, Ta1. destruct Fe as (Fe1 & Fe2). destruct Ta1 as (Ta1 & Tb1).
  destruct (early_run npackets o stage mpid m e Nb Pc k a (b ++ tail) [] d1 out0 ed h d2 W T A0 eq_refl Ta1 Fe1)
    as (ha & da & oa & T1 & W1 & H1 & O1 & A1 & C1 & X1 & I1 & B1 & _).
  assert (La : listed o ha).
  { exists (p_pid pa, tb_body ta), ya. split; [|exact Lya]. apply B1; [exact Ipa| |exact Ita].
    unfold listing, usable_pat in Lya. destruct (tb_body ta) as [[t'|]| | | | | | |]; try discriminate.
    destruct (Z.eqb_spec (p_pid pa) 0) as [->|]; [cbn; auto|discriminate]. }
  assert (Pa0 : p_pid pa = 0).
  { unfold listing, usable_pat in Lya. destruct (tb_body ta) as [[t'|]| | | | | | |]; try discriminate.
    destruct (Z.eqb_spec (p_pid pa) 0); [assumption|discriminate]. }
  destruct (early_run npackets o stage mpid m e Nb Pc k b tail ha da oa ed h d2 W1 T1 A1 C1 Tb1 Fe2)
    as (hb & db & ob & T2 & W2 & H2 & O2 & A2 & C2 & X2 & I2 & B2 & M2).
  assert (Lb : listed o hb) by (destruct La as (y & z & L1 & L2); exists y, z; split; [apply I2, L1|exact L2]).
  assert (Pn : pmt_now o hb <> None).
  { apply (latest_none _ _ _ _ (p_pid pb, tb_body tb) yb); [|exact Lyb]. apply M2; auto.
    rewrite Forall_forall in Tb1. destruct (Tb1 pb Ipb tb Itb) as ((_ & _ & S3) & _). destruct yb as [src m']. exact (S3 _ _ Lyb). }
  assert (En : event_now o hb <> None).
  { apply (latest_none _ _ _ _ (p_pid pe, tb_body te) ye); [|exact Lye]. apply in_app_or in Ipe as [I|I].
    - apply I2, B1; auto. rewrite Ppe. cbn. auto.
    - apply B2; auto. rewrite Ppe. cbn. auto. }
  pose proof (trans_app _ k _ _ _ _ _ _ _ _ _ _ _ X1 X2) as X. rewrite <- Eab in X.
  destruct (waiting_run npackets o stage k _ _ _ _ _ _ _ X eq_refl (a_begun _ _ _ _ _ _ A2) eq_refl) as (_ & Pats). cbn [pats] in Pats.
  (* first *)
  destruct Fi1 as (Q1 & Q2). destruct (p_pcr (fst x)) as [c|] eqn:Ec; [|congruence]. clear Q2.
  destruct (Tv x c ltac:(apply in_elt) Q1 Ec) as (Vc & N1 & N2).
  assert (Rs : reached c (to_pcr (pfo_clock_pcr o) (pfo_clock_time o) (ev_start e - pfo_start_margin o)) = true).
  { rewrite Es, Vc. apply reached_time; auto. }
  assert (Re : reached c (to_pcr (pfo_clock_pcr o) (pfo_clock_time o) (ev_start e + (ev_duration e * 1000 + pfo_end_margin o))) = false).
  { rewrite Ee, Vc. apply not_true_iff_false. rewrite reached_time by assumption.
    assert (snd x < end_tick o e) by (apply Wi; [left; reflexivity|split; [exact Q1|congruence]]). lia. }
  set (open := (if pfo_pre_streaming o then [] else pats hb) ++ pmt_cycle npackets mpid (reduced o m) ++ [fst x]).
  assert (Z : forall qs v hh, program_step npackets o stage hb (fst x) qs v hh ->
     v = Go /\ qs = open /\ going o mpid m e 0 hh).
  { intros qs v hh St.
    destruct (first_step npackets o stage mpid m e Pc hb (fst x) c qs v hh A2 Tx St Q1 Nz Ec Rs Re En Pn Lb) as (Y1 & Y2 & Y3 & Y4 & Y5 & Y6 & Y7); auto.
    - intros Pf. rewrite (Pats Pf). apply latest_pat_has. right. exists pa. split; [|exact Pa0].
      rewrite Eab. apply in_or_app. auto.
    - split; [exact Y1|]. split; [exact Y2|]. constructor; auto. }
  destruct (willing_hand _ k db open W2) as (dx & Hx & Wx).
  inversion T2 as [|? ? ? ? qs h1 o1 dd o2 ? ? ? S E F2|? ? ? ? qs h1 o1 dd S E|? ? ? ? qs f h1 o1 dd S E|? ? ? ? qs v h1 o1 dd S E|? ? ? ? qs v h1 o1 f S E]; subst;
    destruct (Z _ _ _ S) as (Z1 & Z2 & Z3); try discriminate; subst qs; rewrite Hx in E; try discriminate.
  injection E as <- <-.
  (* within *)
  rewrite map_app, Forall_app in Ta2. destruct Ta2 as (Ta2 & Tp).
  destruct (within_run npackets o stage mpid m e Pc k (map fst mid) (map fst post) 0 h1 dx o2 ed h d2 Wx F2 Z3 Ta2 Fw)
    as (j & hm & dm & om & T3 & W3 & H3 & O3 & G3).
  (* the end *)
  assert (Fin : om = [] /\ d2 = dm /\ ((ed = AtEnd /\ post = []) \/ (ed = Halted /\ post <> [])) /\ begun h = true).
  { destruct post as [|y r].
    - cbn [map] in T3. inversion T3; subst. split; [reflexivity|]. split; [reflexivity|]. split; [auto|]. exact (a_begun _ _ _ _ _ _ (g_air _ _ _ _ _ _ G3)).
    - destruct (Af y r eq_refl) as ((U1 & U2) & U3 & U4). destruct (p_pcr (fst y)) as [cy|] eqn:Ey; [|congruence].
      destruct (Tv y cy ltac:(apply in_or_app; right; right; apply in_or_app; right; left; reflexivity) U1 Ey) as (Vy & M1 & M3).
      assert (Ry : reached cy (to_pcr (pfo_clock_pcr o) (pfo_clock_time o) (ev_start e + (ev_duration e * 1000 + pfo_end_margin o))) = true).
      { rewrite Ee, Vy. apply reached_time; auto. }
      cbn [firstn map] in Tp. apply Forall_inv in Tp as Ty.
      assert (Zy : forall qs v hh, program_step npackets o stage hm (fst y) qs v hh -> v = Halt /\ qs = [] /\ begun hh = true).
      { intros qs v hh St. exact (end_step npackets o stage mpid m e Pc j hm (fst y) cy qs v hh G3 Ty St U1 Ey Ry). }
      cbn [map] in T3.
      inversion T3 as [|? ? ? ? qs hh o1 dd o3 ? ? ? S' E F3|? ? ? ? qs hh o1 dd S' E|? ? ? ? qs f hh o1 dd S' E|? ? ? ? qs v hh o1 dd S' E|? ? ? ? qs v hh o1 f S' E]; subst;
        destruct (Zy _ _ _ S') as (V1 & V2 & V3); try discriminate; subst qs; cbn [hand] in E; try discriminate.
      injection E as <- <-. split; [reflexivity|]. split; [reflexivity|]. split; [right; split; [reflexivity|discriminate]|exact V3]. }
  destruct Fin as (-> & -> & Ed & Bh).
  assert (Eo : out = concat (map (kept o) a) ++ concat (map (kept o) b) ++ open ++ shown npackets o stage mpid m 0 (map fst mid)).
  { unfold out, programme, open. rewrite (app_assoc (concat (map (kept o) a))), <- concat_app, <- map_app, kept_pats, <- Eab.
    destruct (pfo_pre_streaming o); [rewrite <- !app_assoc; reflexivity|]. rewrite (Pats eq_refl), <- !app_assoc. reflexivity. }
  split; [rewrite Eo, O3, app_nil_r; reflexivity|].
  split; [rewrite Eo, hand_app, H1, hand_app, H2, hand_app, Hx, H3; reflexivity|]. auto.
Qed.

Lemma run_on_air : forall npackets o stage mpid m e K k d d1 pre x mid post n,
  (forall t, (1 <= npackets t)%nat) -> sane_option o -> on_air o stage mpid m e K pre x mid post ->
  let ps := map fst (pre ++ x :: mid ++ post) in
  Forall (sane_packet stage) ps -> (length ps < n)%nat -> sk_start k d = Ok (d1, true) -> willing k d1 ->
  let out := programme npackets o stage mpid m pre x mid in
  exists s d2 d3 c, hand k d1 out = (out, Ok (d2, true)) /\ sk_end k d2 = Ok d3 /\ sk_exit k d3 = Ok c /\
    FeedPackets (list_source packet) (program_filter npackets o k stage) n ps (pf_init o, d) = Some (Ok (c, (s, d3))).
Proof.
  intros npackets o stage mpid m e K k d d1 pre x mid post n Np So OA ps Sp Hn Hs W out.
  destruct (program_refines npackets o stage Np So k ps n d d1 Sp Hn Hs) as (out0 & ed & h & dm & T & R).
  destruct (trans_on_air npackets o stage mpid m e K k d1 pre x mid post out0 ed h dm OA W T) as (_ & Hout & W3 & Ed & Bh).
  destruct (W3 []) as (d2 & d3 & c' & E1 & E2 & E3). cbn [hand] in E1. injection E1 as <-.
  rewrite E2, Bh, andb_false_r, E3 in R.
  exists (match FeedPackets (list_source packet) (program_filter npackets o k stage) n ps (pf_init o, d) with Some (Ok (_, (s, _))) => s | _ => pf_init o end).
  exists dm, d3, c'. split; [exact Hout|]. split; [exact E2|]. split; [exact E3|].
  cbv zeta in R. destruct Ed as [(-> & _)|(-> & _)]; destruct R as (s & R); rewrite R; reflexivity.
Qed.
