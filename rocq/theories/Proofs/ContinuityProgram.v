From Coq Require Import ZArith Lia List Bool.
From Verif Require Import Base.Outcome Base.Util Model.Sink Model.Ts Model.ProgramFilter Spec.FeedSpec Spec.FilterSpec Spec.TransSpec Spec.TuneSpec
  Spec.ProgramSpec Spec.ContinuitySpec Proofs.FilterProofs Proofs.FilterMain Proofs.TransProofs Proofs.ProgramMain Proofs.ContinuityProofs.
Import ListNotations.
Open Scope Z_scope.

Section Program.
Variable npackets : pmt -> nat.
Variable o : program_filter_option.
Variable stage : nat.
Let step := program_step npackets o stage.

Lemma delivered_tables : forall h p ts, delivered base_pids (pfo_sid o) stage h p ts ->
  forall x, In x (map (fun t => (p_pid p, tb_body t)) ts) -> In x (tables stage [p]).
Proof.
  intros h p ts [[_ ->]|[_ ->]] x Hx; [|contradiction]. cbn. rewrite app_nil_r. exact Hx.
Qed.

Section Alone.
Variable pid : Z.
Hypothesis not_null : pid <> 0x1FFF.

(** Nothing in the past concerns [pid]. *)
Definition alone (h : past) : Prop :=
  (forall x, In x (tabs h) -> left_alone o pid x) /\ (begun h = true -> pmt_now o h <> None).

Lemma alone_pmt_pid : forall h, alone h -> pmt_pid o h <> pid.
Proof.
  intros h [A _]. unfold pmt_pid. destruct (latest (listing (pfo_sid o)) (tabs h)) as [[t q]|] eqn:E; [|auto].
  apply latest_some_in in E as (x & Hx & L). destruct (A x Hx) as (B & _). eapply B. exact L.
Qed.

Lemma pmt_now_in : forall h src m, pmt_now o h = Some (src, m) -> exists x, In x (tabs h) /\ service_pmt (pfo_sid o) x = Some m /\ fst x = src.
Proof.
  intros h src m E. unfold pmt_now in E. apply latest_some_in in E as (x & Hx & L). exists x. split; [exact Hx|].
  destruct x as [q b]. unfold service_pmt_from in L. unfold service_pmt. cbn [snd fst]. destruct b as [?|?|[u|]|?|?|?|?|]; try discriminate.
  destruct (pmt_sid u =? pfo_sid o); [|discriminate]. injection L as <- <-. auto.
Qed.

Lemma alone_removed : forall h src m, alone h -> pmt_now o h = Some (src, m) -> removed o m pid = false.
Proof.
  intros h src m [A _] E. destruct (pmt_now_in h src m E) as (x & Hx & S & _). destruct (A x Hx) as (_ & B & _).
  specialize (B m S). destruct (removed o m pid) eqn:R; [|reflexivity]. exfalso. apply B. apply removed_iff. exact R.
Qed.

Lemma pmt_now_hear : forall h p ts, pmt_now o h <> None -> pmt_now o (hear h p ts) <> None.
Proof.
  intros h p ts N. unfold pmt_now in *. rewrite tabs_hear. destruct (latest (service_pmt_from o) (tabs h)) as [v|] eqn:E; [|congruence].
  apply latest_some_in in E as (x & Hx & L). eapply ProgramMain.latest_none; [|exact L]. apply in_or_app. auto.
Qed.

Lemma alone_hear : forall h p ts, alone h -> delivered base_pids (pfo_sid o) stage (tabs h) p ts ->
  (forall x, In x (tables stage [p]) -> left_alone o pid x) -> alone (hear h p ts).
Proof.
  intros h p ts [A B] D L. split.
  - intros x Hx. rewrite tabs_hear in Hx. apply in_app_or in Hx as [Hx|Hx]; [|auto]. apply in_rev in Hx.
    apply L. eapply delivered_tables; eauto.
  - rewrite begun_hear. intros E. apply pmt_now_hear. auto.
Qed.

(** While streaming every packet of [pid] is handed on. *)
Lemma alone_pass : forall h p qs v h', alone h -> begun h = true -> pass npackets o h p = (qs, v, h') ->
  (v = Go /\ on pid qs = on pid [p] /\ alone h' /\ begun h' = true) \/ (v <> Go /\ qs = []).
Proof.
  intros h p qs v h' A B E. unfold pass in E. destruct (pmt_now o h) as [[src m]|] eqn:Em; [|destruct A as [_ A]; exfalso; apply A; auto].
  destruct (Z.eqb_spec (p_pid p) (pmt_pid o h)) as [Q|Q].
  - destruct (Z.eqb_spec src (p_pid p)) as [S|S]; injection E as <- <- <-; [left|right; split; [discriminate|reflexivity]].
    split; [reflexivity|]. pose proof (alone_pmt_pid h A) as N. split.
    + rewrite !on_none; [reflexivity|intros q [<-|[]]; congruence|intros q [<-|[]]; cbn; congruence].
    + split; [|exact B]. destruct A as [A1 A2]. split; [exact A1|]. intros _. unfold pmt_now. cbn [tabs]. fold (pmt_now o h). congruence.
  - destruct (removed o m (p_pid p)) eqn:R; injection E as <- <- <-; left; (split; [reflexivity|]); (split; [|auto]); [|reflexivity].
    rewrite (on_none pid [p]); [reflexivity|]. intros q [<-|[]] C. rewrite C, (alone_removed h src m A Em) in R. discriminate.
Qed.

Lemma alone_clk : forall h v, alone h -> alone (Clk v :: h).
Proof. intros h v [A B]. split; [exact A|]. cbn [begun]. exact B. Qed.

Lemma alone_stream : forall h p qs v h', alone h -> begun h = true -> (forall x, In x (tables stage [p]) -> left_alone o pid x) ->
  step h p qs v h' -> (v = Go /\ on pid qs = on pid [p] /\ alone h' /\ begun h' = true) \/ (v <> Go /\ qs = []).
Proof.
  intros h p qs v h' A B L (ts & D & [[_ E]|[_ E]]).
  { injection E as -> -> ->. right. split; [discriminate|reflexivity]. }
  pose proof (alone_hear h p ts A D L) as A1. assert (B1 : begun (hear h p ts) = true) by (rewrite begun_hear; exact B).
  set (g := hear h p ts) in *. clearbody g. unfold react in E. rewrite B1 in E. unfold streaming in E.
  destruct (given_up o g); [injection E as -> -> ->; right; split; [discriminate|reflexivity]|].
  destruct (pmt_now o g) as [[src m]|] eqn:Em; [|destruct A1 as [_ A1]; exfalso; apply A1; auto].
  destruct (p_pid p =? pmt_pcr_pid m).
  - destruct (p_pcr p) as [c|].
    + destruct (window o (Clk c :: g)) as [[ws we]|].
      * destruct (reached c we); [injection E as -> -> ->; right; split; [discriminate|reflexivity]|].
        eapply alone_pass; [apply alone_clk; exact A1|exact B1|symmetry; exact E].
      * injection E as -> -> ->. left. split; [reflexivity|]. split; [reflexivity|]. split; [apply alone_clk; exact A1|exact B1].
    + injection E as -> -> ->. left. auto.
  - eapply alone_pass; [exact A1|exact B1|symmetry; exact E].
Qed.

Lemma starts_hand : forall (k : sink packet) d qs out x l, hand k d qs = (out, x) -> starts (on pid qs) l -> starts (on pid out) l.
Proof.
  intros k d qs out x l E [b ->]. destruct (hand_split _ _ _ _ _ E) as (rest & -> & _). rewrite on_app. exists (on pid rest ++ b).
  rewrite app_assoc. reflexivity.
Qed.

Lemma on_head : forall p ps, starts (on pid [p]) (on pid (p :: ps)).
Proof. intros p ps. change (p :: ps) with ([p] ++ ps). rewrite on_app. eexists. reflexivity. Qed.

Lemma tables_split : forall p ps (Q : Z * body -> Prop), (forall x, In x (tables stage (p :: ps)) -> Q x) ->
  (forall x, In x (tables stage [p]) -> Q x) /\ (forall x, In x (tables stage ps) -> Q x).
Proof.
  intros p ps Q H. split; intros x Hx; apply H; cbn in *; apply in_or_app; [left; rewrite app_nil_r in Hx; exact Hx|auto].
Qed.

Lemma stream_prefix : forall k h d ps out e h' d', trans step k h d ps out e h' d' -> alone h -> begun h = true ->
  (forall x, In x (tables stage ps) -> left_alone o pid x) -> starts (on pid out) (on pid ps).
Proof.
  intros k h d ps out e h' d' T.
  induction T as [h d|h d p ps qs h' out d' out' e he de S E T IH|h d p ps qs h' out d' S E|h d p ps qs f h' out d' S E|h d p ps qs v h' out d' S E|h d p ps qs v h' out f S E];
    intros A B L; [apply starts_nil| | | | |]; destruct (tables_split _ _ _ L) as [L1 L2];
    destruct (alone_stream _ _ _ _ _ A B L1 S) as [(V & On & A' & B')|(V & Q)]; try congruence.
  - apply hand_ok in E. subst out. change (p :: ps) with ([p] ++ ps). rewrite !on_app, On. apply starts_app. apply IH; auto.
  - subst qs. eapply starts_hand; [exact E|apply starts_nil].
  - subst qs. eapply starts_hand; [exact E|apply starts_nil].
  - eapply starts_hand; [exact E|]. rewrite On. apply on_head.
  - subst qs. eapply starts_hand; [exact E|apply starts_nil].
  - eapply starts_hand; [exact E|]. rewrite On. apply on_head.
  - subst qs. eapply starts_hand; [exact E|apply starts_nil].
Qed.

(** Waiting and beginning. *)
Definition only_pats (h : past) : Prop := forall q, In q (pats h) -> p_pid q = 0.

Lemma cycle_on : forall src m, src <> pid -> on pid (pmt_cycle npackets src m) = [].
Proof. intros src m N. apply on_none. intros q Hq. unfold pmt_cycle in Hq. apply in_map_iff in Hq as (i & <- & _). exact N. Qed.

Lemma wait_step : forall h p qs v h', alone h -> only_pats h -> begun h = false -> (forall x, In x (tables stage [p]) -> left_alone o pid x) ->
  step h p qs v h' ->
  let kept := if p_pid p =? 0 then (if p_pusi p then [] else pats h) ++ [p] else pats h in
  (alone h' /\ only_pats h' /\ begun h' = false /\ v <> Go /\ (qs = [] \/ (pfo_pre_streaming o = false /\ exists g, qs = pats g /\ only_pats g /\ pats g = kept))) \/
  (alone h' /\ only_pats h' /\ begun h' = false /\ v = Go /\
     ((pfo_pre_streaming o = true /\ p_pid p = 0 /\ qs = [p]) \/
      (qs = [] /\ pats h' = kept /\ (pfo_pre_streaming o = true -> p_pid p <> 0)))) \/
  (alone h' /\ begun h' = true /\ v = Go /\ (pid = 0 -> p_pid p <> 0) /\ exists src m, src <> pid /\
     qs = (if pfo_pre_streaming o then [] else kept) ++ pmt_cycle npackets src m ++ [p] /\ (forall q, In q kept -> p_pid q = 0) /\
     (pfo_pre_streaming o = true -> p_pid p <> 0)).
Proof.
  intros h p qs v h' A P B L (ts & D & [[_ E]|[_ E]]) kept.
  { injection E as -> -> ->. left. refine (conj A (conj P (conj B (conj _ (or_introl eq_refl))))). discriminate. }
  pose proof (alone_hear h p ts A D L) as A1. assert (B1 : begun (hear h p ts) = false) by (rewrite begun_hear; exact B).
  assert (Eg : pats (hear h p ts) = pats h) by apply pats_hear.
  assert (P1 : only_pats (hear h p ts)) by (unfold only_pats; rewrite Eg; exact P).
  set (g := hear h p ts) in *. clearbody g. unfold react in E. rewrite B1 in E. unfold waiting in E.
  destruct (given_up o g); [injection E as -> -> ->; left; refine (conj A1 (conj P1 (conj B1 (conj _ (or_introl eq_refl))))); discriminate|].
  destruct ((p_pid p =? 0) && pfo_pre_streaming o) eqn:Pre.
  { apply andb_prop in Pre as [Z0 Pr]. apply Z.eqb_eq in Z0. injection E as -> -> ->. right. left. refine (conj A1 (conj P1 (conj B1 (conj eq_refl (or_introl _))))). auto. }
  set (g1 := if p_pid p =? 0 then PatPkt p :: g else g) in *.
  assert (K1 : pats g1 = kept).
  { unfold g1, kept. rewrite <- Eg. destruct (p_pid p =? 0); reflexivity. }
  assert (A2 : alone g1) by (unfold g1; destruct (p_pid p =? 0); [split; [apply A1|cbn [begun]; apply A1]|exact A1]).
  assert (B2 : begun g1 = false) by (unfold g1; destruct (p_pid p =? 0); exact B1).
  assert (P2 : only_pats g1).
  { unfold only_pats. rewrite K1. unfold kept. destruct (Z.eqb_spec (p_pid p) 0) as [Z0|Z0]; [|exact P].
    intros q Hq. apply in_app_or in Hq as [Hq|[<-|[]]]; [|exact Z0]. destruct (p_pusi p); [contradiction|auto]. }
  assert (Pn : pfo_pre_streaming o = true -> p_pid p <> 0).
  { intros Pr Z0. rewrite Pr, Z0 in Pre. discriminate. }
  assert (N0 : forall src m, pmt_now o g = Some (src, m) -> p_pid p = pmt_pcr_pid m -> pid = 0 -> p_pid p <> 0).
  { intros src m Em Ep Z0. destruct (pmt_now_in g src m Em) as (x & Hx & S & _). destruct (proj1 A1 x Hx) as (_ & _ & C). rewrite Ep. apply (C Z0 m S). }
  assert (Em1 : pmt_now o g1 = pmt_now o g) by (unfold g1; destruct (p_pid p =? 0); reflexivity).
  clearbody g1.
  assert (Quiet : forall c v0, v0 = Go -> qs = [] -> h' = c -> v = v0 -> alone c -> only_pats c -> begun c = false -> pats c = kept ->
    alone h' /\ only_pats h' /\ begun h' = false /\ v = Go /\
     ((pfo_pre_streaming o = true /\ p_pid p = 0 /\ qs = [p]) \/
      (qs = [] /\ pats h' = kept /\ (pfo_pre_streaming o = true -> p_pid p <> 0)))).
  { intros c v0 -> -> -> -> X1 X2 X3 X4. refine (conj X1 (conj X2 (conj X3 (conj eq_refl (or_intror _))))). auto. }
  unfold service_pcr in E. destruct (event_now o g); [|injection E as -> -> ->; right; left; eapply Quiet; eauto].
  destruct (pmt_now o g) as [[src m]|] eqn:Em; [|injection E as -> -> ->; right; left; eapply Quiet; eauto].
  destruct (Z.eqb_spec (p_pid p) (pmt_pcr_pid m)) as [Ep|Ep]; [|injection E as -> -> ->; right; left; eapply Quiet; eauto].
  destruct (p_pcr p) as [c|]; [|injection E as -> -> ->; right; left; eapply Quiet; eauto].
  assert (A3 : alone (Clk c :: g1)) by (apply alone_clk; exact A2).
  destruct (window o (Clk c :: g1)) as [[ws we]|]; [|injection E as -> -> ->; right; left; eapply Quiet; eauto].
  destruct (reached c we); [injection E as -> -> ->; left; refine (conj A3 (conj P2 (conj B2 (conj _ (or_introl eq_refl))))); discriminate|].
  destruct (reached c ws); [|injection E as -> -> ->; right; left; eapply Quiet; eauto].
  unfold begin in E. assert (Em2 : pmt_now o (Clk c :: g1) = Some (src, m)) by exact Em1. rewrite Em2 in E.
  assert (Kp : pats (Clk c :: g1) = kept) by exact K1. rewrite Kp in E.
  destruct (negb (pfo_pre_streaming o) && match kept with [] => true | _ => false end) eqn:Y.
  { injection E as -> -> ->. left. refine (conj A3 (conj P2 (conj B2 (conj _ (or_introl eq_refl))))). discriminate. }
  destruct (Z.eqb_spec src (pmt_pid o (Clk c :: g1))) as [Es|Es].
  - injection E as -> -> ->. right. right. split.
    + split; [apply A3|]. intros _. unfold pmt_now. cbn [tabs]. fold (pmt_now o g1). change (pmt_now o (Clk c :: g1)) with (pmt_now o g1) in Em2. congruence.
    + split; [reflexivity|]. split; [reflexivity|]. split; [exact (N0 src m eq_refl Ep)|]. exists src, (reduced o m).
      split; [rewrite Es; apply alone_pmt_pid; exact A3|]. split; [reflexivity|]. split; [|exact Pn].
      intros q Hq. rewrite <- K1 in Hq. apply P2. exact Hq.
  - injection E as -> -> ->. left. split; [exact A3|]. split; [exact P2|]. split; [exact B2|]. split; [discriminate|].
    destruct (pfo_pre_streaming o) eqn:Pr; [left; reflexivity|]. right. split; [reflexivity|]. exists g1. auto.
Qed.

End Alone.

Lemma program_stretch_other : forall pid, pid <> 0x1FFF -> pid <> 0 -> forall k h d ps out e h' d', trans step k h d ps out e h' d' ->
  alone pid h -> only_pats h -> begun h = false -> (forall x, In x (tables stage ps) -> left_alone o pid x) -> stretch (on pid out) (on pid ps).
Proof.
  intros pid Nn N0 k h d ps out e h' d' T.
  assert (P0 : forall l, (forall q, In q l -> p_pid q = 0) -> on pid l = []).
  { intros l H. apply on_none. intros q Hq. rewrite (H q Hq). auto. }
  assert (W : forall h p qs v h', alone pid h -> only_pats h -> begun h = false -> (forall x, In x (tables stage [p]) -> left_alone o pid x) ->
    step h p qs v h' -> (on pid qs = [] /\ (v = Go -> alone pid h' /\ only_pats h' /\ begun h' = false)) \/
      (v = Go /\ on pid qs = on pid [p] /\ alone pid h' /\ begun h' = true)).
  { clear -Nn N0 P0. intros h p qs v h' A P B L S. pose proof (wait_step pid Nn h p qs v h' A P B L S) as X. cbv zeta in X.
    destruct X as [(_ & _ & _ & V & [->|(_ & g & -> & G & _)])|[(A' & P' & B' & V & [(_ & Z0 & ->)|(-> & _)])|(A' & B' & V & _ & src & m & Ns & -> & K & _)]].
    - left. split; [reflexivity|congruence].
    - left. split; [apply P0; exact G|congruence].
    - left. split; [apply P0; intros q [<-|[]]; exact Z0|auto].
    - left. split; [reflexivity|auto].
    - right. split; [exact V|]. split; [|auto]. rewrite !on_app, (cycle_on pid src m Ns).
      destruct (pfo_pre_streaming o); [|rewrite P0 by exact K]; reflexivity. }
  induction T as [h d|h d p ps qs h' out d' out' e he de S E T IH|h d p ps qs h' out d' S E|h d p ps qs f h' out d' S E|h d p ps qs v h' out d' S E|h d p ps qs v h' out f S E];
    intros A P B L; [apply starts_stretch; apply starts_nil| | | | |]; destruct (tables_split _ _ _ L) as [L1 L2];
    destruct (W _ _ _ _ _ A P B L1 S) as [(On & H)|(V & On & A' & B')]; try discriminate.
  - apply hand_ok in E. subst out. destruct (H eq_refl) as (A' & P' & B'). change (p :: ps) with ([p] ++ ps). rewrite !on_app, On. apply stretch_app. apply IH; auto.
  - apply hand_ok in E. subst out. change (p :: ps) with ([p] ++ ps). rewrite !on_app, On. apply starts_stretch. apply starts_app.
    eapply stream_prefix; eauto.
  - apply starts_stretch. eapply starts_hand; [exact E|]. rewrite On. apply starts_nil.
  - apply starts_stretch. eapply starts_hand; [exact E|]. rewrite On. apply starts_nil.
  - apply starts_stretch. eapply starts_hand; [exact E|]. rewrite On. apply starts_nil.
  - apply starts_stretch. eapply starts_hand; [exact E|]. rewrite On. apply on_head.
  - apply starts_stretch. eapply starts_hand; [exact E|]. rewrite On. apply starts_nil.
  - apply starts_stretch. eapply starts_hand; [exact E|]. rewrite On. apply on_head.
Qed.

(** PID 0. *)
Lemma all_on : forall l, (forall q, In q l -> p_pid q = 0) -> on 0 l = l.
Proof.
  induction l as [|q l IH]; intros H; [reflexivity|]. rewrite on_cons, (H q (or_introl eq_refl)), IH by (intros; apply H; cbn; auto). reflexivity.
Qed.

Lemma kept_tail : forall h p a acc, acc = a ++ pats h ->
  exists b, acc ++ on 0 [p] = b ++ (if p_pid p =? 0 then (if p_pusi p then [] else pats h) ++ [p] else pats h).
Proof.
  intros h p a acc ->. rewrite on_cons. cbn [on filter]. unfold on. cbn [filter]. destruct (p_pid p =? 0).
  - destruct (p_pusi p); [exists (a ++ pats h)|exists a]; cbn; rewrite <- ?app_assoc; reflexivity.
  - exists a. rewrite app_nil_r. reflexivity.
Qed.

Lemma program_stretch_pat : pfo_pre_streaming o = false -> forall k h d ps out e h' d', trans step k h d ps out e h' d' ->
  alone 0 h -> only_pats h -> begun h = false -> (forall x, In x (tables stage ps) -> left_alone o 0 x) ->
  forall a acc, acc = a ++ pats h -> stretch (on 0 out) (acc ++ on 0 ps).
Proof.
  intros Pr k h d ps out e h' d' T. assert (Nn : 0 <> 0x1FFF) by discriminate.
  assert (W : forall h p qs v h' a acc, alone 0 h -> only_pats h -> begun h = false -> (forall x, In x (tables stage [p]) -> left_alone o 0 x) ->
    acc = a ++ pats h -> step h p qs v h' ->
    (exists b, acc ++ on 0 [p] = b ++ on 0 qs) /\
    ((v = Go /\ on 0 qs = [] /\ alone 0 h' /\ only_pats h' /\ begun h' = false /\ exists b, acc ++ on 0 [p] = b ++ pats h') \/
     v <> Go \/ (v = Go /\ alone 0 h' /\ begun h' = true))).
  { clear -Pr Nn. intros h p qs v h' a acc A P B L Ea S. destruct (kept_tail h p a acc Ea) as [b Eb].
    pose proof (wait_step 0 Nn h p qs v h' A P B L S) as X. cbv zeta in X. rewrite Eb.
    destruct X as [(_ & _ & _ & V & Q)|[(A' & P' & B' & V & [(Pt & _)|(Q & K & _)])|(A' & B' & V & Np & src & m & Ns & Q & K & _)]]; [|congruence| |].
    - split; [|auto]. destruct Q as [->|(_ & g & -> & G & Eg)]; [exists (b ++ (if p_pid p =? 0 then (if p_pusi p then [] else pats h) ++ [p] else pats h)); symmetry; apply app_nil_r|].
      exists b. rewrite (all_on (pats g)) by exact G. rewrite Eg. reflexivity.
    - subst qs. split; [eexists; symmetry; apply app_nil_r|]. left. repeat (split; [solve [auto]|]). rewrite K. exists b. reflexivity.
    - rewrite Pr in Q. split; [|auto]. exists b. subst qs. rewrite !on_app, (cycle_on 0 src m Ns), (on_none 0 [p]); [|intros q [<-|[]]; auto].
      rewrite app_nil_r. rewrite all_on by exact K. reflexivity. }
  induction T as [h d|h d p ps qs h' out d' out' e he de S E T IH|h d p ps qs h' out d' S E|h d p ps qs f h' out d' S E|h d p ps qs v h' out d' S E|h d p ps qs v h' out f S E];
    intros A P B L a acc Ea; [exists [], (acc ++ on 0 []); reflexivity| | | | |]; destruct (tables_split _ _ _ L) as [L1 L2];
    destruct (W _ _ _ _ _ _ _ A P B L1 Ea S) as [[b Eb] H]; change (p :: ps) with ([p] ++ ps); rewrite (on_app 0 [p] ps), app_assoc.
  - apply hand_ok in E. subst out. rewrite on_app. destruct H as [(_ & On & A' & P' & B' & b' & Eb')|[H|(_ & A' & B')]]; [|congruence|].
    + rewrite On. eapply IH; eauto.
    + rewrite Eb, <- app_assoc. apply stretch_app. apply starts_stretch. apply starts_app. eapply stream_prefix; eauto.
  - rewrite Eb, <- app_assoc. apply stretch_app. apply starts_stretch. eapply starts_hand; [exact E|]. eexists. reflexivity.
  - rewrite Eb, <- app_assoc. apply stretch_app. apply starts_stretch. eapply starts_hand; [exact E|]. eexists. reflexivity.
  - rewrite Eb, <- app_assoc. apply stretch_app. apply starts_stretch. eapply starts_hand; [exact E|]. eexists. reflexivity.
  - rewrite Eb, <- app_assoc. apply stretch_app. apply starts_stretch. eapply starts_hand; [exact E|]. eexists. reflexivity.
Qed.

Lemma program_stretch_pre : pfo_pre_streaming o = true -> forall k h d ps out e h' d', trans step k h d ps out e h' d' ->
  alone 0 h -> only_pats h -> begun h = false -> (forall x, In x (tables stage ps) -> left_alone o 0 x) -> starts (on 0 out) (on 0 ps).
Proof.
  intros Pr k h d ps out e h' d' T. assert (Nn : 0 <> 0x1FFF) by discriminate.
  assert (W : forall h p qs v h', alone 0 h -> only_pats h -> begun h = false -> (forall x, In x (tables stage [p]) -> left_alone o 0 x) -> step h p qs v h' ->
    (v = Go /\ on 0 qs = on 0 [p] /\ alone 0 h' /\ only_pats h' /\ begun h' = false) \/ (v <> Go /\ qs = []) \/
    (v = Go /\ on 0 qs = on 0 [p] /\ alone 0 h' /\ begun h' = true)).
  { clear -Pr Nn. intros h p qs v h' A P B L S. pose proof (wait_step 0 Nn h p qs v h' A P B L S) as X. cbv zeta in X.
    destruct X as [(_ & _ & _ & V & Q)|[(A' & P' & B' & V & [(_ & Z0 & ->)|(-> & K & N0)])|(A' & B' & V & Np & src & m & Ns & Q & K & _)]].
    - right. left. split; [exact V|]. destruct Q as [Q|(Q & _)]; [exact Q|congruence].
    - left. auto.
    - left. split; [exact V|]. split; [|auto]. rewrite (on_none 0 [p]); [reflexivity|]. intros q [<-|[]]. auto.
    - right. right. split; [exact V|]. split; [|auto]. rewrite Pr in Q. subst qs. cbn [app]. rewrite on_app, (cycle_on 0 src m Ns). reflexivity. }
  induction T as [h d|h d p ps qs h' out d' out' e he de S E T IH|h d p ps qs h' out d' S E|h d p ps qs f h' out d' S E|h d p ps qs v h' out d' S E|h d p ps qs v h' out f S E];
    intros A P B L; [apply starts_nil| | | | |]; destruct (tables_split _ _ _ L) as [L1 L2];
    destruct (W _ _ _ _ _ A P B L1 S) as [(V & On & A' & P' & B')|[(V & ->)|(V & On & A' & B')]]; try congruence.
  - apply hand_ok in E. subst out. change (p :: ps) with ([p] ++ ps). rewrite !on_app, On. apply starts_app. apply IH; auto.
  - apply hand_ok in E. subst out. change (p :: ps) with ([p] ++ ps). rewrite !on_app, On. apply starts_app. eapply stream_prefix; eauto.
  - eapply starts_hand; [exact E|apply starts_nil].
  - eapply starts_hand; [exact E|apply starts_nil].
  - eapply starts_hand; [exact E|]. rewrite On. apply on_head.
  - eapply starts_hand; [exact E|apply starts_nil].
  - eapply starts_hand; [exact E|]. rewrite On. apply on_head.
  - eapply starts_hand; [exact E|]. rewrite On. apply on_head.
  - eapply starts_hand; [exact E|apply starts_nil].
  - eapply starts_hand; [exact E|]. rewrite On. apply on_head.
Qed.

Lemma program_stretch : forall k d ps out e h' d' pid, trans step k [] d ps out e h' d' -> pid <> 0x1FFF ->
  (forall x, In x (tables stage ps) -> left_alone o pid x) -> stretch (on pid out) (on pid ps).
Proof.
  intros k d ps out e h' d' pid T Nn L.
  assert (A : alone pid []) by (split; [intros x []|discriminate]). assert (P : only_pats []) by (intros q []).
  destruct (Z.eq_dec pid 0) as [->|N0].
  - destruct (pfo_pre_streaming o) eqn:Pr.
    + apply starts_stretch. eapply program_stretch_pre; eauto.
    + apply (program_stretch_pat Pr k [] d ps out e h' d' T A P eq_refl L [] []). reflexivity.
  - eapply program_stretch_other; eauto.
Qed.

(** * The PMT PID *)
Section Pmt.
Hypothesis some_packets : forall m, (1 <= npackets m)%nat.
Variable mpid : Z.
Hypothesis not_pat : mpid <> 0.

(** [l] are packets of PMTs in turn, after the packet [i] of [t]. *)
Fixpoint follow (prev : option (pmt * nat)) (l : list packet) : Prop :=
  match l with
  | [] => True
  | q :: r => exists u j, p_content q = GenPmt u j /\
      match prev with None => True | Some (t, i) => j = O \/ (u = t /\ j = S i mod npackets t)%nat end /\
      follow (Some (u, j)) r
  end.
Lemma follow_made : forall l prev, follow prev l -> Forall made_pmt l.
Proof. induction l as [|q l IH]; intros prev F; constructor; destruct F as (u & j & E & _ & F); [exists u, j; exact E|eauto]. Qed.
Lemma follow_turn : forall l prev, follow prev l -> in_turn (pmt_order npackets) l.
Proof.
  induction l as [|q l IH]; intros prev F a x y b E; [destruct a; discriminate|].
  destruct F as (u & j & Eq & _ & F). destruct a as [|z a]; cbn in E.
  - injection E as -> ->. destruct F as (u' & j' & E' & C & _). exists u, j, u', j'. auto.
  - injection E as -> ->. eapply IH; eauto.
Qed.
Lemma follow_prefix : forall l m prev, follow prev (l ++ m) -> follow prev l.
Proof. induction l as [|q l IH]; intros m prev F; [exact I|]. destruct F as (u & j & E & C & F). exists u, j. repeat split; auto. eapply IH. exact F. Qed.

Definition calm_pmt (h : past) : Prop :=
  (forall x, In x (tabs h) -> (forall t q, listing (pfo_sid o) x = Some (t, q) -> q = mpid) /\
     (forall m, service_pmt (pfo_sid o) x = Some m -> fst x = mpid /\ pmt_pcr_pid m <> mpid)).
Definition next_ok (h : past) (t : pmt) (i : nat) : Prop :=
  forall src m, pmt_now o h = Some (src, m) ->
    (pmt_count o h mod npackets (reduced o m) = 0 \/ (reduced o m = t /\ pmt_count o h mod npackets t = S i mod npackets t))%nat.

Lemma mod_0 : forall n, (0 mod n = 0)%nat.
Proof. intros [|n]; [reflexivity|apply Nat.mod_0_l; discriminate]. Qed.

Lemma count_tab : forall h pid b, service_pmt_from o (pid, b) = None -> pmt_now o (Tab pid b :: h) = pmt_now o h /\ pmt_count o (Tab pid b :: h) = pmt_count o h.
Proof. intros h pid b E. unfold pmt_now. cbn [tabs latest pmt_count]. rewrite E. auto. Qed.
Lemma next_tab : forall h pid b t i, next_ok h t i -> next_ok (Tab pid b :: h) t i.
Proof.
  intros h pid b t i N src m E. destruct (service_pmt_from o (pid, b)) as [v|] eqn:Ef.
  - left. cbn [pmt_count]. rewrite Ef. apply mod_0.
  - destruct (count_tab h pid b Ef) as [E1 E2]. rewrite E2. apply (N src). congruence.
Qed.
Lemma next_hear : forall ts h p t i, next_ok h t i -> next_ok (hear h p ts) t i.
Proof.
  intros ts h p t i N. unfold hear. rewrite <- map_rev. generalize (rev ts). clear ts. intros ts. induction ts as [|x ts IH]; [exact N|].
  cbn [map app]. apply next_tab. exact IH.
Qed.
Lemma calm_pmt_hear : forall h p ts, calm_pmt h -> delivered base_pids (pfo_sid o) stage (tabs h) p ts ->
  (forall x, In x (tables stage [p]) -> (forall t q, listing (pfo_sid o) x = Some (t, q) -> q = mpid) /\
     (forall m, service_pmt (pfo_sid o) x = Some m -> fst x = mpid /\ pmt_pcr_pid m <> mpid)) -> calm_pmt (hear h p ts).
Proof.
  intros h p ts C D L x Hx. rewrite tabs_hear in Hx. apply in_app_or in Hx as [Hx|Hx]; [|auto]. apply in_rev in Hx. apply L. eapply delivered_tables; eauto.
Qed.
Lemma calm_now : forall h src m, calm_pmt h -> pmt_now o h = Some (src, m) -> src = mpid /\ pmt_pcr_pid m <> mpid.
Proof. intros h src m C E. destruct (pmt_now_in h src m E) as (x & Hx & S & <-). apply (proj2 (C x Hx) m S). Qed.

Lemma S_mod : forall c n, (1 <= n)%nat -> (S c mod n = S (c mod n) mod n)%nat.
Proof. intros c n H. change (S c) with (1 + c)%nat. change (S (c mod n)) with (1 + c mod n)%nat. rewrite Nat.add_mod_idemp_r by lia. reflexivity. Qed.

(** Streaming; the PMT PID is known. *)
Definition tuned_in (h : past) : Prop := pmt_now o h <> None -> pmt_pid o h = mpid.

Lemma pid_hear : forall h p ts, calm_pmt (hear h p ts) -> pmt_pid o h = mpid -> pmt_pid o (hear h p ts) = mpid.
Proof.
  intros h p ts C E. unfold pmt_pid in *. destruct (latest (listing (pfo_sid o)) (tabs (hear h p ts))) as [[t q]|] eqn:El.
  - apply latest_some_in in El as (x & Hx & L). apply (proj1 (C x Hx) t q L).
  - rewrite FilterProofs.latest_none in El. destruct (latest (listing (pfo_sid o)) (tabs h)) as [[t q]|] eqn:E0; [|exact E].
    apply latest_some_in in E0 as (x & Hx & L). rewrite (El x) in L; [discriminate|]. rewrite tabs_hear. apply in_or_app. auto.
Qed.

Lemma pmt_stream : forall h p qs v h' t i, calm_pmt h -> begun h = true -> pmt_pid o h = mpid -> next_ok h t i ->
  (forall x, In x (tables stage [p]) -> (forall t q, listing (pfo_sid o) x = Some (t, q) -> q = mpid) /\
     (forall m, service_pmt (pfo_sid o) x = Some m -> fst x = mpid /\ pmt_pcr_pid m <> mpid)) ->
  step h p qs v h' ->
  (v <> Go /\ qs = []) \/
  (v = Go /\ calm_pmt h' /\ begun h' = true /\ pmt_pid o h' = mpid /\
     ((on mpid qs = [] /\ next_ok h' t i) \/
      (exists u j, on mpid qs = [pmt_packet mpid u j] /\ (j = O \/ (u = t /\ j = S i mod npackets t)%nat) /\ next_ok h' u j))).
Proof.
  intros h p qs v h' t i C B Ep N L (ts & D & [[_ E]|[_ E]]).
  { injection E as -> -> ->. left. split; [discriminate|reflexivity]. }
  pose proof (calm_pmt_hear h p ts C D L) as C1. assert (B1 : begun (hear h p ts) = true) by (rewrite begun_hear; exact B).
  pose proof (pid_hear h p ts C1 Ep) as Ep1. pose proof (next_hear ts h p t i N) as N1.
  set (g := hear h p ts) in *. clearbody g. unfold react in E. rewrite B1 in E. unfold streaming in E.
  destruct (given_up o g); [injection E as -> -> ->; left; split; [discriminate|reflexivity]|].
  destruct (pmt_now o g) as [[src m]|] eqn:Em; [|injection E as -> -> ->; right; refine (conj eq_refl (conj C1 (conj B1 (conj Ep1 (or_introl _))))); auto].
  destruct (calm_now g src m C1 Em) as [Es Npc].
  assert (Pass : forall g', (g' = g \/ exists c, g' = Clk c :: g) -> (p_pid p = pmt_pcr_pid m -> p_pid p <> mpid) -> (qs, v, h') = pass npackets o g' p ->
    (v <> Go /\ qs = []) \/
    (v = Go /\ calm_pmt h' /\ begun h' = true /\ pmt_pid o h' = mpid /\
     ((on mpid qs = [] /\ next_ok h' t i) \/
      (exists u j, on mpid qs = [pmt_packet mpid u j] /\ (j = O \/ (u = t /\ j = S i mod npackets t)%nat) /\ next_ok h' u j)))).
  { intros g' Hg _ Eg.
    assert (G1 : calm_pmt g') by (destruct Hg as [->|[c ->]]; exact C1).
    assert (G2 : begun g' = true) by (destruct Hg as [->|[c ->]]; exact B1).
    assert (G3 : pmt_pid o g' = mpid) by (destruct Hg as [->|[c ->]]; exact Ep1).
    assert (G4 : next_ok g' t i) by (destruct Hg as [->|[c ->]]; exact N1).
    assert (G5 : pmt_now o g' = Some (src, m)) by (destruct Hg as [->|[c ->]]; exact Em).
    clear Hg. unfold pass in Eg. rewrite G5, G3 in Eg.
    destruct (Z.eqb_spec (p_pid p) mpid) as [Q|Q].
    - destruct (Z.eqb_spec src (p_pid p)) as [_|X]; [|congruence]. injection Eg as -> -> ->. right.
      refine (conj eq_refl (conj G1 (conj G2 (conj G3 (or_intror _))))). exists (reduced o m), (pmt_count o g' mod npackets (reduced o m))%nat.
      split; [rewrite on_cons; cbn [pmt_packet p_pid]; rewrite Es, Z.eqb_refl; reflexivity|].
      split; [destruct (G4 src m G5) as [Z|[Z1 Z2]]; [auto|right; rewrite Z1; auto]|].
      intros src' m' E'. change (pmt_now o (PmtSent :: g')) with (pmt_now o g') in E'. rewrite G5 in E'. injection E' as <- <-.
      right. split; [reflexivity|]. cbn [pmt_count]. apply S_mod. apply some_packets.
    - destruct (removed o m (p_pid p)); injection Eg as -> -> ->; right; refine (conj eq_refl (conj G1 (conj G2 (conj G3 (or_introl _))))); (split; [|exact G4]); [reflexivity|].
      apply on_none. intros q [<-|[]]. exact Q. }
  assert (Out : forall c', (c' = g \/ exists c, c' = Clk c :: g) -> p_pid p = pmt_pcr_pid m -> qs = [p] -> v = Go -> h' = c' ->
    v = Go /\ calm_pmt h' /\ begun h' = true /\ pmt_pid o h' = mpid /\
     ((on mpid qs = [] /\ next_ok h' t i) \/
      (exists u j, on mpid qs = [pmt_packet mpid u j] /\ (j = O \/ (u = t /\ j = S i mod npackets t)%nat) /\ next_ok h' u j))).
  { intros c' Hc Ec -> -> ->. assert (On : on mpid [p] = []) by (apply on_none; intros q [<-|[]]; congruence).
    destruct Hc as [->|[c ->]]; refine (conj eq_refl (conj C1 (conj B1 (conj Ep1 (or_introl _))))); auto. }
  destruct (Z.eqb_spec (p_pid p) (pmt_pcr_pid m)) as [Q|Q].
  - destruct (p_pcr p) as [c|].
    + destruct (window o (Clk c :: g)) as [[ws we]|].
      * destruct (reached c we); [injection E as -> -> ->; left; split; [discriminate|reflexivity]|].
        eapply Pass; [right; exists c; reflexivity|congruence|exact E].
      * injection E as -> -> ->. right. apply (Out (Clk c :: g)); eauto.
    + injection E as -> -> ->. right. apply (Out g); auto.
  - eapply Pass; [left; reflexivity|congruence|exact E].
Qed.

Lemma follow_hand : forall (k : sink packet) d qs out x prev, hand k d qs = (out, x) -> follow prev (on mpid qs) -> follow prev (on mpid out).
Proof.
  intros k d qs out x prev E F. destruct (hand_split _ _ _ _ _ E) as (rest & -> & _). rewrite on_app in F. eapply follow_prefix. exact F.
Qed.

Lemma pmt_stream_run : forall k h d ps out e h' d', trans step k h d ps out e h' d' -> forall t i, calm_pmt h -> begun h = true -> pmt_pid o h = mpid -> next_ok h t i ->
  (forall x, In x (tables stage ps) -> (forall t q, listing (pfo_sid o) x = Some (t, q) -> q = mpid) /\
     (forall m, service_pmt (pfo_sid o) x = Some m -> fst x = mpid /\ pmt_pcr_pid m <> mpid)) -> follow (Some (t, i)) (on mpid out).
Proof.
  intros k h d ps out e h' d' T.
  induction T as [h d|h d p ps qs h' out d' out' e he de S E T IH|h d p ps qs h' out d' S E|h d p ps qs f h' out d' S E|h d p ps qs v h' out d' S E|h d p ps qs v h' out f S E];
    intros t i C B Ep N L; [exact I| | | | |]; destruct (tables_split _ _ _ L) as [L1 L2];
    destruct (pmt_stream _ _ _ _ _ _ _ C B Ep N L1 S) as [(V & Q)|(V & C' & B' & Ep' & H)]; try congruence.
  - apply hand_ok in E. subst out. rewrite on_app. destruct H as [[On N']|(u & j & On & J & N')]; rewrite On; cbn [app].
    + apply IH; auto.
    + exists u, j. split; [reflexivity|]. split; [exact J|]. apply IH; auto.
  - subst qs. eapply follow_hand; [exact E|exact I].
  - subst qs. eapply follow_hand; [exact E|exact I].
  - subst qs. eapply follow_hand; [exact E|exact I].
  - eapply follow_hand; [exact E|]. destruct H as [[On N']|(u & j & On & J & N')]; rewrite On; [exact I|]. exists u, j. repeat split; auto.
  - subst qs. eapply follow_hand; [exact E|exact I].
  - eapply follow_hand; [exact E|]. destruct H as [[On N']|(u & j & On & J & N')]; rewrite On; [exact I|]. exists u, j. repeat split; auto.
Qed.

Lemma count_hear : forall h p ts, pmt_count o h = O -> pmt_count o (hear h p ts) = O.
Proof.
  intros h p ts E. unfold hear. rewrite <- map_rev. generalize (rev ts). clear ts. intros ts. induction ts as [|x ts IH]; [exact E|].
  cbn [map app pmt_count]. destruct (service_pmt_from o _); [reflexivity|exact IH].
Qed.

Lemma follow_cycle : forall u k a prev l, (a + k = npackets u)%nat -> (1 <= k)%nat ->
  match prev with None => True | Some (t, i) => a = O \/ (u = t /\ a = S i) end ->
  follow (Some (u, npackets u - 1)%nat) l -> follow prev (map (pmt_packet mpid u) (seq a k) ++ l).
Proof.
  induction k as [|k IH]; intros a prev l E K Pv F; [lia|]. cbn [seq map app follow]. exists u, a. split; [reflexivity|]. split.
  - destruct prev as [[t i]|]; [|exact I]. destruct Pv as [Pv|[<- ->]]; [auto|]. right. split; [reflexivity|]. symmetry. apply Nat.mod_small. lia.
  - destruct k as [|k].
    + cbn. replace a with (npackets u - 1)%nat by lia. exact F.
    + apply IH; [lia|lia|auto|exact F].
Qed.

Lemma pmt_wait : forall h p qs v h', calm_pmt h -> only_pats h -> begun h = false -> pmt_count o h = O ->
  (forall x, In x (tables stage [p]) -> (forall t q, listing (pfo_sid o) x = Some (t, q) -> q = mpid) /\
     (forall m, service_pmt (pfo_sid o) x = Some m -> fst x = mpid /\ pmt_pcr_pid m <> mpid)) ->
  step h p qs v h' ->
  (on mpid qs = [] /\ calm_pmt h' /\ only_pats h' /\ begun h' = false /\ pmt_count o h' = O) \/
  (v = Go /\ calm_pmt h' /\ begun h' = true /\ pmt_pid o h' = mpid /\ pmt_count o h' = O /\ exists u, on mpid qs = pmt_cycle npackets mpid u).
Proof.
  intros h p qs v h' A P B N L (ts & D & [[_ E]|[_ E]]).
  { injection E as -> -> ->. left. auto. }
  pose proof (calm_pmt_hear h p ts A D L) as A1. assert (B1 : begun (hear h p ts) = false) by (rewrite begun_hear; exact B).
  assert (Eg : pats (hear h p ts) = pats h) by apply pats_hear.
  assert (P1 : only_pats (hear h p ts)) by (unfold only_pats; rewrite Eg; exact P).
  pose proof (count_hear h p ts N) as N1.
  set (g := hear h p ts) in *. clearbody g. unfold react in E. rewrite B1 in E. unfold waiting in E.
  destruct (given_up o g); [injection E as -> -> ->; left; auto|].
  destruct ((p_pid p =? 0) && pfo_pre_streaming o) eqn:Pre.
  { apply andb_prop in Pre as [Z0 Pr]. apply Z.eqb_eq in Z0. injection E as -> -> ->. left. split; [|auto]. apply on_none. intros q [<-|[]]. congruence. }
  set (g1 := if p_pid p =? 0 then PatPkt p :: g else g) in *.
  assert (A2 : calm_pmt g1) by (unfold g1; destruct (p_pid p =? 0); exact A1).
  assert (B2 : begun g1 = false) by (unfold g1; destruct (p_pid p =? 0); exact B1).
  assert (N2 : pmt_count o g1 = O) by (unfold g1; destruct (p_pid p =? 0); exact N1).
  assert (P2 : only_pats g1).
  { unfold g1. destruct (Z.eqb_spec (p_pid p) 0) as [Z0|Z0]; [|exact P1].
    intros q Hq. cbn [pats] in Hq. apply in_app_or in Hq as [Hq|[<-|[]]]; [|exact Z0]. destruct (p_pusi p); [contradiction|auto]. }
  assert (Em1 : pmt_now o g1 = pmt_now o g) by (unfold g1; destruct (p_pid p =? 0); reflexivity).
  clearbody g1.
  unfold service_pcr in E. destruct (event_now o g); [|injection E as -> -> ->; left; auto].
  destruct (pmt_now o g) as [[src m]|] eqn:Em; [|injection E as -> -> ->; left; auto].
  destruct (Z.eqb_spec (p_pid p) (pmt_pcr_pid m)) as [Ep|Ep]; [|injection E as -> -> ->; left; auto].
  destruct (p_pcr p) as [c|]; [|injection E as -> -> ->; left; auto].
  destruct (window o (Clk c :: g1)) as [[ws we]|]; [|injection E as -> -> ->; left; auto].
  destruct (reached c we); [injection E as -> -> ->; left; auto|].
  destruct (reached c ws); [|injection E as -> -> ->; left; auto].
  assert (Np : forall l, only_pats l -> on mpid (pats l) = []) by (intros l Hl; apply on_none; intros q Hq; rewrite (Hl q Hq); auto).
  unfold begin in E. assert (Em2 : pmt_now o (Clk c :: g1) = Some (src, m)) by exact Em1. rewrite Em2 in E.
  change (pats (Clk c :: g1)) with (pats g1) in E.
  destruct (negb (pfo_pre_streaming o) && match pats g1 with [] => true | _ => false end) eqn:Y; [injection E as -> -> ->; left; auto|].
  destruct (calm_now g1 src m A2 Em1) as [Es Npc].
  destruct (Z.eqb_spec src (pmt_pid o (Clk c :: g1))) as [Eq|Eq].
  - injection E as -> -> ->. right. refine (conj eq_refl (conj A2 (conj eq_refl (conj _ (conj N2 _))))); [rewrite <- Es; symmetry; exact Eq|].
    exists (reduced o m). rewrite !on_app, (on_none mpid [p]); [|intros q [<-|[]]; congruence].
    replace (on mpid (if pfo_pre_streaming o then [] else pats g1)) with (@nil packet) by (destruct (pfo_pre_streaming o); [reflexivity|symmetry; apply Np; exact P2]).
    rewrite app_nil_r, Es. cbn [app]. unfold pmt_cycle. generalize (seq 0 (npackets (reduced o m))). induction l as [|i l IH]; [reflexivity|].
    cbn [map]. rewrite on_cons. cbn [pmt_packet p_pid]. rewrite Z.eqb_refl, IH. reflexivity.
  - injection E as -> -> ->. left. split; [|auto]. destruct (pfo_pre_streaming o); [reflexivity|apply Np; exact P2].
Qed.

Lemma pmt_run : forall k h d ps out e h' d', trans step k h d ps out e h' d' -> calm_pmt h -> only_pats h -> begun h = false -> pmt_count o h = O ->
  (forall x, In x (tables stage ps) -> (forall t q, listing (pfo_sid o) x = Some (t, q) -> q = mpid) /\
     (forall m, service_pmt (pfo_sid o) x = Some m -> fst x = mpid /\ pmt_pcr_pid m <> mpid)) -> follow None (on mpid out).
Proof.
  intros k h d ps out e h' d' T.
  assert (Cy : forall u, follow None (pmt_cycle npackets mpid u)).
  { intros u. pose proof (follow_cycle u (npackets u) 0 None [] eq_refl (some_packets u) I I) as F. rewrite app_nil_r in F. exact F. }
  assert (St : forall h p qs v h', calm_pmt h -> only_pats h -> begun h = false -> pmt_count o h = O ->
    (forall x, In x (tables stage [p]) -> (forall t q, listing (pfo_sid o) x = Some (t, q) -> q = mpid) /\
     (forall m, service_pmt (pfo_sid o) x = Some m -> fst x = mpid /\ pmt_pcr_pid m <> mpid)) ->
    step h p qs v h' -> follow None (on mpid qs)).
  { intros h0 p0 qs v h0' C P B N L S. destruct (pmt_wait _ _ _ _ _ C P B N L S) as [(-> & _)|(_ & _ & _ & _ & _ & u & ->)]; [exact I|apply Cy]. }
  induction T as [h d|h d p ps qs h' out d' out' e he de S E T IH|h d p ps qs h' out d' S E|h d p ps qs f h' out d' S E|h d p ps qs v h' out d' S E|h d p ps qs v h' out f S E];
    intros C P B N L; [exact I| | | | |]; destruct (tables_split _ _ _ L) as [L1 L2];
    try (eapply follow_hand; [exact E|]; eapply St; eauto; fail).
  apply hand_ok in E. subst out. rewrite on_app. destruct (pmt_wait _ _ _ _ _ C P B N L1 S) as [(-> & C' & P' & B' & N')|(_ & C' & B' & Ep & N' & u & ->)].
  - apply IH; auto.
  - unfold pmt_cycle. apply follow_cycle; [reflexivity|apply some_packets|exact I|].
    eapply pmt_stream_run; eauto. intros src m _. left. rewrite N'. apply mod_0.
Qed.

Lemma program_pmts : forall k d ps out e h' d', trans step k [] d ps out e h' d' ->
  (forall x, In x (tables stage ps) -> (forall t q, listing (pfo_sid o) x = Some (t, q) -> q = mpid) /\
     (forall m, service_pmt (pfo_sid o) x = Some m -> fst x = mpid /\ pmt_pcr_pid m <> mpid)) ->
  Forall made_pmt (on mpid out) /\ in_turn (pmt_order npackets) (on mpid out).
Proof.
  intros k d ps out e h' d' T L. assert (F : follow None (on mpid out)).
  { eapply pmt_run; eauto; [intros x []|intros q []]. }
  split; [eapply follow_made; exact F|eapply follow_turn; exact F].
Qed.
End Pmt.
End Program.
