(** C103: the starts and ends of programs in the messages of record-service. *)
From Coq Require Import ZArith Lia List Bool Sorted.
From Verif Require Import Base.Outcome Base.Util Model.Clock Model.Ts Model.ServiceRecorder
  Spec.ClockSpec Spec.FilterSpec Spec.RecorderSpec Spec.JournalSpec Spec.ScheduleSpec Proofs.RecorderJournal.
Import ListNotations.
Open Scope Z_scope.

Lemma marks_app : forall a b, marks (a ++ b) = marks a ++ marks b.
Proof.
  induction a as [|m a IH]; intros b; [reflexivity|]. destruct m as [| |? ?|k ? ? ? ? ? ?]; cbn; try apply IH.
  destruct k; cbn; rewrite ?IH; reflexivity.
Qed.
Lemma marks_chunk : forall cs ring start d now w, marks (chunk_messages cs ring start d now w) = [].
Proof.
  intros. unfold chunk_messages, about. destruct (d_running d); [|reflexivity]. destruct (present (d_eit d)); reflexivity.
Qed.

Section Play.
Variables start ring : Z.
Fixpoint play (d : desk) (w : Z) (log : list moment) : list mark :=
  match log with
  | [] => []
  | (x, now) :: r => let (ms, d') := turn d x now ((start + w) mod ring) in marks ms ++ play d' (w + 188) r
  end.

Lemma played : forall sid stage local bytes cs, (forall p, zlen (bytes p) = 188) ->
  forall h n ops d w ps ms ok, recording sid stage local bytes cs ring start h n ops d w ps ms ok -> ok = true ->
  exists log, diary sid stage local cs h n ops w ps log /\ marks ms = play d w log.
Proof.
  intros sid stage local bytes cs L. induction 1 as [|h n ops d w p ps ts h' n' ops' now d' ms ms' ok A T Tu D R IH|
    h n ops d w p ps ts h' n' ops' now now2 d' ms ms' ok A T T2 Tu D R IH| |]; intros E; try discriminate.
  - exists []. split; [constructor|reflexivity].
  - rewrite L in *. destruct (IH E) as (log & Dy & M). exists ((news sid p ts, now) :: log). split.
    + econstructor; [exact A|exact T|]. rewrite (proj2 (Z.eqb_eq _ _) D). exact Dy.
    + cbn [play]. rewrite Tu, marks_app, M. reflexivity.
  - rewrite L in *. destruct (IH E) as (log & Dy & M). exists ((news sid p ts, now) :: log). split.
    + econstructor; [exact A|exact T|]. rewrite (proj2 (Z.eqb_neq _ _) D). exact Dy.
    + cbn [play]. rewrite Tu, !marks_app, marks_chunk, M. reflexivity.
Qed.

Variable id : nat -> Z.
Variable at_ : nat -> Z.
Hypothesis S0 : schedule id at_.
Notation names := (names id at_).
Notation announced := (announced id at_).
Notation quiet := (quiet id at_).

Lemma at_mono : forall i j, (i <= j)%nat -> at_ i <= at_ j.
Proof. induction 1; [lia|]. destruct (S0 m). lia. Qed.
Lemma at_lt : forall i j, (i < j)%nat -> at_ i < at_ j.
Proof. intros i j H. destruct (S0 i). pose proof (at_mono (S i) j H). lia. Qed.
Lemma names_inj : forall i j t, names i t -> names j t -> i = j.
Proof.
  intros i j t (e & P & _ & A & _) (f & Q & _ & B & _). rewrite P in Q. injection Q as <-.
  destruct (Nat.lt_trichotomy i j) as [H|[H|H]]; [|exact H|]; pose proof (at_lt _ _ H); lia.
Qed.
Lemma quiet_none : forall i now, now < at_ i -> quiet i (None, now).
Proof. intros i now H. split; [exact H|]. intros t X. discriminate. Qed.
Lemma quiet_some : forall i j t now, now < at_ i -> names j t -> j <> i -> quiet i (Some t, now).
Proof. intros i j t now H N X. split; [exact H|]. intros u Y Z. injection Y as <-. apply X. eapply names_inj; eauto. Qed.
Lemma unann : forall i j t, names j t -> j <> i -> unannounced id at_ i (Some t).
Proof. intros i j t N X u Y Z. injection Y as <-. apply X. eapply names_inj; eauto. Qed.

Lemma ann_le : forall i log j, announced i log j -> (i <= j)%nat.
Proof. induction 1; lia. Qed.
(** Until the next program is announced it is not over. *)
Lemma ann_soon : forall i log j, announced i log j -> (i < j)%nat -> forall now, Forall (fun x => now <= snd x) log -> now < at_ (S (S i)).
Proof.
  induction 1 as [i|i n r j A IH|i t n r j N A IH|i t n r j N L A IH]; intros H now F.
  - lia.
  - inversion F; subst. auto.
  - inversion F; subst. auto.
  - inversion F; subst. cbn in *. lia.
Qed.

Lemma zlen_S : forall (x : moment) l, zlen (x :: l) = zlen l + 1.
Proof. intros. unfold zlen. cbn [List.length]. lia. Qed.
(** The same boundaries, one packet earlier. *)
Lemma edge_shift : forall w x log i time pos, edge id at_ (start + (w + 188)) ring log i time pos -> quiet i x ->
  edge id at_ (start + w) ring (x :: log) i time pos.
Proof.
  intros w x log i time pos E Q. destruct E as [a t now r E F N|a y now r E F U G].
  - replace (start + (w + 188) + 188 * zlen a) with (start + w + 188 * zlen (x :: a)) by (rewrite zlen_S; lia).
    eapply (Edge_news _ _ _ _ _ _ (x :: a)); [cbn; rewrite E; reflexivity|constructor; auto|exact N].
  - replace (start + (w + 188) + 188 * zlen a) with (start + w + 188 * zlen (x :: a)) by (rewrite zlen_S; lia).
    eapply (Edge_time _ _ _ _ _ _ (x :: a)); [cbn; rewrite E; reflexivity|constructor; auto|exact U|exact G].
Qed.
Lemma rep_shift : forall w x log i j l, reported id at_ (start + (w + 188)) ring log i j l -> (forall m, (i < m)%nat -> quiet m x) ->
  reported id at_ (start + w) ring (x :: log) i j l.
Proof.
  intros w x log i j l R. induction R as [i F|i time pos E|i j time pos l E R IH]; intros Q.
  - constructor. constructor; [apply Q; lia|exact F].
  - constructor. apply edge_shift; [exact E|apply Q; lia].
  - constructor; [apply edge_shift; [exact E|apply Q; lia]|]. apply IH. intros m H. apply Q. lia.
Qed.

Lemma ends : forall i t, names i t -> ends_at t = Some (at_ (S i)).
Proof.
  intros i t (e & P & I & A & D & E). unfold ends_at. rewrite P. rewrite (proj2 (Z.ltb_lt _ _) D). rewrite A, E. reflexivity.
Qed.
Lemma same : forall i t u, names i t -> names i u -> other_event t u = false.
Proof. intros i t u (e & P & I & _) (f & Q & J & _). unfold other_event. rewrite P, Q, I, J, Z.eqb_refl. reflexivity. Qed.
Lemma other : forall i t u, names i t -> names (S i) u -> other_event t u = true.
Proof.
  intros i t u (e & P & I & _) (f & Q & J & _). unfold other_event. rewrite P, Q, I, J.
  destruct (S0 i) as [_ N]. destruct (Z.eqb_spec (id i) (id (S i))); [congruence|reflexivity].
Qed.
Lemma about_marks : forall k i t time pos, names i t -> k <> KUpdate -> marks (about k t time pos) = [(k, id i, stamp time, pos)].
Proof. intros k i t time pos (e & P & I & _) H. unfold about. rewrite P. cbn. destruct k; try congruence; rewrite I; reflexivity. Qed.

(** One step, with the EIT in force afterwards naming the same program. *)
Lemma step_same : forall i d x now pos t, names i (d_eit d) -> t = match x with Some t => t | None => d_eit d end -> names i t ->
  (d_running d = true -> now < at_ (S i) -> turn d x now pos = ([], mkDesk t true (d_since d))) /\
  (d_running d = true -> at_ (S i) <= now -> turn d x now pos = (about KEnd t (at_ (S i)) pos, mkDesk t false (at_ (S i), pos))) /\
  (d_running d = false -> turn d x now pos = ([], mkDesk t false (d_since d))).
Proof.
  intros i d x now pos t N -> M. unfold turn. rewrite (same _ _ _ N M). split; [|split].
  - intros R L. rewrite R, (ends _ _ M). rewrite (proj2 (Z.leb_gt _ _) L). reflexivity.
  - intros R L. rewrite R, (ends _ _ M). rewrite (proj2 (Z.leb_le _ _) L). reflexivity.
  - intros R. rewrite R. reflexivity.
Qed.

Definition sorted (log : list moment) : Prop := StronglySorted Z.le (map snd log).
Lemma sorted_tail : forall x log, sorted (x :: log) -> sorted log /\ Forall (fun y => snd x <= snd y) log.
Proof. intros x log H. inversion H; subst. split; [assumption|]. apply Forall_map. assumption. Qed.

Lemma scheduled : forall log i j w d, names i (d_eit d) -> announced i log j -> sorted log ->
  (d_running d = true -> reported id at_ (start + w) ring log i j (play d w log)) /\
  (d_running d = false -> (i = j /\ play d w log = []) \/
    ((i < j)%nat /\ exists l, play d w log = (KStart, id (S i), stamp (fst (d_since d)), snd (d_since d)) :: l /\
      reported id at_ (start + w) ring log (S i) j l)).
Proof.
  induction log as [|[x now] log IH]; intros i j w d N A So.
  - inversion A; subst. split; intros R; [|left; auto]. cbn. constructor. constructor.
  - destruct (sorted_tail _ _ So) as [So' Fa]. cbn [snd] in Fa.
    assert (Case : (announced i log j /\ exists t, t = match x with Some t => t | None => d_eit d end /\ names i t /\ unannounced id at_ (S i) x /\
        (forall m, (i < m)%nat -> now < at_ m -> quiet m (x, now))) \/
      (announced (S i) log j /\ exists t, x = Some t /\ names (S i) t /\ now < at_ (S (S i)))).
    { inversion A as [|? ? ? ? A'|? t ? ? ? N' A'|? t ? ? ? N' L A']; subst.
      - left. split; [exact A'|]. exists (d_eit d). split; [reflexivity|]. split; [exact N|]. split; [intros u Y; discriminate|].
        intros m H L. apply quiet_none, L.
      - left. split; [exact A'|]. exists t. split; [reflexivity|]. split; [exact N'|]. split; [eapply unann; [exact N'|lia]|].
        intros m H L. eapply quiet_some; [exact L|exact N'|lia].
      - right. split; [exact A'|]. exists t. auto. }
    cbn [play]. destruct Case as [(A' & t & Et & Nt & Un & Qu)|(A' & t & -> & Nt & L)].
    + destruct (step_same i d x now ((start + w) mod ring) t N Et Nt) as (S1 & S2 & S3). split; intros R.
      * destruct (Z.lt_ge_cases now (at_ (S i))) as [L|L].
        -- rewrite (S1 R L). cbn [marks app]. apply rep_shift.
           ++ apply (IH i j (w + 188) (mkDesk t true (d_since d)) Nt A' So'). reflexivity.
           ++ intros m H. apply Qu; [exact H|]. pose proof (at_mono (S i) m H). lia.
        -- rewrite (S2 R L). rewrite (about_marks KEnd i t _ _ Nt ltac:(discriminate)). cbn [app].
           assert (Ed : edge id at_ (start + w) ring ((x, now) :: log) (S i) (at_ (S i)) ((start + w) mod ring)).
           { replace (start + w) with (start + w + 188 * zlen (@nil moment)) at 2 by (unfold zlen; cbn; lia).
             eapply (Edge_time _ _ _ _ _ _ []); [reflexivity|constructor|exact Un|exact L]. }
           destruct (IH i j (w + 188) (mkDesk t false (at_ (S i), (start + w) mod ring)) Nt A' So') as [_ I].
           destruct (I eq_refl) as [[<- ->]|(H & l & -> & Re)]; [constructor; exact Ed|]. cbn [d_since fst snd].
           apply E_next; [exact Ed|]. apply rep_shift; [exact Re|]. intros m Hm. apply Qu; [lia|].
           pose proof (ann_soon _ _ _ A' H now Fa). pose proof (at_mono (S (S i)) m Hm). lia.
      * rewrite (S3 R). cbn [marks app]. destruct (IH i j (w + 188) (mkDesk t false (d_since d)) Nt A' So') as [_ I].
        destruct (I eq_refl) as [[<- E]|(H & l & E & Re)]; [left; auto|]. right. split; [exact H|]. exists l. split; [exact E|].
        apply rep_shift; [exact Re|]. intros m Hm. apply Qu; [lia|].
        pose proof (ann_soon _ _ _ A' H now Fa). pose proof (at_mono (S (S i)) m Hm). lia.
    + pose proof (ann_le _ _ _ A') as Le.
      assert (Sh : forall d', names (S i) (d_eit d') -> d_running d' = true ->
        reported id at_ (start + w) ring ((Some t, now) :: log) (S i) j (play d' (w + 188) log)).
      { intros d' N' R'. apply rep_shift; [apply (IH (S i) j (w + 188) d' N' A' So'); exact R'|].
        intros m Hm. eapply quiet_some; [|exact Nt|lia]. pose proof (at_mono (S (S i)) m Hm). lia. }
      unfold turn. rewrite (other _ _ _ N Nt). split; intros R; rewrite R.
      * rewrite marks_app, (about_marks KEnd i _ _ _ N), (about_marks KStart (S i) _ _ _ Nt) by discriminate. cbn [app].
        apply E_next; [|apply Sh; auto].
        replace (start + w) with (start + w + 188 * zlen (@nil moment)) at 2 by (unfold zlen; cbn; lia).
        eapply (Edge_news _ _ _ _ _ _ []); [reflexivity|constructor|exact Nt].
      * right. split; [lia|]. rewrite (about_marks KStart (S i) _ _ _ Nt) by discriminate. cbn [app]. eexists. split; [reflexivity|].
        apply Sh; auto.
Qed.
End Play.

Lemma diary_det : forall sid stage local cs h n ops w ps log, diary sid stage local cs h n ops w ps log ->
  forall log', diary sid stage local cs h n ops w ps log' -> log = log'.
Proof.
  intros sid stage local cs. induction 1 as [|h n ops w p ps ts h' n' ops' now log A T D IH]; intros log' D'.
  - inversion D'. reflexivity.
  - inversion D' as [|? ? ? ? ? ? ts2 h2 n2 ops2 now2 log2 A2 T2 D2]; subst.
    destruct (after_det _ _ _ _ _ _ _ _ _ _ _ _ _ _ _ A A2) as (<- & <- & <- & <-). rewrite (tells_det _ _ _ _ T T2). f_equal. auto.
Qed.

Lemma begun : forall sid stage local bytes cs ring start, (forall p, zlen (bytes p) = 188) ->
  forall h n ops ps ms ok, waiting sid stage local bytes cs ring start h n ops ps ms ok -> ok = true ->
  forall t now log, begins sid stage local cs h n ops ps t now log ->
  marks ms = (if over t now then [] else marks (about KStart t now start)) ++ play start ring (mkDesk t (negb (over t now)) (now, start)) 0 log.
Proof.
  intros sid stage local bytes cs ring start L.
  induction 1 as [|h n ops p ps ts h' n' ops' ms ok A Nr W IH|h n ops p ps ts h' n' ops' t0 now0 ms ok A Sn La T R]; intros E t now log B.
  - inversion B.
  - inversion B as [? ? ? ? ? ts2 h2 n2 ops2 ? ? ? A2 Nr2 B2|? ? ? ? ? ts2 h2 n2 ops2 ? ? ? A2 Sn2 La2 T2 D2]; subst;
      destruct (after_det _ _ _ _ _ _ _ _ _ _ _ _ _ _ _ A A2) as (<- & <- & <- & <-); auto.
    exfalso. apply Nr. split; [exact Sn2|congruence].
  - inversion B as [? ? ? ? ? ts2 h2 n2 ops2 ? ? ? A2 Nr2 B2|? ? ? ? ? ts2 h2 n2 ops2 ? ? ? A2 Sn2 La2 T2 D2]; subst;
      destruct (after_det _ _ _ _ _ _ _ _ _ _ _ _ _ _ _ A A2) as (<- & <- & <- & <-).
    + exfalso. apply Nr2. split; [exact Sn|congruence].
    + rewrite La in La2. injection La2 as <-. rewrite (tells_det _ _ _ _ T T2) in *.
      destruct (played start ring sid stage local bytes cs L _ _ _ _ _ _ _ _ R eq_refl) as (log2 & Dy & M).
      rewrite (diary_det _ _ _ _ _ _ _ _ _ _ D2 _ Dy). cbn [marks]. rewrite marks_app, M. destruct (over t0 now); reflexivity.
Qed.

Lemma heard : forall sid stage local bytes cs ring start, (forall p, zlen (bytes p) = 188) ->
  forall h n ops ps ms ok, waiting sid stage local bytes cs ring start h n ops ps ms ok -> ok = true ->
  ms = [] \/ exists t now log, begins sid stage local cs h n ops ps t now log.
Proof.
  intros sid stage local bytes cs ring start L.
  induction 1 as [|h n ops p ps ts h' n' ops' ms ok A Nr W IH|h n ops p ps ts h' n' ops' t0 now0 ms ok A Sn La T R]; intros E.
  - left. reflexivity.
  - destruct (IH E) as [->|(t & now & log & B)]; [left; reflexivity|]. right. exists t, now, log. eapply B_wait; eauto.
  - right. subst ok. destruct (played start ring sid stage local bytes cs L _ _ _ _ _ _ _ _ R eq_refl) as (log & Dy & _).
    exists t0, now0, log. eapply B_start; eauto.
Qed.

Lemma filter_all : forall (A : Type) (f : A -> bool) l, (forall x, In x l -> f x = true) -> filter f l = l.
Proof. induction l as [|x l IH]; intros H; [reflexivity|]. cbn. rewrite (H x (or_introl eq_refl)), IH; [reflexivity|]. intros y Y. apply H. right. exact Y. Qed.
Lemma filter_nothing : forall (A : Type) (f : A -> bool) l, (forall x, In x l -> f x = false) -> filter f l = [].
Proof. induction l as [|x l IH]; intros H; [reflexivity|]. cbn. rewrite (H x (or_introl eq_refl)), IH; [reflexivity|]. intros y Y. apply H. right. exact Y. Qed.

Lemma edge_on_time : forall id at_ start ring log i time pos, Sorted Z.le (map snd log) ->
  (forall t now, In (Some t, now) log -> names id at_ i t -> at_ i <= now) ->
  edge id at_ start ring log i time pos ->
  pos = (start + 188 * zlen (filter (fun x : moment => snd x <? at_ i) log)) mod ring /\
  at_ i <= time /\ exists x, In x log /\ time <= snd x.
Proof.
  intros id at_ start ring log i time pos So Nt E.
  assert (K : forall (a : list moment) x r, log = a ++ x :: r -> Forall (quiet id at_ i) a -> at_ i <= snd x ->
    zlen a = zlen (filter (fun x : moment => snd x <? at_ i) log)).
  { intros a x r -> Q L. rewrite filter_app. rewrite map_app in So.
    apply Sorted_StronglySorted in So; [|intros u v w; lia]. f_equal.
    assert (Ha : filter (fun x : moment => snd x <? at_ i) a = a).
    { apply filter_all. intros y Y. apply Z.ltb_lt. rewrite Forall_forall in Q. apply Q, Y. }
    assert (Hr : filter (fun x : moment => snd x <? at_ i) (x :: r) = []).
    { apply filter_nothing. intros y Y. apply Z.ltb_ge. clear - So L Y. revert So. induction a as [|b a IH]; intros So; cbn in So.
      - inversion So as [|? ? ? F]; subst. destruct Y as [<-|Y]; [exact L|]. rewrite Forall_forall in F. specialize (F (snd y) (in_map snd r y Y)). lia.
      - inversion So; subst. auto. }
    rewrite Ha, Hr, app_nil_r. reflexivity. }
  destruct E as [a t now r E Q N|a x now r E Q U L].
  - assert (L : at_ i <= now) by (apply (Nt t); [rewrite E; apply in_or_app; right; left; reflexivity|exact N]).
    rewrite <- (K a _ r E Q L). split; [reflexivity|]. split; [exact L|]. exists (Some t, now).
    split; [rewrite E; apply in_or_app; right; left; reflexivity|cbn; lia].
  - rewrite <- (K a _ r E Q L). split; [reflexivity|]. split; [lia|]. exists (x, now).
    split; [rewrite E; apply in_or_app; right; left; reflexivity|exact L].
Qed.
