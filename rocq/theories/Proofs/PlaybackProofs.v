(** C104: a program can be read back from the file of record-service. *)
From Coq Require Import ZArith Lia List Bool Sorted.
From Verif Require Import Base.Outcome Base.Util Model.Clock Model.Ts Model.ServiceRecorder
  Spec.ClockSpec Spec.FilterSpec Spec.RecorderSpec Spec.JournalSpec Spec.ScheduleSpec Proofs.ScheduleProofs.
Import ListNotations.
Open Scope Z_scope.

Section Begin.
Variables (sid : Z) (stage : nat) (local : nat -> Z) (cs : Z).

Lemma heed_as_note : forall ts h n ops pid h' n' ops', heed sid local h n ops pid ts = (h', n', ops') -> n = List.length (filter is_time ops) ->
  note sid local h ops pid ts = (h', ops') /\ n' = List.length (filter is_time ops').
Proof.
  induction ts as [|t ts IH]; intros h n ops pid h' n' ops' E N; cbn [heed note] in *.
  - injection E as <- <- <-. auto.
  - subst n. apply IH in E; [exact E|]. rewrite filter_app, app_length. reflexivity.
Qed.
Lemma after_note : forall h n ops p ts h' n' ops', after sid stage local h n ops p ts h' n' ops' -> n = List.length (filter is_time ops) ->
  hears sid stage h p ts /\ note sid local h (ops ++ clock_packet sid h p) (p_pid p) ts = (h', ops') /\ n' = List.length (filter is_time ops').
Proof.
  intros h n ops p ts h' n' ops' [H E] N. split; [exact H|]. apply heed_as_note in E; [exact E|].
  rewrite filter_app, app_length, <- N.
  assert (X : filter is_time (clock_packet sid h p) = []) by (unfold clock_packet; destruct (negb _ && _); [destruct (p_pcr p)|]; reflexivity).
  rewrite X. cbn [List.length]. lia.
Qed.
Lemma diary_len : forall h n ops w ps log, diary sid stage local cs h n ops w ps log -> zlen log = zlen ps.
Proof. induction 1; [reflexivity|]. unfold moment in *. rewrite !zlen_cons. lia. Qed.
Lemma begins_record : forall h n ops ps t now log, begins sid stage local cs h n ops ps t now log -> n = List.length (filter is_time ops) ->
  exists r, record sid stage local h ops ps (Some r) /\ zlen r = zlen log.
Proof.
  induction 1 as [h n ops p ps ts h' n' ops' t now log A Nr B IH|h n ops p ps ts h' n' ops' t now log A Sn La T D]; intros N;
    destruct (after_note _ _ _ _ _ _ _ _ A N) as (H & E & N').
  - destruct (IH N') as (r & R & L). exists r. split; [|exact L]. eapply R_wait; eauto.
  - exists ps. split; [|symmetry; eapply diary_len; eauto]. eapply R_ready; eauto. split; [exact Sn|congruence].
Qed.
End Begin.

(** The packets heard between two moments. *)
Lemma sorted_cut : forall (r : list packet) (log : list moment) lo hi, zlen r = zlen log -> Sorted Z.le (map snd log) -> lo <= hi ->
  let n t := zlen (filter (fun x : moment => snd x <? t) log) in
  ztake (n hi - n lo) (zdrop (n lo) r) = map fst (filter (fun x => (lo <=? snd (snd x)) && (snd (snd x) <? hi)) (combine r log)).
Proof.
  induction r as [|p r IH]; intros log lo hi L So Le n.
  - unfold zdrop, ztake. rewrite skipn_nil, firstn_nil. reflexivity.
  - destruct log as [|[x now] log]; [unfold zlen in L; cbn in L; lia|].
    assert (L' : zlen r = zlen log) by (rewrite !zlen_cons in L; lia).
    assert (So' : Sorted Z.le (map snd log)) by (inversion So; assumption).
    assert (Ge : forall t, t <= now -> filter (fun x : moment => snd x <? t) log = []).
    { intros t Ht. apply filter_nothing. intros y Y. apply Z.ltb_ge. apply Sorted_StronglySorted in So; [|intros u v w; lia].
      inversion So as [|? ? ? F]; subst. rewrite Forall_forall in F. specialize (F (snd y) (in_map snd log y Y)). cbn in F. lia. }
    cbn [combine filter snd]. unfold n. cbn [filter snd].
    specialize (IH log lo hi L' So' Le). cbv beta zeta in IH.
    destruct (Z.ltb_spec now lo) as [A|A].
    + rewrite (proj2 (Z.ltb_lt now hi)) by lia. rewrite (proj2 (Z.leb_gt lo now)) by lia. cbn [andb].
      rewrite !zlen_cons. rewrite <- IH. f_equal; [lia|]. pose proof (zlen_nonneg _ (filter (fun x : moment => snd x <? lo) log)) as Q.
      unfold zdrop. rewrite Z2Nat.inj_add by lia. reflexivity.
    + rewrite (proj2 (Z.leb_le lo now)) by lia. rewrite (Ge lo) in IH by lia. rewrite (Ge lo) by lia. rewrite zlen_nil in *.
      destruct (Z.ltb_spec now hi) as [B|B]; cbn [andb map fst].
      * rewrite <- IH. rewrite zlen_cons. pose proof (zlen_nonneg _ (filter (fun x : moment => snd x <? hi) log)) as Q.
        unfold zdrop. cbn [Z.to_nat skipn]. unfold ztake. rewrite !Z.sub_0_r. rewrite Z2Nat.inj_add by lia. reflexivity.
      * rewrite (Ge hi) in IH by lia. rewrite (Ge hi) by lia. rewrite <- IH. reflexivity.
Qed.

(** Where a program starts and ends is among what is reported. *)
Lemma reported_start : forall id at_ start ring log i j l, reported id at_ start ring log i j l -> forall m, (i < m <= j)%nat ->
  exists time pos, edge id at_ start ring log m time pos /\ In (KStart, id m, stamp time, pos) l.
Proof.
  intros id at_ start ring log i j l R. induction R as [i F|i time pos E|i j time pos l E R IH]; intros m H; [lia|lia|].
  destruct (Nat.eq_dec m (S i)) as [->|N]; [exists time, pos; split; [exact E|right; left; reflexivity]|].
  destruct (IH m ltac:(lia)) as (t & p & Ed & I). exists t, p. split; [exact Ed|right; right; exact I].
Qed.
Lemma reported_end : forall id at_ start ring log i j l, reported id at_ start ring log i j l -> forall m, (i <= m <= j)%nat ->
  (exists x, In x log /\ at_ (S m) <= snd x) ->
  exists time pos, edge id at_ start ring log (S m) time pos /\ In (KEnd, id m, stamp time, pos) l.
Proof.
  intros id at_ start ring log i j l R. induction R as [i F|i time pos E|i j time pos l E R IH]; intros m H (x & X & G).
  - exfalso. replace m with i in G by lia. rewrite Forall_forall in F. destruct (F x X). lia.
  - replace m with i by lia. exists time, pos. split; [exact E|left; reflexivity].
  - destruct (Nat.eq_dec m i) as [->|N]; [exists time, pos; split; [exact E|left; reflexivity]|].
    destruct (IH m ltac:(lia) (ex_intro _ x (conj X G))) as (t & p & Ed & I). exists t, p. split; [exact Ed|right; right; exact I].
Qed.
