(** Reading the file of record-service by its messages. *)
From Coq Require Import ZArith Lia List Bool.
From Verif Require Import Proofs.RingProofs Proofs.RingMain
  Base.Outcome Base.Util Model.Clock Model.Ts Model.RingFileSink Model.ServiceRecorder
  Spec.ClockSpec Spec.StdoutSpec Spec.FilterSpec Spec.TuneSpec Spec.FileSpec Spec.RecorderSpec Spec.JournalSpec Spec.ReadSpec
  Proofs.RecorderProofs Proofs.RecorderMain Proofs.RecorderJournal.
Import ListNotations.
Open Scope Z_scope.

(** ** Positions of events *)
Section Laid.
Variables cs ring start : Z.

Fixpoint laid (k lo : Z) (ms : list message) : Prop :=
  match ms with
  | [] => True
  | MChunk _ _ :: r => laid (k + 1) lo r
  | MEvent KStart _ _ _ _ _ p :: r => p = (start + lo) mod ring /\ laid k lo r
  | MEvent KEnd _ _ _ _ _ p :: r =>
      let h := bytes_at cs k p in
      h mod 188 = 0 /\ lo <= h /\ p = (start + h) mod ring /\ laid k h r
  | _ :: r => laid k lo r
  end.

Lemma chunks_cons : forall m ms, chunks (m :: ms) = (match m with MChunk _ _ => 1 | _ => 0 end) + chunks ms.
Proof. intros m ms. unfold chunks. destruct m; cbn [chunk_positions]; rewrite ?zlen_cons; lia. Qed.

Lemma laid_drop : forall a k lo b, laid k lo (a ++ b) -> laid (k + chunks a) (begins cs k lo a) b.
Proof.
  induction a as [|m a IH]; intros k lo b L; [cbn; rewrite Z.add_0_r; auto|].
  rewrite chunks_cons. destruct m as [|r|t p|[| |] x y z e t p]; cbn [app laid begins] in *; rewrite ?Z.add_0_l.
  - auto.
  - auto.
  - apply IH in L. rewrite Z.add_assoc. auto.
  - apply IH, L.
  - auto.
  - apply IH, L.
Qed.

Lemma laid_later : forall b k lo x y z e t p c, laid k lo (b ++ MEvent KEnd x y z e t p :: c) ->
  let h := bytes_at cs (k + chunks b) p in (lo mod 188 = 0 -> h mod 188 = 0) /\ lo <= h /\ p = (start + h) mod ring.
Proof.
  induction b as [|m b IH]; intros k lo x y z e t p c L h.
  - cbn [app laid] in L. subst h. change (chunks []) with 0. rewrite Z.add_0_r. cbv zeta in L. tauto.
  - subst h. rewrite chunks_cons. destruct m as [|r|t0 p0|[| |] x0 y0 z0 e0 t0 p0]; cbn [app laid] in L; rewrite ?Z.add_0_l; try (eapply IH; apply L).
    + rewrite Z.add_assoc. eapply IH; apply L.
    + destruct L as [L1 [L2 [L3 L]]]. destruct (IH _ _ _ _ _ _ _ _ _ L) as [A [B C]].
      split; [intros _; auto|]. split; [lia|auto].
Qed.

Lemma begins_mult : forall a k lo b, laid k lo (a ++ b) -> lo mod 188 = 0 -> begins cs k lo a mod 188 = 0.
Proof.
  induction a as [|m a IH]; intros k lo b L H; [auto|].
  destruct m as [|r|t0 p0|[| |] x0 y0 z0 e0 t0 p0]; cbn [app laid begins] in *; eauto; try (eapply IH; [apply L|auto]).
  apply L.
Qed.

Lemma laid_skip : forall k lo d t p ms, laid k lo (about KUpdate d t p ++ ms) <-> laid k lo ms.
Proof. intros. unfold about. destruct (present d); cbn; tauto. Qed.
End Laid.

Section Journal.
Variables (sid : Z) (stage : nat) (local : nat -> Z) (bytes : packet -> list Z) (cs nc start : Z).
Hypothesis Geo : valid_geometry cs nc start.
Hypothesis Len : forall p, zlen (bytes p) = 188.
Notation ring := (cs * nc).

Lemma here_is : forall w, bytes_at cs (1 + w / cs) ((start + w) mod ring) = w.
Proof.
  intros w. destruct Geo as [G1 [G2 [G3 [G4 G5]]]]. unfold bytes_at.
  assert (H : ((start + w) mod ring) mod cs = w mod cs).
  { assert (R0 : ring mod cs = 0) by (rewrite Z.mul_comm; apply Z.mod_mul; lia). assert (0 < ring) by nia. rewrite mod_mod_div by (auto; lia). rewrite Z.add_mod, G5 by lia. rewrite Z.add_0_l. apply Z.mod_mod. lia. }
  rewrite H. pose proof (Z.div_mod w cs ltac:(lia)). lia.
Qed.

Lemma turn_laid : forall d nw now w lo ms d' ms', turn d nw now ((start + w) mod ring) = (ms, d') ->
  w mod 188 = 0 -> lo <= w -> snd (d_since d) = (start + lo) mod ring ->
  exists lo', lo' <= w /\ snd (d_since d') = (start + lo') mod ring /\
    (laid cs ring start (1 + w / cs) lo' ms' -> laid cs ring start (1 + w / cs) lo (ms ++ ms')) /\ chunks ms = 0.
Proof.
  intros d nw now w lo ms d' ms' T M L Sn. unfold turn in T. set (t := match nw with Some t => t | None => d_eit d end) in *. clearbody t.
  pose proof (here_is w) as Hh.
  destruct (other_event (d_eit d) t) eqn:Oe.
  - unfold other_event in Oe. unfold about in T. destruct (present (d_eit d)) as [ea|]; [|discriminate]. destruct (present t) as [eb|]; [|discriminate].
    destruct (d_running d); injection T as <- <-.
    + exists w. cbn [d_since snd]. split; [lia|]. split; [auto|]. split; [|reflexivity]. intros Q. cbn [app laid]. rewrite Hh. auto 6.
    + exists lo. cbn [d_since]. split; [lia|]. split; [auto|]. split; [|reflexivity]. intros Q. cbn [app laid]. auto.
  - destruct (d_running d).
    + destruct (ends_at t) as [z|] eqn:Ez.
      * destruct (z <=? now); injection T as <- <-.
        -- unfold about. unfold ends_at in Ez. destruct (present t) as [eb|]; [|discriminate].
           exists w. cbn [d_since snd]. split; [lia|]. split; [auto|]. split; [|reflexivity]. intros Q. cbn [app laid]. rewrite Hh. auto 6.
        -- exists lo. cbn [d_since]. auto 6.
      * injection T as <- <-. exists lo. cbn [d_since]. auto 6.
    + injection T as <- <-. exists lo. cbn [d_since]. auto 6.
Qed.

Lemma next_chunk : forall w, (w + 188) / cs <> w / cs -> (w + 188) / cs = w / cs + 1.
Proof.
  intros w N. destruct Geo as [G1 [G2 _]].
  assert (C8 : 8192 <= cs). { pose proof (Z.div_mod cs 8192 ltac:(lia)). assert (0 < cs / 8192) by lia. lia. }
  pose proof (Z.div_mod w cs ltac:(lia)). pose proof (Z.mod_pos_bound w cs ltac:(lia)).
  destruct (Z.lt_ge_cases (w mod cs + 188) cs) as [Q|Q].
  - exfalso. apply N. symmetry. apply Z.div_unique with (w mod cs + 188); lia.
  - symmetry. apply Z.div_unique with (w mod cs + 188 - cs); lia.
Qed.

Lemma chunk_laid : forall k lo d now w ms, laid cs ring start (k + 1) lo ms -> laid cs ring start k lo (chunk_messages cs ring start d now w ++ ms).
Proof.
  intros k lo d now w ms L. unfold chunk_messages. rewrite <- app_assoc. destruct (d_running d); [apply laid_skip|]; exact L.
Qed.

Lemma recording_laid : forall h n ops d w ps ms ok, recording sid stage local bytes cs ring start h n ops d w ps ms ok ->
  forall lo, w mod 188 = 0 -> lo <= w -> snd (d_since d) = (start + lo) mod ring -> laid cs ring start (1 + w / cs) lo ms.
Proof.
  assert (Step : forall w, w mod 188 = 0 -> (w + 188) mod 188 = 0).
  { intros w H. replace (w + 188) with (w + 1 * 188) by lia. rewrite Z.mod_add by lia. auto. }
  induction 1 as [h n ops d w|h n ops d w p ps ts h' n' ops' now d' ms ms' ok A T Tu Dv R IH
    |h n ops d w p ps ts h' n' ops' now now2 d' ms ms' ok A T T2 Tu Dv R IH
    |h n ops d w p ps ts h' n' ops' now d' ms A T Tu
    |h n ops d w p ps ts h' n' ops' now now2 d' ms A T T2 Tu Dv]; intros lo M L Sn.
  - exact I.
  - rewrite Len in *. destruct (turn_laid _ _ _ _ _ _ _ ms' Tu M L Sn) as [lo' [L' [S' [Q _]]]]. apply Q.
    rewrite <- Dv. apply IH; auto; lia.
  - rewrite Len in *. destruct (turn_laid _ _ _ _ _ _ _ (chunk_messages cs ring start d' now2 (w + 188) ++ ms') Tu M L Sn) as [lo' [L' [S' [Q _]]]]. apply Q.
    apply chunk_laid. replace (1 + w / cs + 1) with (1 + (w + 188) / cs) by (rewrite (next_chunk _ Dv); lia). apply IH; auto; lia.
  - destruct (turn_laid _ _ _ _ _ _ _ [] Tu M L Sn) as [lo' [L' [S' [Q _]]]]. rewrite app_nil_r in Q. apply Q. exact I.
  - destruct (turn_laid _ _ _ _ _ _ _ (chunk_messages cs ring start d' now2 (w + zlen (bytes p)) ++ []) Tu M L Sn) as [lo' [L' [S' [Q _]]]].
    rewrite app_nil_r in Q. apply Q. rewrite <- (app_nil_r (chunk_messages _ _ _ _ _ _)). apply chunk_laid. exact I.
Qed.

Lemma waiting_laid : forall h n ops ps ms ok, waiting sid stage local bytes cs ring start h n ops ps ms ok -> laid cs ring start 0 0 ms.
Proof.
  induction 1 as [h n ops|h n ops p ps ts h' n' ops' ms ok A N W IH|h n ops p ps ts h' n' ops' t now ms ok A Se La T R]; auto; [exact I|].
  destruct Geo as [G1 [G2 [G3 [G4 G5]]]].
  assert (S0 : (start + 0) mod ring = start) by (rewrite Z.add_0_r; apply Z.mod_small; lia).
  pose proof (recording_laid _ _ _ _ _ _ _ _ R 0 eq_refl (Z.le_refl _) (eq_sym S0)) as L. rewrite Z.div_0_l in L by lia.
  cbn [laid]. destruct (over t now); [exact L|]. unfold about. destruct (present t); [|exact L]. cbn [app laid]. split; [auto|exact L].
Qed.
End Journal.

(** ** Chunk messages and reports of the ring *)
Lemma answers : forall rs n tr a b, (length b < n)%nat -> answered rs tr -> tr = a ++ b ->
  zlen (announced (ring_calls b)) <= chunks (messages b).
Proof.
  intros rs. induction n as [|n IH]; intros tr a b Ln A E; [lia|]. destruct b as [|x b]; [apply Z.le_refl|].
  cbn [length] in Ln.
  assert (Skip : forall m, zlen (announced (ring_calls b)) <= chunks (messages b) -> x = Msg m -> zlen (announced (ring_calls (x :: b))) <= chunks (messages (x :: b))).
  { intros m H ->. cbn [ring_calls messages]. rewrite chunks_cons. destruct m; lia. }
  assert (Rest : zlen (announced (ring_calls b)) <= chunks (messages b)).
  { apply (IH tr (a ++ [x]) b); auto; [lia|]. rewrite <- app_assoc. exact E. }
  destruct x as [m|e]; [eauto|].
  destruct e; try exact Rest.
  (* a report *)
  destruct (A a pos b E) as [t [r [[_ ->]|[id [x [y [z [e [_ [_ ->]]]]]]]]]].
  - cbn [ring_calls announced messages]. rewrite zlen_cons, chunks_cons.
    assert (Q : zlen (announced (ring_calls r)) <= chunks (messages r)).
    { set (m := Msg (MChunk t (if pos =? rs then 0 else pos))) in *. apply (IH tr (a ++ [Ring (EvNotify pos); m]) r); auto; [cbn in Ln; lia|].
      rewrite E, <- app_assoc. reflexivity. }
    lia.
  - cbn [ring_calls announced messages]. rewrite zlen_cons, !chunks_cons.
    assert (Q : zlen (announced (ring_calls r)) <= chunks (messages r)).
    { set (m1 := Msg (MEvent KUpdate x y z e t (if pos =? rs then 0 else pos))) in *. set (m2 := Msg (MChunk t (if pos =? rs then 0 else pos))) in *.
      apply (IH tr (a ++ [Ring (EvNotify pos); m1; m2]) r); auto; [cbn in Ln; lia|]. rewrite E, <- app_assoc. reflexivity. }
    lia.
Qed.

Lemma chunks_app : forall a b, chunks (a ++ b) = chunks a + chunks b.
Proof. intros. unfold chunks. rewrite positions_app, zlen_app. auto. Qed.

(** The reader's count is that of the ring, or one behind, just after a report. *)
Lemma counts : forall rs tr a b, answered rs tr -> tr = a ++ b ->
  chunks (messages tr) = 1 + zlen (announced (ring_calls tr)) ->
  chunks (messages a) <= 1 + zlen (announced (ring_calls a)).
Proof.
  intros rs tr a b A E C. pose proof (answers rs (S (length b)) tr a b ltac:(lia) A E) as H. subst tr.
  rewrite messages_app, calls_app, announced_app, chunks_app, zlen_app in C. lia.
Qed.

(** A report comes only after the first chunk message. *)
Lemma parse_chunk : forall ms q, parse ms = Some q -> match q with Quiet | During _ => 1 <= chunks ms | _ => True end.
Proof.
  induction ms as [|m ms IH] using rev_ind; intros q P; [injection P as <-; exact I|].
  rewrite parse_snoc in P. rewrite chunks_app, chunks_cons. change (chunks []) with 0. pose proof (zlen_nonneg _ (chunk_positions ms)) as N. fold (chunks ms) in N.
  destruct (parse ms) as [q0|]; [|discriminate]. specialize (IH _ eq_refl).
  destruct q0 as [| | |id|], m as [|r|t p|[| |] x y z e t p]; cbn [next] in P; try discriminate; try (injection P as <-; try exact I; try lia);
    destruct (_ =? _); try discriminate; injection P as <-; lia.
Qed.

(** All announcements but perhaps one have been answered; when one has not, nothing
    was written since. *)
Definition level (a : list entry) : Prop := zlen (announced (ring_calls a)) <= Z.max 0 (chunks (messages a) - 1).

Lemma count_low : forall rs tr a b, answered rs tr -> tr = a ++ b -> level a \/
  exists a' p c, a = a' ++ Ring (EvNotify p) :: c /\ ring_calls c = [] /\ level a' /\ 1 <= chunks (messages a').
Proof.
  intros rs tr a b A E.
  assert (G : forall n l, (length l < n)%nat -> (exists k, a = k ++ l /\ level k) -> level a \/
    exists a' p c, a = a' ++ Ring (EvNotify p) :: c /\ ring_calls c = [] /\ level a' /\ 1 <= chunks (messages a')).
  { induction n as [|n IH]; intros l Ln [k [Ea Ck]]; [lia|]. destruct l as [|x l]; [left; rewrite app_nil_r in Ea; subst; auto|].
    cbn [length] in Ln.
    assert (Next : forall y r, x :: l = y ++ r -> y <> [] -> level (k ++ y) -> level a \/
      exists a' p c, a = a' ++ Ring (EvNotify p) :: c /\ ring_calls c = [] /\ level a' /\ 1 <= chunks (messages a')).
    { intros y r Ey Ny Cy. apply (IH r).
      - destruct y as [|y0 y]; [congruence|]. injection Ey as -> ->. rewrite app_length in Ln. lia.
      - exists (k ++ y). split; [rewrite Ea, Ey, app_assoc; auto|auto]. }
    unfold level in Ck.
    assert (Lv : forall y, level (k ++ y) <-> zlen (announced (ring_calls k)) + zlen (announced (ring_calls y)) <= Z.max 0 (chunks (messages k) + chunks (messages y) - 1)).
    { intros y. unfold level. rewrite calls_app, messages_app, announced_app, chunks_app, zlen_app. tauto. }
    destruct x as [m|e].
    - apply (Next [Msg m] l); auto; [discriminate|]. rewrite Lv. cbn [ring_calls messages announced]. rewrite chunks_cons. change (chunks []) with 0. change (zlen (@nil Z)) with 0. destruct m; lia.
    - assert (Ot : (forall p, e <> EvNotify p) -> level (k ++ [Ring e])).
      { intros N. rewrite Lv. replace (announced (ring_calls [Ring e])) with (@nil Z) by (destruct e; try reflexivity; exfalso; eapply N; eauto).
        change (chunks (messages [Ring e])) with 0. change (zlen (@nil Z)) with 0. lia. }
      destruct e; try (apply (Next [Ring _] l eq_refl ltac:(discriminate)); apply Ot; discriminate). clear Ot.
      rewrite E, Ea, <- app_assoc in A.
      assert (Q : forall t r id x y z e, (parse (messages k) = Some Quiet /\ l ++ b = Msg (MChunk t (if pos =? rs then 0 else pos)) :: r) \/
                   (parse (messages k) = Some (During id) /\ l ++ b = Msg (MEvent KUpdate x y z e t (if pos =? rs then 0 else pos)) :: Msg (MChunk t (if pos =? rs then 0 else pos)) :: r) ->
                 level a \/ exists a' p c, a = a' ++ Ring (EvNotify p) :: c /\ ring_calls c = [] /\ level a' /\ 1 <= chunks (messages a')).
      { intros t r id x y z e [[P El]|[P El]]; apply parse_chunk in P; cbn iota in P.
        - destruct l as [|m l]; [right; exists k, pos, []; auto|]. injection El as -> El.
          apply (Next [Ring (EvNotify pos); Msg (MChunk t (if pos =? rs then 0 else pos))] l); auto; [discriminate|].
          rewrite Lv. cbn [ring_calls messages announced]. rewrite chunks_cons. change (chunks []) with 0. change (zlen [pos]) with 1. lia.
        - destruct l as [|m l]; [right; exists k, pos, []; auto|]. injection El as -> El.
          destruct l as [|m l]; [right; eexists k, pos, [_]; split; [exact Ea|]; split; [reflexivity|auto]|]. injection El as -> El.
          apply (Next [Ring (EvNotify pos); Msg (MEvent KUpdate x y z e t (if pos =? rs then 0 else pos)); Msg (MChunk t (if pos =? rs then 0 else pos))] l); auto; [discriminate|].
          rewrite Lv. cbn [ring_calls messages announced]. rewrite !chunks_cons. change (chunks []) with 0. change (zlen [pos]) with 1. lia. }
      destruct (A k pos (l ++ b) eq_refl) as [t [r [X|[id [x [y [z [e [P [_ El]]]]]]]]]].
      + apply (Q t r 0 0 0 0 (mkEvent 0 0 0 0)). left. exact X.
      + apply (Q t r id x y z e). right. auto. }
  apply (G (S (length a)) a); [lia|]. exists []. split; [auto|]. apply Z.le_refl.
Qed.

(** ** The window *)
Section Read.
Variables (cs nc start : Z) (ops : list Z) (packets : list (list Z)) (rg : ring) (tr : list entry) (ok : bool).
Hypothesis Geo : valid_geometry cs nc start.
Hypothesis Se : rg_session cs nc start ops packets = Ok (rg, ring_calls tr, ok).
Hypothesis An : answered (cs * nc) tr.
Hypothesis Ch : chunks (messages tr) = 1 + zlen (announced (ring_calls tr)).

Lemma window : forall f0, f_pos f0 = 0 -> forall a b disk, tr = a ++ b -> after_crash (replay f0 (ring_calls a)) disk ->
  forall i, 0 <= i < cs * (chunks (messages a) - 1) -> cs * chunks (messages a) - cs * nc <= i ->
  znth i (concat packets) = Some (disk ((start + i) mod (cs * nc))).
Proof.
  intros f0 F0 a b disk E Cr i Hi Hw.
  pose proof (counts _ _ _ _ An E Ch) as C1.
  assert (Ec : ring_calls tr = ring_calls a ++ ring_calls b) by (rewrite E; apply calls_app).
  destruct Geo as [G1 _].
  assert (W : zlen (written (ring_calls a)) <= cs * chunks (messages a)).
  { destruct (count_low _ _ _ _ An E) as [L|[a' [p [c [Ea [Ec' [L K]]]]]]].
    - destruct (announcements _ _ _ _ _ _ _ _ Geo Se _ _ Ec) as [[_ B] _]. unfold level in L. nia.
    - unfold level in L.
      assert (Ec2 : ring_calls tr = ring_calls a' ++ ring_calls (Ring (EvNotify p) :: c ++ b)) by (rewrite E, Ea, <- app_assoc, calls_app; reflexivity).
      destruct (announcements _ _ _ _ _ _ _ _ Geo Se _ _ Ec2) as [[_ B] _].
      assert (Wa : written (ring_calls a) = written (ring_calls a')).
      { rewrite Ea, calls_app. cbn [ring_calls]. rewrite Ec'. clear. induction (ring_calls a') as [|x l IH]; [reflexivity|]. cbn [app written]. rewrite IH. destruct x; auto. }
      rewrite Wa. assert (chunks (messages a') <= chunks (messages a)).
      { rewrite Ea, messages_app, chunks_app. pose proof (zlen_nonneg _ (chunk_positions (messages (Ring (EvNotify p) :: c)))). unfold chunks at 3. lia. }
      nia. }
  eapply (announced_durable _ _ _ _ _ _ _ _ _ Geo F0 Se); eauto; nia.
Qed.
End Read.

Lemma znth_slice : forall disk ring p n i, 0 <= i < n -> znth i (slice disk ring p n) = Some (disk ((p + i) mod ring)).
Proof.
  intros disk ring p n i Hi. unfold slice, znth. destruct (Z.ltb_spec i 0); [lia|]. rewrite nth_error_map.
  rewrite (nth_error_nth' _ 0%nat) by (rewrite seq_length; lia). rewrite seq_nth by lia. cbn. do 3 f_equal. lia.
Qed.
