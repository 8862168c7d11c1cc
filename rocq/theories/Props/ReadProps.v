(** C69: reading recorded events back from the file of record-service. *)
From Coq Require Import ZArith Lia List Bool.
From Verif Require Import Base.Outcome Base.Util Model.Clock Model.Sink Model.Ts Model.RingFileSink Model.ServiceRecorder
  Spec.ClockSpec Spec.StdoutSpec Spec.FilterSpec Spec.TuneSpec Spec.FileSpec Spec.RecorderSpec Spec.JournalSpec Spec.ReadSpec
  Proofs.RingMain Proofs.RecorderProofs Proofs.RecorderMain Proofs.RecorderJournal Proofs.ReadProofs Props.RecorderProps.
Import ListNotations.
Open Scope Z_scope.

Section Run.
Variables (o : recorder_option) (local : nat -> Z) (bytes : packet -> list Z) (stage : nat) (ops : list Z) (ps : list packet) (code : Z) (s : rec_state).
Hypothesis Ru : runs o local bytes stage ops ps code s.
Hypothesis Len : forall p, zlen (bytes p) = 188.
Notation cs := (rco_chunk_size o).
Notation ring := (rco_chunk_size o * rco_num_chunks o).
Notation start := (rco_start_pos o).

Lemma run_laid : laid cs ring start 0 0 (messages (rc_trace s)).
Proof.
  pose proof Ru as [Geo _]. destruct (journal _ _ _ _ _ _ _ _ Ru Len) as [[_ [M _]]|[ms [ok [W [M _]]]]]; rewrite M; [exact I|].
  apply (waiting_laid _ _ _ _ _ _ _ Geo Len) in W. cbn [laid]. clear -W.
  assert (G : forall ms k lo, laid cs ring start k lo ms -> laid cs ring start k lo (ms ++ [MStop (negb ok)])).
  { clear. induction ms as [|m ms IH]; intros k lo L; [exact I|]. destruct m as [|r|t p|[| |] x y z e t p]; cbn [app laid] in *; auto.
    - destruct L; split; auto.
    - destruct L as [? [? [? ?]]]; repeat split; auto. }
  apply G, W.
Qed.

Lemma event_places : forall a x y z e t1 p1 b x' y' z' e' t2 p2 c,
  messages (rc_trace s) = a ++ MEvent KStart x y z e t1 p1 :: b ++ MEvent KEnd x' y' z' e' t2 p2 :: c ->
  let lo := begins cs 0 0 a in
  let hi := bytes_at cs (chunks (a ++ b)) p2 in
  (exists n1 n2, lo = 188 * n1 /\ hi = 188 * n2 /\ 0 <= n1 <= n2) /\ p1 = (start + lo) mod ring /\ p2 = (start + hi) mod ring.
Proof.
  intros a x y z e t1 p1 b x' y' z' e' t2 p2 c M lo hi. pose proof run_laid as L. rewrite M in L.
  pose proof (begins_mult _ _ _ _ _ _ _ L eq_refl) as M1. pose proof (laid_drop _ _ _ _ _ _ _ L) as L2. rewrite Z.add_0_l in L2. fold lo in L2, M1.
  cbn [laid] in L2. destruct L2 as [P1 L2]. destruct (laid_later _ _ _ _ _ _ _ _ _ _ _ _ _ L2) as [M2 [Le P2]].
  rewrite <- chunks_app in M2, Le, P2. fold hi in M2, Le, P2. specialize (M2 M1).
  assert (L0 : 0 <= lo).
  { assert (G : forall a k l r, laid cs ring start k l (a ++ r) -> l <= begins cs k l a).
    { clear. induction a as [|m a IH]; intros k l r L; [cbn; lia|]. destruct m as [|q|t p|[| |] x y z e t p]; cbn [app laid begins] in *; eauto; try (eapply IH; apply L).
      destruct L as [_ [L1 [_ L]]]. apply IH in L. lia. }
    apply (G _ _ _ _ L). }
  split; [|auto]. exists (lo / 188), (hi / 188). pose proof (Z.div_mod lo 188 ltac:(lia)). pose proof (Z.div_mod hi 188 ltac:(lia)).
  repeat split; lia.
Qed.

Lemma run_window : forall f0, f_pos f0 = 0 -> forall tr1 tr2 disk, rc_trace s = tr1 ++ tr2 -> after_crash (replay f0 (ring_calls tr1)) disk ->
  let k := chunks (messages tr1) in 2 <= k ->
  exists r, record (rco_sid o) stage local [] [] ps (Some r) /\
    forall i, 0 <= i < cs * (k - 1) -> cs * k - ring <= i -> znth i (concat (map bytes r)) = Some (disk ((start + i) mod ring)).
Proof.
  intros f0 F0 tr1 tr2 disk E Cr k K2. pose proof Ru as [Geo _].
  assert (Ke : 2 <= chunks (messages (rc_trace s))).
  { rewrite E, messages_app, chunks_app. pose proof (zlen_nonneg _ (chunk_positions (messages tr2))) as N. fold (chunks (messages tr2)) in N. fold k. lia. }
  destruct (runs_all _ _ _ _ _ _ _ _ Ru) as [[_ [M _]]|[r [ok [Rc [Se [_ [_ [_ [An [Ch _]]]]]]]]]].
  - exfalso. rewrite M in Ke. vm_compute in Ke. auto.
  - destruct r as [r|]; [|exfalso; unfold chunks in Ke; rewrite Ch in Ke; vm_compute in Ke; auto].
    exists r. split; [exact Rc|]. intros i Hi Hw.
    assert (Cc : chunks (messages (rc_trace s)) = 1 + zlen (announced (ring_calls (rc_trace s)))).
    { unfold chunks. rewrite Ch, zlen_cons. unfold zlen. rewrite map_length. lia. }
    eapply (window _ _ _ _ _ _ _ _ Geo Se An Cc f0 F0); eauto.
Qed.

Lemma concat_len : forall r, zlen (concat (map bytes r)) = 188 * zlen r.
Proof. induction r as [|p r IH]; [reflexivity|]. cbn [map concat]. rewrite zlen_app, zlen_cons, IH, Len. lia. Qed.
Lemma concat_drop : forall n r, 0 <= n <= zlen r -> concat (map bytes (zdrop n r)) = zdrop (188 * n) (concat (map bytes r)).
Proof.
  intros n r H. rewrite <- (ztake_zdrop _ n r) at 2. rewrite map_app, concat_app.
  assert (L : zlen (concat (map bytes (ztake n r))) = 188 * n) by (rewrite concat_len, zlen_ztake; lia).
  rewrite zdrop_app_ge by lia. symmetry. apply zdrop_0. lia.
Qed.
Lemma concat_take : forall n r, 0 <= n <= zlen r -> concat (map bytes (ztake n r)) = ztake (188 * n) (concat (map bytes r)).
Proof.
  intros n r H. rewrite <- (ztake_zdrop _ n r) at 2. rewrite map_app, concat_app.
  assert (L : zlen (concat (map bytes (ztake n r))) = 188 * n) by (rewrite concat_len, zlen_ztake; lia).
  rewrite ztake_app_le by lia. symmetry. apply ztake_all. lia.
Qed.

Lemma slice_len : forall disk rs p n, 0 <= n -> zlen (slice disk rs p n) = n.
Proof. intros. unfold slice, zlen. rewrite map_length, seq_length. lia. Qed.

Lemma read_slice : forall r n1 n2 disk p1 rs top low, 0 <= n1 < n2 -> p1 = (start + 188 * n1) mod rs -> 188 * n2 <= top -> low <= 188 * n1 ->
  (forall i, 0 <= i < top -> low <= i -> znth i (concat (map bytes r)) = Some (disk ((start + i) mod rs))) ->
  n2 <= zlen r /\ slice disk rs p1 (188 * (n2 - n1)) = concat (map bytes (ztake (n2 - n1) (zdrop n1 r))).
Proof.
  intros r n1 n2 disk p1 rs top low Nn P1 T L W.
  assert (Hr : n2 <= zlen r).
  { pose proof (W (188 * n2 - 1) ltac:(lia) ltac:(lia)) as X. apply znth_range in X. rewrite concat_len in X. lia. }
  split; [exact Hr|].
  assert (Lr : zlen (concat (map bytes (ztake (n2 - n1) (zdrop n1 r)))) = 188 * (n2 - n1)) by (rewrite concat_len, zlen_ztake, zlen_zdrop; lia).
  apply znth_ext; [rewrite Lr, slice_len; lia|]. intros i Hi. rewrite slice_len in Hi by lia.
  rewrite znth_slice by lia. rewrite concat_take by (rewrite zlen_zdrop; lia). rewrite znth_ztake by lia. rewrite concat_drop by lia.
  rewrite znth_zdrop by lia. rewrite W by lia. rewrite P1, Zplus_mod_idemp_l, Z.add_assoc. reflexivity.
Qed.

Lemma readback : forall f0, f_pos f0 = 0 -> forall tr1 tr2 disk, rc_trace s = tr1 ++ tr2 -> after_crash (replay f0 (ring_calls tr1)) disk ->
  forall a x y z e t1 p1 b x' y' z' e' t2 p2 c,
  messages tr1 = a ++ MEvent KStart x y z e t1 p1 :: b ++ MEvent KEnd x' y' z' e' t2 p2 :: c ->
  let k := chunks (messages tr1) in
  let lo := begins cs 0 0 a in
  let hi := bytes_at cs (chunks (a ++ b)) p2 in
  lo < hi -> hi <= cs * (k - 1) -> cs * k - ring <= lo ->
  exists r n1 n2, record (rco_sid o) stage local [] [] ps (Some r) /\ 0 <= n1 < n2 /\ n2 <= zlen r /\ lo = 188 * n1 /\ hi = 188 * n2 /\
    (p2 - p1) mod ring = 188 * (n2 - n1) /\
    slice disk ring p1 ((p2 - p1) mod ring) = concat (map bytes (ztake (n2 - n1) (zdrop n1 r))).
Proof.
  intros f0 F0 tr1 tr2 disk E Cr a x y z e t1 p1 b x' y' z' e' t2 p2 c M k lo hi Lh Hk Hw. pose proof Ru as [[G1 [G2 [G3 [G4 G5]]]] _].
  assert (M' : messages (rc_trace s) = a ++ MEvent KStart x y z e t1 p1 :: b ++ MEvent KEnd x' y' z' e' t2 p2 :: c ++ messages tr2).
  { rewrite E, messages_app, M, <- app_assoc. cbn [app]. rewrite <- app_assoc. reflexivity. }
  destruct (event_places _ _ _ _ _ _ _ _ _ _ _ _ _ _ _ M') as [[n1 [n2 [N1 [N2 Nn]]]] [P1 P2]]. fold lo in N1, P1. fold hi in N2, P2.
  assert (K2 : 2 <= k). { clearbody k lo hi. clear -Lh Hk N1 Nn G1. destruct (Z.lt_ge_cases k 2); [exfalso|auto]. assert (cs * (k - 1) <= 0) by (apply Z.mul_nonneg_nonpos; lia). lia. }
  destruct (run_window f0 F0 _ _ _ E Cr K2) as [r [Rc W]]. fold k in W.
  assert (D : (p2 - p1) mod ring = hi - lo).
  { rewrite P1, P2, <- Zminus_mod. replace (start + hi - (start + lo)) with (hi - lo) by lia. apply Z.mod_small. clearbody k lo hi. clear -Lh Hk Hw G1. lia. }
  exists r, n1, n2. split; [exact Rc|].
  assert (Q : 0 <= n1 < n2 /\ hi - lo = 188 * (n2 - n1)) by (clear -N1 N2 Nn Lh; clearbody lo hi; lia). destruct Q as [Q1 Q2].
  rewrite N1 in P1. rewrite N2 in Hk. rewrite N1 in Hw. rewrite D, Q2.
  destruct (read_slice r n1 n2 disk p1 ring _ _ Q1 P1 Hk Hw W) as [A B]. auto 8.
Qed.
End Run.

(** Whatever an event-start and a later event-end say about the file: the start
    position is [lo] bytes into the recording, the end position [hi] bytes, both
    whole numbers of packets; [lo] and [hi] follow from the messages. *)
Theorem C69_places : forall o local bytes stage ops ps code s, runs o local bytes stage ops ps code s -> (forall p, zlen (bytes p) = 188) ->
  let cs := rco_chunk_size o in let ring := cs * rco_num_chunks o in
  forall a x y z e t1 p1 b x' y' z' e' t2 p2 c,
  messages (rc_trace s) = a ++ MEvent KStart x y z e t1 p1 :: b ++ MEvent KEnd x' y' z' e' t2 p2 :: c ->
  let lo := begins cs 0 0 a in
  let hi := bytes_at cs (chunks (a ++ b)) p2 in
  (exists n1 n2, lo = 188 * n1 /\ hi = 188 * n2 /\ 0 <= n1 <= n2) /\
  p1 = (rco_start_pos o + lo) mod ring /\ p2 = (rco_start_pos o + hi) mod ring.
Proof. exact event_places. Qed.
Print Assumptions C69_places.

(** At any moment, also after a crash: with [k] chunk messages so far, the bytes of
    all complete chunks are on the disk, except those that the ring may already
    have come round to. *)
Theorem C69_window : forall o local bytes stage ops ps code s, runs o local bytes stage ops ps code s ->
  let cs := rco_chunk_size o in let ring := cs * rco_num_chunks o in
  forall f0, f_pos f0 = 0 -> forall tr1 tr2 disk, rc_trace s = tr1 ++ tr2 -> after_crash (replay f0 (ring_calls tr1)) disk ->
  let k := chunks (messages tr1) in 2 <= k ->
  exists r, record (rco_sid o) stage local [] [] ps (Some r) /\
    forall i, 0 <= i < cs * (k - 1) -> cs * k - ring <= i ->
      znth i (concat (map bytes r)) = Some (disk ((rco_start_pos o + i) mod ring)).
Proof. exact run_window. Qed.
Print Assumptions C69_window.

(** An event whose end lies in a complete chunk, and whose start has not been
    overwritten: reading the file from the position in its event-start up to that in
    its event-end gives exactly the packets recorded between the two. *)
Theorem C69_readback : forall o local bytes stage ops ps code s, runs o local bytes stage ops ps code s -> (forall p, zlen (bytes p) = 188) ->
  let cs := rco_chunk_size o in let ring := cs * rco_num_chunks o in
  forall f0, f_pos f0 = 0 -> forall tr1 tr2 disk, rc_trace s = tr1 ++ tr2 -> after_crash (replay f0 (ring_calls tr1)) disk ->
  forall a x y z e t1 p1 b x' y' z' e' t2 p2 c,
  messages tr1 = a ++ MEvent KStart x y z e t1 p1 :: b ++ MEvent KEnd x' y' z' e' t2 p2 :: c ->
  let k := chunks (messages tr1) in
  let lo := begins cs 0 0 a in
  let hi := bytes_at cs (chunks (a ++ b)) p2 in
  lo < hi -> hi <= cs * (k - 1) -> cs * k - ring <= lo ->
  exists r n1 n2, record (rco_sid o) stage local [] [] ps (Some r) /\ 0 <= n1 < n2 /\ n2 <= zlen r /\ lo = 188 * n1 /\ hi = 188 * n2 /\
    (p2 - p1) mod ring = 188 * (n2 - n1) /\
    slice disk ring p1 ((p2 - p1) mod ring) = concat (map bytes (ztake (n2 - n1) (zdrop n1 r))).
Proof. exact readback. Qed.
Print Assumptions C69_readback.

(** The recording of C60, in a ring of four chunks starting at the last one: the
    first event runs from the start position, across the end of the ring, to 1960
    bytes into the second chunk.  At the end three chunk messages have come; the
    file holds its 54 packets (300 bytes around the end of a chunk are shown). *)
Definition zopt := mkRcOption 101 8192 4 24576.
Definition zbytes (p : packet) : list Z := p_pid p :: repeat 7 187.
Definition zfile : file := mkFile (fun _ => 255) 0 0 (fun _ => 255) (fun _ => false).
Example C69_case : exists s a e t1 p1 b t2 p2 c, runs zopt (fun _ => 0) zbytes 0 [] rstream 0 s /\ (forall p, zlen (zbytes p) = 188) /\ f_pos zfile = 0 /\
  messages (rc_trace s) = a ++ MEvent KStart 4 7 101 e t1 p1 :: b ++ MEvent KEnd 4 7 101 e t2 p2 :: c /\
  chunks (messages (rc_trace s)) = 3 /\ begins 8192 0 0 a = 0 /\ bytes_at 8192 (chunks (a ++ b)) p2 = 188 * 54 /\ p1 = 24576 /\ p2 = 1960 /\
  after_crash (replay zfile (ring_calls (rc_trace s))) (f_synced (replay zfile (ring_calls (rc_trace s)))) /\
  slice (f_synced (replay zfile (ring_calls (rc_trace s)))) 32768 ((p1 + 188 * 43) mod 32768) 300 = firstn 300 (concat (map zbytes (skipn 48 rstream))).
Proof.
  eexists _, [MStart; MChunk _ _], _, _, _, [MEvent KUpdate _ _ _ _ _ _; MChunk _ _], _, _, _. split.
  - split; [unfold valid_geometry; cbn; lia|]. exists 200%nat. eexists. split; [reflexivity|]. vm_compute. reflexivity.
  - split; [reflexivity|]. split; [reflexivity|]. split; [vm_compute; reflexivity|]. do 5 (split; [vm_compute; reflexivity|]).
    split; [intros i _; reflexivity|]. vm_compute. reflexivity.
Qed.
