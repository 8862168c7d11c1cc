From Coq Require Import ZArith Lia List Bool.
From Verif Require Import Base.Outcome Base.Util Model.Sink Model.FileSource Model.StdoutSink Model.Ts Model.ServiceFilter Model.Commands
  Spec.SourceSpec Spec.StdoutSpec Spec.PipeSpec Spec.PauseSpec Proofs.RecorderProofs Proofs.SourceProofs Proofs.PipeProofs Proofs.CutProofs.
Import ListNotations.
Open Scope Z_scope.

(** ** The source does not look ahead *)
Definition more (s : fs) (later : list read_result) : fs := mkFs (fs_reads s ++ later) (fs_eof s) (fs_buf s) (fs_pos s).

Lemma at_more : forall s l i, fs_at (more s l) i = fs_at s i.
Proof. reflexivity. Qed.
Lemma read_more : forall reads l buf n s, fs_read_loop reads buf n = Ok (s, true) -> fs_read_loop (reads ++ l) buf n = Ok (more s l, true).
Proof.
  induction reads as [|r reads IH]; intros l buf n s H; cbn [fs_read_loop app] in *; apply assert_ok in H as [A H]; [discriminate|].
  cbn [fs_read_loop]. rewrite A. cbn [assert]. destruct r as [bs|]; [|discriminate].
  destruct (zlen bs =? 0); [discriminate|]. destruct (kReadChunkSize <? zlen bs); [discriminate|].
  destruct (zlen (buf ++ bs) <? n); [auto|]. injection H as <-. reflexivity.
Qed.
Lemma fill_more : forall s l n s', fs_FillBuffer s n = Ok (s', true) -> fs_FillBuffer (more s l) n = Ok (more s' l, true).
Proof.
  intros s l n s' H. unfold fs_FillBuffer in *. repeat (apply assert_ok in H as [?A H]).
  change (fs_eof (more s l)) with (fs_eof s). change (fs_pos (more s l)) with (fs_pos s). change (fs_end (more s l)) with (fs_end s).
  rewrite A, A0, A1, A2. cbn [assert]. destruct (n <=? fs_end s - fs_pos s); [injection H as <-; reflexivity|].
  apply read_more. exact H.
Qed.
Lemma resync_more : forall n s l pos s', fs_resync_loop s n pos = Ok (s', true) -> fs_resync_loop (more s l) n pos = Ok (more s' l, true).
Proof.
  induction n as [|n IH]; intros s l pos s' H; cbn [fs_resync_loop] in *; [discriminate|]. ib H. change (fs_at (more s l) pos) with (fs_at s pos). rewrite Hb. cbn [bind].
  destruct (negb (v =? SYNC_BYTE)); [auto|]. ib H. change (fs_ValidateResync (more s l) pos) with (fs_ValidateResync s pos). rewrite Hb0. cbn [bind].
  destruct v0; [injection H as <-; reflexivity|auto].
Qed.
Lemma take_more : forall s l s' p, fs_take s = Ok (s', Some p) -> fs_take (more s l) = Ok (more s' l, Some p).
Proof.
  intros s l s' p H. unfold fs_take in *. cbv zeta in *. unfold more, fs_end in *. cbn [fs_pos fs_buf fs_reads fs_eof] in *.
  destruct (_ <? _); [discriminate|]. destruct (znth 0 _) as [b|]; cbn [bind] in *; [|discriminate].
  apply assert_ok in H as [A H]. rewrite A. cbn [assert]. injection H as <- <-. reflexivity.
Qed.
Lemma next_more : forall s l s' p, fs_GetNextPacket s = Ok (s', Some p) -> fs_GetNextPacket (more s l) = Ok (more s' l, Some p).
Proof.
  intros s l s' p H. unfold fs_GetNextPacket in *. ib H. destruct v as [s1 ok]. destruct ok; cbn [negb] in H; [|discriminate].
  rewrite (fill_more _ l _ _ Hb). cbn [bind negb]. ib H. change (fs_at (more s1 l) (fs_pos (more s1 l))) with (fs_at s1 (fs_pos s1)). rewrite Hb0. cbn [bind].
  destruct (negb (v =? SYNC_BYTE)); [|apply take_more; exact H].
  ib H. destruct v0 as [s2 ok]. destruct ok; cbn [negb] in H; [|discriminate]. unfold fs_Resync in *. ib Hb1. destruct v0 as [s3 ok]. destruct ok; cbn [negb] in Hb1; [|discriminate].
  rewrite (fill_more _ l _ _ Hb2). cbn [bind negb]. change (fs_pos (more s3 l)) with (fs_pos s3). rewrite (resync_more _ _ l _ _ Hb1). cbn [bind negb].
  ib H. change (fs_at (more s2 l) (fs_pos (more s2 l))) with (fs_at s2 (fs_pos s2)). rewrite Hb3. cbn [bind].
  apply assert_ok in H as [A H]. rewrite A. cbn [assert]. apply take_more. exact H.
Qed.

(** ** Any sink *)
Section Any.
Variable k : sink (list Z).

Lemma loop_more : forall n s d d', feed_loop file_source k n s d = Some (Ok d') ->
  (forall later m, (n <= m)%nat -> feed_loop file_source k m (more s later) d = Some (Ok d')) /\ (exists x p, sk_handle k x p = Ok (d', false)) \/
  forall later, exists x, loops file_source k (more s later) d (more x later) d'.
Proof.
  induction n as [|n IH]; intros s d d' H; cbn [feed_loop] in H; [discriminate|].
  destruct (sr_next file_source s) as [[s1 [p|]]|f] eqn:E; [| |discriminate].
  - assert (E2 : forall l, sr_next file_source (more s l) = Ok (more s1 l, Some p)) by (intros l; apply next_more; exact E).
    destruct (sk_handle k d p) as [[d1 [|]]|f] eqn:Eh; [| |discriminate].
    + destruct (IH _ _ _ H) as [[A R]|A].
      * left. split; [|exact R]. intros l m Hm. destruct m as [|m]; [lia|]. cbn [feed_loop]. rewrite E2, Eh. apply A. lia.
      * right. intros l. destruct (A l) as [x L]. exists x. eapply L_turn; [apply E2|exact Eh|exact L].
    + injection H as <-. left. split; [|eauto]. intros l m Hm. destruct m as [|m]; [lia|]. cbn [feed_loop]. rewrite E2, Eh. reflexivity.
  - injection H as <-. right. intros l. exists s. apply L_here.
Qed.
End Any.

Lemma pause_why : forall P view (k : sink P) reads d0 n c h t, run_main view k reads d0 n = Some (Ok (c, (h, t))) ->
  ends_anyway (fun reads n => run_main view k reads d0 n) reads n /\ refuses k d0 \/ exists d, by_then view k reads d0 d /\ sk_end k d = Ok t.
Proof.
  intros P view k reads d0 n c h t H. unfold ends_anyway. rewrite H. unfold run_main, FeedPackets in *. cbn [viewed sk_start fst snd] in *.
  destruct (sk_start k d0) as [[d1 [|]]|f] eqn:Es; cbn [bind] in *; [| |discriminate].
  - destruct (feed_loop file_source (viewed view k) n (fs_init reads) ([], d1)) as [[[h2 d2]|f]|] eqn:El; try discriminate.
    destruct (loop_more (viewed view k) _ _ _ _ El) as [[A [[x1 x2] [p R]]]|A].
    + left. split; [|right; cbn [viewed sk_handle fst snd] in R; destruct (sk_handle k x2 (view x1 p)) as [[y b]|] eqn:Ey; cbn [bind] in R; [|discriminate];
        injection R as <- <- ->; eauto].
      intros later m Hm. specialize (A later m Hm). change (more (fs_init reads) later) with (fs_init (reads ++ later)) in A.
      rewrite A. exact H.
    + right. exists d2. split.
      * intros later. destruct (A later) as [x L]. exists d1, (more x later), h2, (fs_reads x). split; [exact Es|]. split; [exact L|reflexivity].
      * cbn [bind viewed sk_end sk_exit fst snd] in H. destruct (sk_end k d2) as [d3|f]; cbn [bind viewed sk_end sk_exit fst snd] in H; [|discriminate].
        destruct (sk_exit k d3) as [c3|]; cbn [bind] in H; [|inversion H]. injection H as <- <- <-. reflexivity.
  - left. split; [intros; exact H|left; eauto].
Qed.
Lemma pause_any : forall P view (k : sink P) reads d0 n c h t, run_main view k reads d0 n = Some (Ok (c, (h, t))) ->
  ends_anyway (fun reads n => run_main view k reads d0 n) reads n \/ exists d, by_then view k reads d0 d /\ sk_end k d = Ok t.
Proof. intros P view k reads d0 n c h t H. destruct (pause_why _ _ _ _ _ _ _ _ _ H) as [[A _]|A]; auto. Qed.

Lemma collects_all : forall ps n acc, (List.length ps < n)%nat -> feed_loop (list_source (list Z)) collects n ps acc = Some (Ok (acc ++ ps)).
Proof.
  induction ps as [|p ps IH]; intros n acc L; (destruct n as [|n]; [cbn in L; lia|]); cbn [feed_loop list_source sr_next collects sk_handle].
  - rewrite app_nil_r. reflexivity.
  - fold collects. rewrite IH by (cbn in L; lia). rewrite <- app_assoc. reflexivity.
Qed.
Lemma views_same : forall (bs : list (list Z)) h, views (fun _ b => b) h bs = bs.
Proof. induction bs as [|b bs IH]; intros h; cbn [views]; [|rewrite IH]; reflexivity. Qed.
Lemma pause_packets : forall reads ps, Forall read_ok reads -> packets_of (bytes_of reads) ps -> by_then (fun _ b => b) collects reads [] ps.
Proof.
  intros reads ps R Pk. set (n := S (List.length (bytes_of reads))).
  pose proof (main_feed (fun _ b => b) collects reads ps [] n R Pk ltac:(unfold n; lia)) as M.
  unfold FeedPackets in M. cbn [collects sk_start] in M. fold collects in M.
  rewrite views_same, collects_all in M by (pose proof (packets_length _ _ Pk); unfold n; lia). cbn [bind collects sk_end sk_exit] in M. fold collects in M.
  destruct M as [h M]. destruct (pause_why _ _ _ _ _ _ _ _ _ M) as [[_ [[d E]|[d [p [d' E]]]]]|[d [B E]]]; [discriminate|discriminate|].
  injection E as <-. exact B.
Qed.

(** What holds after Start and is kept by HandlePacket holds at the pause. *)
Lemma loops_keep : forall P view (k : sink P) (inv : sk_state k -> Prop), (forall s p s' b, inv s -> sk_handle k s p = Ok (s', b) -> inv s') ->
  forall x y x' y', loops file_source (viewed view k) x y x' y' -> inv (snd y) -> inv (snd y').
Proof.
  intros P view k inv K x y x' y' L. induction L as [x y|x y x1 p y1 x2 y2 N H L IH]; [auto|].
  intros I. apply IH. cbn [viewed sk_handle] in H. destruct (sk_handle k (snd y) (view (fst y) p)) as [[d b]|f] eqn:E; cbn [bind] in H; [|discriminate].
  injection H as <- ->. cbn [snd]. eapply K; eauto.
Qed.
Lemma by_then_inv : forall P view (k : sink P) (inv : sk_state k -> Prop) reads d0 d, (forall s p s' b, inv s -> sk_handle k s p = Ok (s', b) -> inv s') ->
  (forall d1, sk_start k d0 = Ok (d1, true) -> inv d1) -> by_then view k reads d0 d -> inv d.
Proof.
  intros P view k inv reads d0 d K S B. destruct (B []) as [d1 [x [h [r [E [L _]]]]]]. exact (loops_keep _ _ _ inv K _ _ _ _ L (S _ E)).
Qed.

(** ** The commands *)
From Verif Require Import Model.RecorderOption Model.RingFileSink Model.ServiceRecorder Model.StartSeeker.
From Verif Require Model.ProgramFilter Model.EitCollector Model.EitpfCollector Model.AirtimeTracker Model.MetadataFilter Model.PesPrinter Model.Logo.

Lemma grows_keep : forall P X (k : sink P) inv (out : sk_state k -> list X), grows k inv out ->
  forall s p s' b, inv s -> sk_handle k s p = Ok (s', b) -> inv s'.
Proof. intros P X k inv out G s p s' b I H. eapply G; eauto. Qed.

Lemma lag : forall s s' bytes, fine s -> sk_end (to_stdout bytes) s = Ok s' -> is_prefix (so_out s) (so_out s') /\ zlen (so_out s') - zlen (so_out s) < 16384.
Proof.
  intros s s' bytes F E. rewrite (stdout_ends _ _ _ F E). split; [apply pre_app|]. rewrite zlen_app. destruct F as [F _]. lia.
Qed.

Lemma pause_filter_service : forall view bytes sid reads writes n c h s w, (forall p, zlen (bytes p) = 188) -> Forall no_error writes ->
  filter_service_main view bytes sid reads writes n = Some (Ok (c, (h, (s, w)))) ->
  ends_anyway (fun reads n => filter_service_main view bytes sid reads writes n) reads n \/
  exists s1 w1, by_then view (filter_service bytes sid) reads (sf_init (load_service_filter (Some sid)), so_init writes) (s1, w1) /\
    is_prefix (so_out w1) (so_out w) /\ zlen (so_out w) - zlen (so_out w1) < 16384.
Proof.
  intros view bytes sid reads writes n c h s w Sz W H. unfold filter_service_main in *.
  destruct (pause_any _ _ _ _ _ _ _ _ _ H) as [A|[[s1 w1] [B E]]]; [left; exact A|right]. exists s1, w1. split; [exact B|].
  assert (F : fine w1).
  { apply (by_then_inv _ view (filter_service bytes sid) (fun x => fine (snd x)) _ _ _) in B; [exact B| |].
    - exact (grows_keep _ _ _ _ _ (filter_grows _ 0 (load_service_filter (Some sid)) (to_stdout bytes) fine _ (stdout_grows bytes Sz))).
    - intros d1 S. cbn in S. injection S as <-. apply fine_init. exact W. }
  cbn [filter_service service_filter sk_end fst snd] in E. destruct (sk_end (to_stdout bytes) w1) as [w2|f] eqn:E1; cbn [bind] in E; [|discriminate].
  injection E as <- <-. eapply lag; eauto.
Qed.

Lemma pause_filter_program : forall view bytes npackets sid o reads writes n c h s t w, (forall p, zlen (bytes p) = 188) -> Forall no_error writes ->
  filter_program_main view bytes npackets sid o reads writes n = Some (Ok (c, (h, (s, (t, w))))) ->
  ends_anyway (fun reads n => filter_program_main view bytes npackets sid o reads writes n) reads n \/
  exists s1 t1 w1, by_then view (filter_program bytes npackets sid o) reads
      (sf_init (load_service_filter (Some sid)), (ProgramFilter.pf_init o, so_init writes)) (s1, (t1, w1)) /\
    is_prefix (so_out w1) (so_out w) /\ zlen (so_out w) - zlen (so_out w1) < 16384.
Proof.
  intros view bytes npackets sid o reads writes n c h s t w Sz W H. unfold filter_program_main in *.
  destruct (pause_any _ _ _ _ _ _ _ _ _ H) as [A|[[s1 [t1 w1]] [B E]]]; [left; exact A|right]. exists s1, t1, w1. split; [exact B|].
  assert (F : fine w1).
  { apply (by_then_inv _ view (filter_program bytes npackets sid o) (fun x => fine (snd (snd x))) _ _ _) in B; [exact B| |].
    - exact (grows_keep _ _ _ _ _ (filter_grows _ 0 (load_service_filter (Some sid)) _ _ _
        (program_grows _ npackets o (to_stdout bytes) fine _ (stdout_grows bytes Sz) 1))).
    - intros d1 S. cbn in S. injection S as <-. apply fine_init. exact W. }
  cbn [filter_program service_filter ProgramFilter.program_filter sk_end fst snd] in E.
  destruct (sk_end (to_stdout bytes) w1) as [w2|f] eqn:E1; cbn [bind] in E; [|discriminate].
  injection E as <- <- <-. eapply lag; eauto.
Qed.

Lemma pause_record_service : forall view bytes sid o local s0 reads n c h f s,
  record_service_main view bytes sid o local s0 reads n = Some (Ok (c, (h, (f, s)))) ->
  ends_anyway (fun reads n => record_service_main view bytes sid o local s0 reads n) reads n \/
  exists f1 s1 stop, by_then view (record_service bytes sid o local) reads (sf_init (load_service_filter (Some sid)), s0) (f1, s1) /\
    rc_trace s = rc_trace s1 ++ [Msg (MStop stop)].
Proof.
  intros view bytes sid o local s0 reads n c h f s H. unfold record_service_main in *.
  destruct (pause_any _ _ _ _ _ _ _ _ _ H) as [A|[[f1 s1] [B E]]]; [left; exact A|right].
  cbn [record_service service_filter recorder sk_end fst snd bind] in E. injection E as <- <-. exists f1, s1. eexists. split; [exact B|reflexivity].
Qed.

(** *** seek-start *)
Definition held (o : start_seeker_option) (x : ss_state * stdout_state) : Prop :=
  fine (snd x) /\ (ss_streaming (fst x) = true -> ss_packets (fst x) = []) /\ (0 < sso_max_packets o -> zlen (ss_packets (fst x)) < sso_max_packets o).

Section Seek.
Variable bytes : packet -> list Z.
Hypothesis size : forall p, zlen (bytes p) = 188.
Variable o : start_seeker_option.

Lemma send_fine : forall ps w, fine w -> exists w', ss_send_all (to_stdout bytes) w ps = Ok (w', true) /\ fine w' /\
  so_out w' ++ so_buf w' = (so_out w ++ so_buf w) ++ concat (map bytes ps).
Proof.
  induction ps as [|p ps IH]; intros w F; cbn [ss_send_all map concat]; [exists w; rewrite app_nil_r; auto|].
  destruct (stdout_takes bytes size w p F) as [w1 [-> [F1 O1]]]. cbn [bind]. destruct (IH w1 F1) as [w2 [-> [F2 O2]]].
  exists w2. split; [reflexivity|]. split; [auto|]. rewrite O2, O1, <- app_assoc. reflexivity.
Qed.
Lemma release_held : forall s w x b, fine w -> ss_release (to_stdout bytes) s w = Ok (x, b) -> held o x.
Proof.
  intros s w x b F H. unfold ss_release, ss_SendPackets in H. destruct (send_fine (zdrop 0 (ss_packets s)) w F) as [w1 [E [F1 _]]]. rewrite E in H.
  cbn [bind] in H. injection H as <- <-. split; [exact F1|]. split; [reflexivity|]. cbn. rewrite zlen_nil. auto.
Qed.
Lemma table_held : forall s pid t s', ss_handleTable o s pid t = Ok s' -> ss_packets s' = ss_packets s /\ ss_streaming s' = ss_streaming s.
Proof.
  intros s pid t s' H. unfold ss_handleTable in H. destruct (tb_body t) as [b|b|b|b|b|b|b|]; try (injection H as <-; auto).
  - unfold ss_HandlePat in H. destruct (negb _); [injection H as <-; auto|]. destruct b as [u|]; [|injection H as <-; auto].
    destruct (_ =? 0); [injection H as <-; auto|]. destruct (mfind _ _); [|discriminate]. injection H as <-. auto.
  - unfold ss_HandlePmt in H. destruct b as [u|]; [|injection H as <-; auto]. destruct (negb _); [injection H as <-; auto|].
    destruct (_ || _); injection H as <-; auto.
Qed.
Lemma tables_held : forall ts s pid s', handle_tables (ss_handleTable o) s pid ts = Ok s' -> ss_packets s' = ss_packets s /\ ss_streaming s' = ss_streaming s.
Proof.
  induction ts as [|t ts IH]; intros s pid s' H; cbn [handle_tables] in H; [injection H as <-; auto|]. ib H.
  destruct (table_held _ _ _ _ Hb) as [A B]. destruct (IH _ _ _ H) as [C D]. split; congruence.
Qed.
Lemma seek_held : forall x p x' b, held o x -> sk_handle (seek_start bytes o) x p = Ok (x', b) -> held o x'.
Proof.
  intros [s w] p x' b [F [S M]] H. cbn [seek_start start_seeker sk_handle fst snd] in *. unfold ss_HandlePacket in H. ib H.
  destruct (tables_held _ _ _ _ Hb) as [A B]. destruct (ss_streaming v) eqn:Ev.
  - destruct (stdout_takes bytes size w p F) as [w1 [E [F1 _]]]. rewrite E in H. cbn [bind] in H. injection H as <- <-.
    split; [exact F1|]. cbn [fst]. rewrite A. split; [intros _; apply S; congruence|exact M].
  - unfold ss_Seek in H. set (s2 := ss_set_packets v (ss_packets v ++ [p])) in *. assert (N2 : ss_streaming s2 = false) by exact Ev.
    cbv zeta in H. destruct (0 <? ss_transition s2).
    + unfold ss_SendPacket in H. destruct (znth (ss_pat s2) (ss_packets s2)) as [q|]; [|discriminate].
      destruct (stdout_takes bytes size w q F) as [w1 [E [F1 _]]]. rewrite E in H. cbn [bind] in H. unfold ss_SendPackets in H.
      destruct (send_fine (zdrop (ss_transition s2) (ss_packets s2)) w1 F1) as [w2 [E2 [F2 _]]]. rewrite E2 in H. cbn [bind] in H. injection H as <- <-.
      split; [exact F2|]. split; [reflexivity|]. cbn. rewrite zlen_nil. auto.
    + destruct (negb (sso_max_packets o =? 0) && (sso_max_packets o =? zlen (ss_packets s2))); [eapply release_held; eauto|].
      apply assert_ok in H as [As H].
      assert (Hd : forall s3, ss_packets s3 = ss_packets s2 -> ss_streaming s3 = false -> held o (s3, w)).
      { intros s3 E3 N3. split; [exact F|]. cbn [fst]. split; [congruence|]. intros Hm. rewrite E3. apply orb_true_iff in As as [As|As].
        - apply Z.eqb_eq in As. lia.
        - apply Z.ltb_lt in As. exact As. }
      destruct ((ss_pcr_pid s2 =? PID_NULL) || negb (ss_pcr_pid s2 =? p_pid p)); [injection H as <- <-; auto|]. destruct (p_pcr p) as [pcr|]; [|injection H as <- <-; auto].
      destruct (ss_end_pcr s2 <? 0).
      * ib H. ib H. injection H as <- <-. apply Hd; auto.
      * ib H. destruct (v0 <? 0); [injection H as <- <-; auto|eapply release_held; eauto].
Qed.
End Seek.

Lemma pause_seek_start : forall view bytes o reads writes n c h s w, (forall p, zlen (bytes p) = 188) -> Forall no_error writes ->
  seek_start_main view bytes o reads writes n = Some (Ok (c, (h, (s, w)))) ->
  ends_anyway (fun reads n => seek_start_main view bytes o reads writes n) reads n \/
  exists s1 w1 kept, by_then view (seek_start bytes o) reads (ss_init, so_init writes) (s1, w1) /\
    is_prefix (so_out w1) (so_out w) /\ zlen (so_out w) - zlen (so_out w1) < 16384 + 188 * kept /\
    (ss_streaming s1 = true -> kept = 0) /\ (0 < sso_max_packets o -> kept < sso_max_packets o).
Proof.
  intros view bytes o reads writes n c h s w Sz W H. unfold seek_start_main in *.
  destruct (pause_any _ _ _ _ _ _ _ _ _ H) as [A|[[s1 w1] [B E]]]; [left; exact A|right]. exists s1, w1, (zlen (ss_packets s1)). split; [exact B|].
  assert (F : held o (s1, w1)).
  { apply (by_then_inv _ view (seek_start bytes o) (held o) _ _ _) in B; [exact B| |].
    - exact (seek_held bytes Sz o).
    - intros d1 S. cbn in S. injection S as <-. split; [apply fine_init; exact W|]. cbn. rewrite zlen_nil. auto. }
  destruct F as [F [S M]]. cbn [fst snd] in *.
  cbn [seek_start start_seeker sk_end fst snd] in E. unfold ss_SendPackets in E.
  destruct (send_fine bytes Sz (zdrop 0 (ss_packets s1)) w1 F) as [w2 [E2 [F2 O2]]]. rewrite E2 in E. cbn [bind fst snd] in E.
  destruct (sk_end (to_stdout bytes) w2) as [w3|f] eqn:E3; cbn [bind] in E; [|discriminate]. injection E as <- <-.
  rewrite (stdout_ends _ _ _ F2 E3), O2, zdrop_0 by lia. rewrite <- app_assoc. split; [apply pre_app|].
  split; [|split; [intros T; rewrite (S T), zlen_nil; reflexivity|exact M]].
  assert (L : forall ps, zlen (concat (map bytes ps)) = 188 * zlen ps).
  { clear -Sz. induction ps as [|p ps IH]; cbn [map concat]; [reflexivity|]. rewrite zlen_app, zlen_cons, IH, Sz. lia. }
  rewrite !zlen_app, L. destruct F as [F _]. lia.
Qed.

(** *** The JSON commands *)
Lemma pause_same : forall P view (k : sink P) reads d0 n c h t, (forall s, sk_end k s = Ok s) -> run_main view k reads d0 n = Some (Ok (c, (h, t))) ->
  ends_anyway (fun reads n => run_main view k reads d0 n) reads n \/ by_then view k reads d0 t.
Proof.
  intros P view k reads d0 n c h t N H. destruct (pause_any _ _ _ _ _ _ _ _ _ H) as [A|[d [B E]]]; [auto|right].
  rewrite N in E. injection E as <-. exact B.
Qed.

Lemma pause_eits : forall mjd view sids xsids limit streaming actual others reads n c h s,
  collect_eits_main mjd view sids xsids limit streaming actual others reads n = Some (Ok (c, (h, s))) ->
  ends_anyway (fun reads n => collect_eits_main mjd view sids xsids limit streaming actual others reads n) reads n \/
  exists o s0, load_eit_collector sids xsids limit streaming actual others = Ok o /\ EitCollector.ec_new o = Ok s0 /\
    by_then view (EitCollector.eit_sink mjd o) reads s0 s.
Proof.
  intros mjd view sids xsids limit streaming actual others reads n c h s H. unfold collect_eits_main, ends_anyway in *.
  destruct (load_eit_collector sids xsids limit streaming actual others) as [o|f]; [|discriminate].
  destruct (EitCollector.ec_new o) as [s0|f] eqn:E; [|discriminate].
  destruct (pause_same _ view (EitCollector.eit_sink mjd o) reads s0 n c h s (fun s => eq_refl) H) as [A|A]; [left; exact A|right; eauto].
Qed.
Lemma pause_eitpfs : forall mjd view sids streaming present following reads n c h s,
  collect_eitpfs_main mjd view sids streaming present following reads n = Some (Ok (c, (h, s))) ->
  ends_anyway (fun reads n => collect_eitpfs_main mjd view sids streaming present following reads n) reads n \/
  exists o, load_eitpf_collector sids streaming present following = Ok o /\ by_then view (EitpfCollector.pf_sink mjd o) reads EitpfCollector.pf_init s.
Proof.
  intros mjd view sids streaming present following reads n c h s H. unfold collect_eitpfs_main, ends_anyway in *.
  destruct (load_eitpf_collector sids streaming present following) as [o|f]; [|discriminate].
  destruct (pause_same _ view (EitpfCollector.pf_sink mjd o) reads EitpfCollector.pf_init n c h s (fun s => eq_refl) H) as [A|A]; [left; exact A|right; eauto].
Qed.
Lemma pause_metadata : forall view sid reads n c h s, program_metadata_main view sid reads n = Some (Ok (c, (h, s))) ->
  ends_anyway (fun reads n => program_metadata_main view sid reads n) reads n \/
  by_then view (MetadataFilter.md_sink (load_metadata_filter sid)) reads [] s.
Proof. intros view sid reads n c h s H. exact (pause_same _ view (MetadataFilter.md_sink (load_metadata_filter sid)) reads [] n c h s (fun s => eq_refl) H). Qed.
Lemma pause_airtime : forall view sid eid reads n c h s, track_airtime_main view sid eid reads n = Some (Ok (c, (h, s))) ->
  ends_anyway (fun reads n => track_airtime_main view sid eid reads n) reads n \/
  by_then view (AirtimeTracker.at_sink (load_airtime_tracker sid eid)) reads AirtimeTracker.at_init s.
Proof. intros view sid eid reads n c h s H. exact (pause_same _ view (AirtimeTracker.at_sink (load_airtime_tracker sid eid)) reads AirtimeTracker.at_init n c h s (fun s => eq_refl) H). Qed.
