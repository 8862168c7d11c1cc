(** C73: a recording that is resumed any number of times. *)
From Coq Require Import ZArith Lia List Bool.
From Verif Require Import Base.Outcome Base.Util Model.Clock Model.Sink Model.Ts Model.RingFileSink Model.RecorderOption Model.ServiceRecorder
  Spec.ClockSpec Spec.StdoutSpec Spec.FilterSpec Spec.TuneSpec Spec.FileSpec Spec.RecorderSpec Spec.ReadSpec
  Proofs.RingProofs Proofs.RingMain Proofs.RecorderProofs Proofs.RecorderMain Proofs.ReadProofs Props.RecorderProps.
Import ListNotations.
Open Scope Z_scope.

(** A file opened whose bytes on the disk are [disk]. *)
Definition opened (disk : Z -> Z) (f : file) : Prop :=
  f_pos f = 0 /\ forall i, f_at f i = disk i /\ f_synced f i = disk i /\ f_dirty f i = false.

(** [timeline cs nc start0 disk kept start]: record-service has been run any number
    of times with the same file and the same geometry.  Each run was ended or crashed
    at some point of its trace.  The first run began at [start0]; every other run was
    given the position of the last chunk message of the runs before.  Now [disk] is on
    the disk, [kept] are the bytes of all chunks that chunk messages reported as
    complete, and [start] is where the next run begins. *)
Inductive timeline (cs nc start0 : Z) : (Z -> Z) -> list Z -> Z -> Prop :=
| T_none : forall disk, timeline cs nc start0 disk [] start0
| T_run : forall disk kept start o local bytes stage ops ps code s r tr1 tr2 f0 disk',
    timeline cs nc start0 disk kept start ->
    rco_chunk_size o = cs -> rco_num_chunks o = nc -> rco_start_pos o = start ->
    runs o local bytes stage ops ps code s -> record (rco_sid o) stage local [] [] ps r ->
    rc_trace s = tr1 ++ tr2 -> opened disk f0 -> after_crash (replay f0 (ring_calls tr1)) disk' ->
    let recorded := concat (map bytes (match r with Some l => l | None => [] end)) in
    timeline cs nc start0 disk' (kept ++ ztake (cs * (chunks (messages tr1) - 1)) recorded)
      (last (chunk_positions (messages tr1)) start).

(** ** Bytes that a run does not touch *)
Lemma canon_keeps : forall cs ring start f0 disk t w y p n, 0 < ring -> opened disk f0 -> canon cs ring start t w y p n ->
  forall x, 0 <= x < ring -> zlen w <= (x - start) mod ring ->
  f_at (replay f0 t) x = disk x /\ f_synced (replay f0 t) x = disk x /\ f_dirty (replay f0 t) x = false.
Proof.
  intros cs ring start f0 disk t w y p n Hr [F0 Op] H.
  assert (Ps : forall t w y p n, canon cs ring start t w y p n -> f_pos (replay f0 t) = p).
  { clear -F0. induction 1; rewrite ?replay_snoc; cbn; auto; try lia. destruct e; try discriminate; auto. }
  induction H as [| t w y p n bs H IH Hp Hle Hn | t w y p n H IH | t w y p n H IH
                  | t w y p n o H IH Ho | t w y p n q H IH Hy Hw Hq | t w y p n e H IH He]; intros x Hx Hd; rewrite ?replay_snoc; cbn [file_step f_at f_synced f_dirty].
  - apply Op.
  - rewrite zlen_app in Hd. pose proof (zlen_nonneg _ bs) as Hb. pose proof (zlen_nonneg _ w) as Hw.
    destruct (IH x Hx ltac:(lia)) as [I1 [I2 I3]]. rewrite (Ps _ _ _ _ _ H).
    assert (E : in_range x p (zlen bs) = false).
    { unfold in_range. destruct (Z.leb_spec p x); [|reflexivity]. destruct (Z.ltb_spec x (p + zlen bs)); [|reflexivity]. exfalso.
      assert (Q : (x - start) mod ring = (zlen w + (x - p)) mod ring).
      { rewrite Hp. pose proof (Z.div_mod (start + zlen w) ring ltac:(lia)) as D.
        replace (zlen w + (x - (start + zlen w) mod ring)) with (x - start + (start + zlen w) / ring * ring) by lia.
        rewrite Z.mod_add by lia. reflexivity. }
      pose proof (Z.mod_le (zlen w + (x - p)) ring ltac:(lia) ltac:(lia)). lia. }
    rewrite E. auto.
  - destruct (IH x Hx Hd) as [I1 [I2 I3]]. auto.
  - destruct (IH x Hx Hd) as [I1 [I2 I3]]. destruct (Z.ltb_spec x ring); [|lia]. auto.
  - destruct (IH x Hx Hd) as [I1 [I2 I3]]. auto.
  - destruct (IH x Hx Hd) as [I1 [I2 I3]]. auto.
  - destruct (IH x Hx Hd) as [I1 [I2 I3]]. destruct e; try discriminate; auto.
Qed.

Lemma session_keeps : forall cs nc start ops packets s evs ok f0 disk, valid_geometry cs nc start -> opened disk f0 ->
  rg_session cs nc start ops packets = Ok (s, evs, ok) -> forall t t' disk', evs = t ++ t' -> after_crash (replay f0 t) disk' ->
  forall x, 0 <= x < cs * nc -> zlen (written t) <= (x - start) mod (cs * nc) -> disk' x = disk x.
Proof.
  intros cs nc start ops packets s evs ok f0 disk G Op E t t' disk' Et Cr x Hx Hd.
  destruct (geo cs nc start G) as [Hcs [Hring _]].
  destruct (session_canon _ _ _ _ _ _ _ _ G E) as [w [y [p [n [Hc _]]]]]. subst evs.
  destruct (canon_prefix _ _ _ _ _ _ _ _ _ Hc) as [w1 [y1 [p1 [n1 Hc1]]]].
  pose proof (canon_file cs (cs * nc) start f0 Hcs Hring (proj1 Op) _ _ _ _ _ Hc1) as Hi1.
  rewrite (fi_written _ _ _ _ _ _ _ _ _ _ Hi1) in Hd.
  destruct (canon_keeps _ _ _ _ _ _ _ _ _ _ Hring Op Hc1 x Hx Hd) as [_ [S D]]. rewrite (Cr x D). exact S.
Qed.

(** How much has been written when [chunks] messages have come. *)
Lemma written_bound : forall cs nc start ops packets rg tr ok, valid_geometry cs nc start ->
  rg_session cs nc start ops packets = Ok (rg, ring_calls tr, ok) -> answered (cs * nc) tr ->
  forall a b, tr = a ++ b -> zlen (written (ring_calls a)) <= cs * Z.max 1 (chunks (messages a)).
Proof.
  intros cs nc start ops packets rg tr ok Geo Se An a b E.
  assert (Ec : ring_calls tr = ring_calls a ++ ring_calls b) by (rewrite E; apply calls_app).
  pose proof (proj1 Geo) as G1.
  destruct (count_low _ _ _ _ An E) as [L|[a' [p [c [Ea [Ec' [L K]]]]]]].
  - destruct (announcements _ _ _ _ _ _ _ _ Geo Se _ _ Ec) as [[_ B] _]. unfold level in L. nia.
  - unfold level in L.
    assert (Ec2 : ring_calls tr = ring_calls a' ++ ring_calls (Ring (EvNotify p) :: c ++ b)) by (rewrite E, Ea, <- app_assoc, calls_app; reflexivity).
    destruct (announcements _ _ _ _ _ _ _ _ Geo Se _ _ Ec2) as [[_ B] _].
    assert (Wa : written (ring_calls a) = written (ring_calls a')).
    { rewrite Ea, calls_app. cbn [ring_calls]. rewrite Ec'. clear. induction (ring_calls a') as [|x l IH]; [reflexivity|]. cbn [app written]. rewrite IH. destruct x; auto. }
    rewrite Wa. assert (chunks (messages a') <= chunks (messages a)).
    { rewrite Ea, messages_app, chunks_app. pose proof (zlen_nonneg _ (chunk_positions (messages (Ring (EvNotify p) :: c)))). unfold chunks at 3. lia. }
    nia.
Qed.

(** ** One run *)
Definition holds (cs nc start0 : Z) (disk : Z -> Z) (kept : list Z) (start : Z) : Prop :=
  valid_geometry cs nc start /\ (exists m, zlen kept = cs * m) /\ start = (start0 + zlen kept) mod (cs * nc) /\
  forall i, 0 <= i < zlen kept -> zlen kept + cs - cs * nc <= i -> znth i kept = Some (disk ((start0 + i) mod (cs * nc))).

Lemma znth_last : forall (l : list Z) d, l <> [] -> znth (zlen l - 1) l = Some (last l d).
Proof.
  intros l d N. destruct (exists_last N) as [l' [x ->]]. rewrite last_last, zlen_app. change (zlen [x]) with 1.
  rewrite znth_app_r by lia. replace (zlen l' + 1 - 1 - zlen l') with 0 by lia. reflexivity.
Qed.

Lemma positions_at : forall o local bytes stage ops ps code s, runs o local bytes stage ops ps code s -> forall a b, rc_trace s = a ++ b ->
  chunk_positions (messages a) <> [] ->
  last (chunk_positions (messages a)) (rco_start_pos o) =
    (rco_start_pos o + (chunks (messages a) - 1) * rco_chunk_size o) mod (rco_chunk_size o * rco_num_chunks o).
Proof.
  intros o local bytes stage ops ps code s R a b E N. destruct (positions _ _ _ _ _ _ _ _ R) as [P _]. apply P.
  rewrite E, messages_app, positions_app. rewrite znth_app_l.
  - exact (znth_last _ _ N).
  - unfold chunks. destruct (chunk_positions (messages a)); [congruence|]. rewrite zlen_cons. pose proof (zlen_nonneg _ l). lia.
Qed.

Lemma same_place : forall ring s0 st x y, 0 < ring -> st = (s0 + x) mod ring -> (s0 + (x + y)) mod ring = (st + y) mod ring.
Proof. intros ring s0 st x y Hr ->. rewrite Zplus_mod_idemp_l. f_equal. ring. Qed.

Lemma run_holds : forall cs nc start0 disk kept start o local bytes stage ops ps code s r tr1 tr2 f0 disk',
  0 <= start0 -> holds cs nc start0 disk kept start ->
  rco_chunk_size o = cs -> rco_num_chunks o = nc -> rco_start_pos o = start ->
  runs o local bytes stage ops ps code s -> record (rco_sid o) stage local [] [] ps r ->
  rc_trace s = tr1 ++ tr2 -> opened disk f0 -> after_crash (replay f0 (ring_calls tr1)) disk' ->
  let recorded := concat (map bytes (match r with Some l => l | None => [] end)) in
  holds cs nc start0 disk' (kept ++ ztake (cs * (chunks (messages tr1) - 1)) recorded) (last (chunk_positions (messages tr1)) start).
Proof.
  intros cs nc start0 disk kept start o local bytes stage ops ps code s r tr1 tr2 f0 disk' S0 [Geo [[m Hm] [Hs Hk]]] <- <- <- Ru Rc E Op Cr.
  set (cs := rco_chunk_size o) in *. set (nc := rco_num_chunks o) in *. set (start := rco_start_pos o) in *.
  cbv zeta. set (rb := concat (map bytes (match r with Some l => l | None => [] end))).
  set (k := chunks (messages tr1)).
  pose proof (geo cs nc start Geo) as [Hcs [Hring [Hst [_ [G5 _]]]]].
  pose proof (zlen_nonneg _ kept) as K0.
  (* what is written and what is kept of the run *)
  assert (Main : (k = 0 \/ exists q, 1 <= k /\ zlen (ztake (cs * (k - 1)) rb) = cs * (k - 1) /\ q = zlen rb) /\
            (forall x, 0 <= x < cs * nc -> cs * Z.max 1 k <= (x - start) mod (cs * nc) -> disk' x = disk x) /\
            (forall i, 0 <= i < cs * (k - 1) -> cs * k - cs * nc <= i -> znth i rb = Some (disk' ((start + i) mod (cs * nc))))).
  { destruct (runs_all _ _ _ _ _ _ _ _ Ru) as [[_ [M [_ Tr]]]|[r' [ok [Rc' [Se [_ [_ [_ [An [Ch _]]]]]]]]]].
    - assert (K : k = 0). { unfold k. rewrite E, messages_app in M. apply app_eq_nil in M as [-> _]. reflexivity. }
      split; [left; exact K|]. split; [|intros i Hi; rewrite K in Hi; lia].
      intros x Hx Hd. assert (Re : replay f0 (ring_calls tr1) = f0).
      { rewrite Tr in E. destruct tr1 as [|y tr1]; [reflexivity|]. injection E as <- E. symmetry in E. apply app_eq_nil in E as [-> _]. reflexivity. }
      rewrite Re in Cr. destruct Op as [_ Op]. destruct (Op x) as [O1 [O2 O3]]. rewrite (Cr x O3). exact O2.
    - rewrite (record_det _ _ _ _ _ _ _ Rc' _ Rc) in *. clear Rc'. change (recorded r) with (match r with Some l => l | None => [] end) in Se.
      assert (Ec : ring_calls (rc_trace s) = ring_calls tr1 ++ ring_calls tr2) by (rewrite E; apply calls_app).
      pose proof (written_bound _ _ _ _ _ _ _ _ Geo Se An _ _ E) as Wb. fold k in Wb.
      assert (Win : forall i, 0 <= i < cs * (k - 1) -> cs * k - cs * nc <= i -> znth i rb = Some (disk' ((start + i) mod (cs * nc)))).
      { destruct r as [l|].
        - assert (Cc : chunks (messages (rc_trace s)) = 1 + zlen (announced (ring_calls (rc_trace s)))).
          { unfold chunks. rewrite Ch, zlen_cons. unfold zlen. rewrite map_length. lia. }
          exact (window _ _ _ _ _ _ _ _ Geo Se An Cc f0 (proj1 Op) _ _ _ E Cr).
        - intros i Hi. exfalso. unfold k, chunks in Hi. rewrite E, messages_app, positions_app in Ch. apply app_eq_nil in Ch as [Ch _]. rewrite Ch in Hi.
          change (zlen (@nil Z)) with 0 in Hi. lia. }
      split; [|split; [|exact Win]].
      + destruct (Z.eq_dec k 0) as [K|K]; [auto|]. right. exists (zlen rb). pose proof (zlen_nonneg _ (chunk_positions (messages tr1))) as Kn. fold (chunks (messages tr1)) in Kn. fold k in Kn.
        split; [lia|]. split; [|reflexivity]. rewrite zlen_ztake. cut (0 <= cs * (k - 1) <= zlen rb); [lia|]. split; [nia|].
        destruct (announcements _ _ _ _ _ _ _ _ Geo Se _ _ Ec) as [[A _] _].
        assert (C1 : k <= 1 + zlen (announced (ring_calls tr1))).
        { destruct r as [l|].
          - apply (counts _ _ _ _ An E). unfold chunks. rewrite Ch, zlen_cons. unfold zlen. rewrite map_length. lia.
          - exfalso. apply K. unfold k, chunks. rewrite E, messages_app, positions_app in Ch. apply app_eq_nil in Ch as [Ch _]. rewrite Ch. reflexivity. }
        destruct (ring_holds_latest _ _ _ _ _ f0 _ _ _ Geo (proj1 Op) Se _ _ Ec) as [[z Pz] _]. fold rb in Pz.
        assert (zlen (written (ring_calls tr1)) <= zlen rb) by (rewrite Pz, zlen_app; pose proof (zlen_nonneg _ z); lia). nia.
      + intros x Hx Hd. apply (session_keeps _ _ _ _ _ _ _ _ f0 disk Geo Op Se _ _ _ Ec Cr x Hx). lia. }
  destruct Main as [Ln [Keep Win]].
  assert (Old : forall i, 0 <= i < zlen kept -> zlen kept + cs * Z.max 1 k - cs * nc <= i -> disk' ((start0 + i) mod (cs * nc)) = disk ((start0 + i) mod (cs * nc))).
  { intros i Hi Hl. apply Keep; [apply Z.mod_pos_bound; lia|].
    replace (start0 + i) with (start0 + (zlen kept + (i - zlen kept))) by lia. rewrite (same_place _ start0 start (zlen kept)) by auto.
    rewrite Zminus_mod_idemp_l. replace (start + (i - zlen kept) - start) with (i - zlen kept) by lia.
    replace ((i - zlen kept) mod (cs * nc)) with (i - zlen kept + cs * nc); [lia|].
    apply Z.mod_unique with (-1); nia. }
  destruct Ln as [K|[q [K1 [Lk _]]]].
  - (* no chunk message *)
    rewrite K in *. replace (ztake (cs * (0 - 1)) rb) with (@nil Z) by (symmetry; apply length_zero_iff_nil; unfold ztake; destruct rb; [destruct (Z.to_nat _); reflexivity|replace (Z.to_nat (cs * (0 - 1))) with O by lia; reflexivity]).
    rewrite app_nil_r. assert (Cn : chunk_positions (messages tr1) = []).
    { unfold k, chunks in K. destruct (chunk_positions (messages tr1)) as [|z l]; [reflexivity|]. rewrite zlen_cons in K. pose proof (zlen_nonneg _ l). lia. }
    rewrite Cn. cbn [last]. split; [exact Geo|]. split; [eauto|]. split; [exact Hs|].
    intros i Hi Hl. rewrite Hk by lia. rewrite Old by lia. reflexivity.
  - assert (Ne : chunk_positions (messages tr1) <> []).
    { intros Cn. unfold k, chunks in K1. rewrite Cn in K1. change (zlen (@nil Z)) with 0 in K1. lia. }
    pose proof (positions_at _ _ _ _ _ _ _ _ Ru _ _ E Ne) as Pa. fold cs nc start k in Pa. rewrite Pa.
    unfold holds. rewrite zlen_app, Lk.
    split. { destruct Geo as [A [B [C [D F]]]]. split; [exact A|]. split; [exact B|]. split; [exact C|]. split; [apply Z.mod_pos_bound; lia|].
      rewrite mod_mod_div by (auto; rewrite Z.mul_comm; apply Z.mod_mul; lia). rewrite Z.mod_add by lia. exact F. }
    split. { exists (m + (k - 1)). rewrite Hm. ring. }
    split. { rewrite (same_place _ start0 start) by auto. rewrite Z.mul_comm with (n := k - 1). reflexivity. }
    intros i Hi Hl. destruct (Z.lt_ge_cases i (zlen kept)) as [Lt|Ge].
    + rewrite znth_app_l by lia. rewrite Hk by nia. rewrite Old; [reflexivity|lia|]. replace (Z.max 1 k) with k by lia. lia.
    + rewrite znth_app_r by lia. rewrite znth_ztake by lia. rewrite Win by lia.
      replace (start0 + i) with (start0 + (zlen kept + (i - zlen kept))) by lia. rewrite (same_place _ start0 start (zlen kept)) by auto. reflexivity.
Qed.

Lemma timeline_holds : forall cs nc start0 disk kept start, valid_geometry cs nc start0 -> timeline cs nc start0 disk kept start -> holds cs nc start0 disk kept start.
Proof.
  intros cs nc start0 disk kept start G T. pose proof (geo _ _ _ G) as [Hcs [Hring [Hst _]]].
  induction T as [disk|disk kept start o local bytes stage ops ps code s r tr1 tr2 f0 disk' T IH E1 E2 E3 Ru Rc E Op Cr].
  - split; [exact G|]. split; [exists 0; rewrite Z.mul_0_r; reflexivity|]. change (zlen (@nil Z)) with 0. rewrite Z.add_0_r. split; [rewrite Z.mod_small; auto|]. intros i Hi. lia.
  - eapply run_holds; eauto. lia.
Qed.

(** Wherever the runs were cut off, the next run can begin at the position of the
    last chunk message, which is that of the bytes kept so far, counted round the
    ring. *)
Theorem C73_position : forall cs nc start0 disk kept start, valid_geometry cs nc start0 -> timeline cs nc start0 disk kept start ->
  start = (start0 + zlen kept) mod (cs * nc) /\ load_recorder_option cs nc (Some start) = Some (cs, nc, start).
Proof.
  intros cs nc start0 disk kept start G T. destruct (timeline_holds _ _ _ _ _ _ G T) as [[[A1 A2] [B [[C1 C2] [[D1 D2] F]]]] [_ [H _]]]. split; [exact H|].
  unfold load_recorder_option. change kRingBufferSize with 8192. change kMaxChunkSize with (8192 * 262143). change kMaxNumChunks with 2147483647.
  assert (U1 : u64 cs = cs) by (unfold u64; apply Z.mod_small; lia). assert (U2 : u64 nc = nc) by (unfold u64; apply Z.mod_small; lia).
  rewrite U1, U2, B, F. assert (U3 : u64 (cs * nc) = cs * nc) by (unfold u64; apply Z.mod_small; nia). rewrite U3.
  destruct (Z.eqb_spec cs 0); [lia|]. destruct (Z.ltb_spec (8192 * 262143) cs); [lia|]. destruct (Z.eqb_spec nc 0); [lia|]. destruct (Z.ltb_spec 2147483647 nc); [lia|].
  cbn [negb Z.eqb]. destruct (Z.leb_spec (cs * nc) start); [lia|]. reflexivity.
Qed.
Print Assumptions C73_position.

(** Of everything kept in all runs, the last bytes are in the file before that
    position: as many as the ring holds, less one chunk. *)
Theorem C73_resumed : forall cs nc start0 disk kept start, valid_geometry cs nc start0 -> timeline cs nc start0 disk kept start ->
  forall n, 0 <= n <= zlen kept -> n <= cs * nc - cs ->
  slice disk (cs * nc) (start - n) n = zdrop (zlen kept - n) kept.
Proof.
  intros cs nc start0 disk kept start G T n Hn Hr. destruct (timeline_holds _ _ _ _ _ _ G T) as [G' [_ [Hs Hk]]].
  pose proof (geo _ _ _ G') as [Hcs [Hring _]].
  assert (Ls : zlen (slice disk (cs * nc) (start - n) n) = n) by (unfold slice, zlen; rewrite map_length, seq_length; lia).
  apply znth_ext; [rewrite Ls, zlen_zdrop; lia|]. intros i Hi. rewrite Ls in Hi. rewrite znth_slice by lia. rewrite znth_zdrop by lia.
  rewrite Hk by lia. do 2 f_equal. replace (start0 + (zlen kept - n + i)) with (start0 + (zlen kept + (i - n))) by lia. rewrite (same_place _ start0 start) by auto. f_equal. lia.
Qed.
Print Assumptions C73_resumed.

(** Two runs of the recording above, into four chunks of 8192 bytes: the first
    begins at the last chunk and comes to its end, the second begins where the
    first ended and crashes before its stop message.  Two chunks are kept of each;
    all but the first of them are in the file. *)
Definition yopt (start : Z) := mkRcOption 101 8192 4 start.
Definition ybytes (b : Z) (p : packet) : list Z := p_pid p :: repeat b 187.
Definition yrun (start : Z) (b : Z) : option (rec_state * list entry) :=
  match rc_new (yopt start) [] with
  | Ok s0 => match FeedPackets (list_source packet) (recorder (yopt start) (fun _ => 0) (ybytes b) 0) 200 rstream s0 with
             | Some (Ok (0, s)) => Some (s, rc_trace s)
             | _ => None end
  | _ => None end.

Lemma yrun_runs : forall start b s tr, valid_geometry 8192 4 start -> yrun start b = Some (s, tr) ->
  runs (yopt start) (fun _ => 0) (ybytes b) 0 [] rstream 0 s /\ tr = rc_trace s.
Proof.
  intros start b s tr G H. unfold yrun in H. destruct (rc_new (yopt start) []) as [s0|] eqn:N; [|discriminate].
  destruct (FeedPackets _ _ _ _ _) as [[[c s']|]|] eqn:F; [|discriminate..]. destruct c; [|discriminate..]. injection H as <- <-.
  split; [|reflexivity]. split; [exact G|]. exists 200%nat, s0. auto.
Qed.

(** What is kept of such a run. *)
Lemma yrun_kept : forall start b s tr tr1 tr2, valid_geometry 8192 4 start -> yrun start b = Some (s, tr) -> tr = tr1 ++ tr2 ->
  16384 <= zlen (written (ring_calls tr)) ->
  exists r, record 101 0 (fun _ => 0) [] [] rstream r /\
    zlen (ztake 16384 (concat (map (ybytes b) (match r with Some l => l | None => [] end)))) = 16384.
Proof.
  intros start b s tr tr1 tr2 G Y E W. destruct (yrun_runs _ _ _ _ G Y) as [R Et].
  destruct (records _ _ _ _ _ _ _ _ R) as [[_ X]|[r [Rc [Se _]]]].
  - exfalso. rewrite Et, X in W. apply W. reflexivity.
  - exists r. split; [exact Rc|]. rewrite zlen_ztake.
    assert (F0 : f_pos (mkFile (fun _ => 0) 0 0 (fun _ => 0) (fun _ => false)) = 0) by reflexivity.
    assert (En : ring_calls (rc_trace s) = ring_calls (rc_trace s) ++ []) by (symmetry; apply app_nil_r).
    destruct (ring_holds_latest _ _ _ _ _ _ _ _ _ G F0 Se _ _ En) as [[z Pz] _].
    rewrite Et in W. rewrite Pz, zlen_app. pose proof (zlen_nonneg _ z). lia.
Qed.

Example C73_case : exists disk kept, valid_geometry 8192 4 24576 /\ timeline 8192 4 24576 disk kept 24576 /\ zlen kept = 32768 /\
  slice disk 32768 0 3 = [1; 1; 1] /\ slice disk 32768 8381 4 = [2; 2; 2; 2].
Proof.
  assert (G1 : valid_geometry 8192 4 24576) by (unfold valid_geometry; lia).
  assert (G2 : valid_geometry 8192 4 8192) by (unfold valid_geometry; lia).
  pose (f1 := mkFile (fun _ => 255) 0 0 (fun _ => 255) (fun _ => false)).
  destruct (yrun 24576 1) as [[s1 t1]|] eqn:Y1; [|vm_compute in Y1; discriminate].
  destruct (yrun_runs _ _ _ _ G1 Y1) as [R1 T1].
  destruct (yrun 8192 2) as [[s2 t2]|] eqn:Y2; [|vm_compute in Y2; discriminate].
  destruct (yrun_runs _ _ _ _ G2 Y2) as [R2 T2].
  pose (d1 := f_synced (replay f1 (ring_calls t1))).
  pose (f2 := mkFile d1 0 0 d1 (fun _ => false)).
  pose (d2 := f_synced (replay f2 (ring_calls (firstn (length t2 - 1) t2)))).
  assert (E1 : t1 = t1 ++ []) by (symmetry; apply app_nil_r).
  assert (E2 : t2 = firstn (length t2 - 1) t2 ++ skipn (length t2 - 1) t2) by (symmetry; apply firstn_skipn).
  assert (V1 : (match yrun 24576 1 with Some (_, t) => (16384 <=? zlen (written (ring_calls t)), chunks (messages t), last (chunk_positions (messages t)) 24576)
               | None => (false, 0, 0) end) = (true, 3, 8192)) by (vm_compute; reflexivity).
  rewrite Y1 in V1. injection V1 as W1 C1 L1. apply Z.leb_le in W1.
  assert (V2 : (match yrun 8192 2 with Some (_, t) => let t' := firstn (length t - 1) t in
                  (16384 <=? zlen (written (ring_calls t)), chunks (messages t'), last (chunk_positions (messages t')) 8192)
               | None => (false, 0, 0) end) = (true, 3, 24576)) by (vm_compute; reflexivity).
  rewrite Y2 in V2. cbv zeta in V2. injection V2 as W2 C2 L2. apply Z.leb_le in W2.
  destruct (yrun_kept _ _ _ _ _ _ G1 Y1 E1 W1) as [r1 [Rc1 K1]]. destruct (yrun_kept _ _ _ _ _ _ G2 Y2 E2 W2) as [r2 [Rc2 K2]].
  pose proof (T_run 8192 4 24576 (fun _ => 255) [] 24576 (yopt 24576) (fun _ => 0) (ybytes 1) 0 [] rstream 0 s1 r1 t1 [] f1 d1
    (T_none _ _ _ _) eq_refl eq_refl eq_refl R1 Rc1 ltac:(rewrite <- T1; exact E1) ltac:(split; [reflexivity|intros i; repeat split]) ltac:(intros i _; reflexivity)) as Q1.
  cbv zeta in Q1. rewrite L1, C1 in Q1.
  pose proof (T_run 8192 4 24576 _ _ _ (yopt 8192) (fun _ => 0) (ybytes 2) 0 [] rstream 0 s2 r2 _ _ f2 d2
    Q1 eq_refl eq_refl eq_refl R2 Rc2 ltac:(rewrite <- T2; exact E2) ltac:(split; [reflexivity|intros i; repeat split]) ltac:(intros i _; reflexivity)) as Q2.
  cbv zeta in Q2. rewrite L2, C2 in Q2. change (8192 * (3 - 1)) with 16384 in Q2.
  eexists _, _. split; [exact G1|]. split; [exact Q2|]. split; [rewrite !zlen_app, K1, K2; reflexivity|].
  assert (V3 : (match yrun 24576 1, yrun 8192 2 with
                | Some (_, t1), Some (_, t2) =>
                    let d1 := f_synced (replay f1 (ring_calls t1)) in
                    let d2 := f_synced (replay (mkFile d1 0 0 d1 (fun _ => false)) (ring_calls (firstn (length t2 - 1) t2))) in
                    (slice d2 32768 0 3, slice d2 32768 8381 4)
                | _, _ => ([], []) end) = ([1; 1; 1], [2; 2; 2; 2])) by (vm_compute; reflexivity).
  rewrite Y1, Y2 in V3. cbv zeta in V3. split; [exact (f_equal fst V3)|exact (f_equal snd V3)].
Qed.
