(** record-service with two wall clocks. *)
From Coq Require Import ZArith Lia List Bool.
From Verif Require Import Base.Outcome Base.Util Model.Pcr Model.Clock Model.Sink Model.Ts Model.FileSource Model.RingFileSink Model.ServiceFilter Model.ServiceRecorder Model.Commands
  Spec.SourceSpec Spec.ClockSpec Spec.FilterSpec Spec.TuneSpec Spec.FileSpec Spec.RecorderSpec Spec.JournalSpec Spec.TransSpec Spec.PipeSpec Spec.WallSpec
  Proofs.ClockProofs Proofs.FilterProofs Proofs.TuneProofs Proofs.RecorderProofs Proofs.RecorderMain Proofs.RecorderJournal Proofs.PipeProofs Proofs.WallProofs.
Import ListNotations.
Open Scope Z_scope.

Lemma start_alone : forall o l1 l2 s, rc_Start o l1 s = rc_Start o l2 s.
Proof.
  intros o l1 l2 s. unfold rc_Start. destruct (_ =? 0); [reflexivity|]. apply bind_same. intros [[r evs] ok] E.
  assert (X : rc_ring_events l1 s evs = rc_ring_events l2 s evs).
  { unfold rg_SetPosition, assert in E. destruct (_ <=? _); [|discriminate]. destruct (_ =? 0); [|discriminate]. destruct (_ <? _); [|discriminate].
    destruct (_ =? 0); [|discriminate]. destruct (rg_next _) as [[|] ?]; injection E as <- <- <-; reflexivity. }
  rewrite X. reflexivity.
Qed.

Lemma start_fields : forall o loc ops s0 s1, rc_new o ops = Ok s0 -> rc_Start o loc s0 = Ok (s1, true) ->
  brel o [] 0 [] s1 /\ rc_recording s1 = false /\ rc_new_eit s1 = None.
Proof.
  intros o loc ops s0 s1 N E. unfold rc_new in N. destruct (rg_new _ _ _) as [r|]; [|discriminate]. injection N as <-.
  assert (B0 : brel o [] 0 [] (rc_init r)) by (destruct (RecorderMain.rel_init o loc O r) as [R1 R2 R3 R4 R5 R6]; constructor; auto).
  assert (X : forall x, keeps (rc_init r) x -> rc_reads x = O -> rc_new_eit x = None -> brel o [] 0 [] x /\ rc_recording x = false /\ rc_new_eit x = None).
  { intros x K Rd Nw. split; [rewrite <- Rd; eapply brel_keeps; eauto|]. split; [|exact Nw]. destruct K as (_ & _ & _ & -> & _). reflexivity. }
  unfold rc_Start in E. destruct (_ =? 0); [injection E as <-; apply X; [repeat split|reflexivity|reflexivity]|].
  apply bind_ok in E as ([[r2 evs] ok] & E0 & E). apply bind_ok in E as (s2 & E2 & E). destruct ok; [|discriminate]. injection E as <-.
  unfold rg_SetPosition, assert in E0. destruct (_ <=? _); [|discriminate]. destruct (_ =? 0); [|discriminate]. destruct (_ <? _); [|discriminate].
  destruct (_ =? 0); [|discriminate]. destruct (rg_next _) as [[|] ?]; [|discriminate E0]. injection E0 as <- <-.
  cbn [rc_ring_events bind] in E2. injection E2 as <-.
  destruct B0 as [R1 R2 R3 R4 R5]. split; [constructor; auto|]. split; reflexivity.
Qed.

Lemma reloc_self : forall s, reloc (ck_local (rc_clock s)) s = s.
Proof. intros [a [b l lp g r w] c d e f g2 h i j k]. reflexivity. Qed.

Section Two.
Variable o : recorder_option.
Variable bytes : packet -> list Z.
Notation sid := (rco_sid o).

(** ** Fed with a list *)
Lemma feed_twin : forall local stage ops s0 ps n, rc_new o ops = Ok s0 -> (List.length ps < n)%nat -> holds sid stage [] [] ps ->
  match FeedPackets (list_source packet) (recorder o still bytes stage) n ps s0, FeedPackets (list_source packet) (recorder o local bytes stage) n ps s0 with
  | Some (Ok (c, s)), Some (Ok (c', s')) => c' = c /\ rc_trace s' = rc_trace s
  | Some (Fail f), Some (Fail f') => f' = f
  | _, _ => False
  end.
Proof.
  intros local stage ops s0 ps n N Hn H.
  assert (Es : sk_start (recorder o local bytes stage) s0 = sk_start (recorder o still bytes stage) s0) by apply start_alone.
  destruct (sk_start (recorder o still bytes stage) s0) as [[s1 [|]]|f] eqn:E.
  - rewrite (feed_hand _ (recorder o local bytes stage) ps n s0 s1 Hn Es), (feed_hand _ (recorder o still bytes stage) ps n s0 s1 Hn E).
    destruct (start_fields _ _ _ _ _ N E) as (B & Rc & Nw).
    pose proof (hand_holds o local bytes stage ps [] O [] s1 (ck_local (rc_clock s1)) B Rc Nw H) as X. rewrite reloc_self in X.
    destruct (hand (recorder o still bytes stage) s1 ps) as [? [[s2 b]|f]], (hand (recorder o local bytes stage) s1 ps) as [? [[s2' b']|f']]; cbn [snd simb] in *; try contradiction.
    + destruct X as [_ [lx ->]]. cbn. auto.
    + auto.
  - unfold FeedPackets. rewrite Es, E. auto.
  - unfold FeedPackets. rewrite Es, E. auto.
Qed.

(** ** The whole command *)
Definition shown (r : option (res (Z * (list (list Z) * (sf_state * rec_state))))) : option (res (Z * list entry)) :=
  match r with
  | Some (Ok (c, (_, (_, s)))) => Some (Ok (c, rc_trace s))
  | Some (Fail f) => Some (Fail f)
  | None => None
  end.

Lemma exit_code_fun : forall sid h c a b, exit_code sid h c a -> exit_code sid h c b -> a = b.
Proof. intros sid0 h c a b [(A1 & A2 & ->)|(A1 & ->)] [(B1 & B2 & ->)|(B1 & ->)]; auto; exfalso; tauto. Qed.

Variable view : list (list Z) -> list Z -> packet.

Ltac main_by A M :=
  match type of M with match ?r with _ => _ end => let A2 := fresh in pose proof (A : r = _) as A2; rewrite A2 in M; clear A2 end.

(** What a run of the command shows is a function of what the recorder, fed with
    the filtered list, shows. *)
Definition answer (e : FilterSpec.ending) (code : Z -> Z) (r : res (Z * list entry * bool)) : option (res (Z * list entry)) :=
  match r with
  | Fail f => Some (Fail f)
  | Ok (c, t, false) => Some (Ok (c, t))
  | Ok (c, t, true) => match e with FilterSpec.Crashed f => Some (Fail f) | _ => Some (Ok (code c, t)) end
  end.
Definition fed (local : nat -> Z) (s0 : rec_state) (mid : list packet) : res (Z * list entry * bool) :=
  let k := recorder o local bytes 1 in
  match sk_start k s0 with
  | Fail f => Fail f
  | Ok (s1, false) => Ok (1, rc_trace s1, false)
  | Ok (s1, true) =>
      match snd (hand k s1 mid) with
      | Fail f => Fail f
      | Ok (s2, b) => match finish k s2 with Fail f => Fail f | Ok (c, s3) => Ok (c, rc_trace s3, b) end
      end
  end.

Lemma command_shown : forall sid s0 reads bs n, Forall read_ok reads -> packets_of (bytes_of reads) bs ->
  (List.length (bytes_of reads) < n)%nat ->
  exists mid e h code, filtered (sid mod 2 ^ 16) None 0 anything [] tt (views view [] bs) mid e h tt /\ (forall c, exit_code (sid mod 2 ^ 16) h c (code c)) /\
  forall local, shown (record_service_main view bytes sid o local s0 reads n) = answer e code (fed local s0 mid).
Proof.
  intros sid s0 reads bs n R Pk Hn. set (ps := views view [] bs). set (opt := load_service_filter (Some sid)).
  destruct (filter_total 0 opt ps) as [mid [e [h F]]].
  set (code := fun c => if (c =? 0) && existsb (missing (sid mod 2 ^ 16)) h then 1 else c).
  assert (Cd : forall c, exit_code (sid mod 2 ^ 16) h c (code c)).
  { intros c. unfold code, exit_code. destruct (Z.eqb_spec c 0) as [->|Nc]; cbn [andb]; [|right; split; [tauto|reflexivity]].
    destruct (existsb _ h) eqn:Ex.
    - left. split; [reflexivity|]. split; [|reflexivity]. apply existsb_exists in Ex. exact Ex.
    - right. split; [|reflexivity]. intros [_ X]. apply existsb_exists in X. congruence. }
  exists mid, e, h, code. split; [exact F|]. split; [exact Cd|]. intros local. set (k := recorder o local bytes 1).
  assert (Hl : (List.length ps < n)%nat) by (unfold ps; rewrite views_length; pose proof (packets_length _ _ Pk); lia).
  pose proof (main_feed view (service_filter 0 opt k) reads bs (sf_init opt, s0) n R Pk Hn) as M. fold ps in M.
  change (run_main view (service_filter 0 opt k) reads (sf_init opt, s0) n) with (record_service_main view bytes sid o local s0 reads n) in M.
  set (main := record_service_main view bytes sid o local s0 reads n) in *. clearbody main. unfold fed. fold k.
  destruct (sk_start k s0) as [[d1 [|]]|f] eqn:Es.
  - pose proof (filter_around 0 opt k ps n s0 d1 mid e h Hl Es F) as A. cbv zeta in A.
    destruct (snd (hand k d1 mid)) as [[d2 [|]]|f].
    + destruct e as [| | |f]; [| | |destruct (finish k d2) as [[c d3]|f2] eqn:Fi; [main_by A M; rewrite M; reflexivity|discriminate Fi]];
        (destruct (finish k d2) as [[c d3]|f2]; [|main_by A M; rewrite M; reflexivity];
         destruct A as [t [code2 [X A]]]; main_by A M; destruct M as [seen ->]; cbn; rewrite (exit_code_fun _ _ _ _ _ X (Cd c)); reflexivity).
    + destruct (finish k d2) as [[c d3]|f2]; [|main_by A M; rewrite M; reflexivity]. destruct A as [t A]. main_by A M. destruct M as [seen ->]. reflexivity.
    + main_by A M. rewrite M. reflexivity.
  - unfold FeedPackets in *. cbn [service_filter sk_start fst snd] in M. fold k in M. rewrite Es in *. cbn [bind] in M. destruct M as [seen ->]. reflexivity.
  - unfold FeedPackets in *. cbn [service_filter sk_start fst snd] in M. fold k in M. rewrite Es in *. cbn [bind] in M. rewrite M. reflexivity.
Qed.

Lemma fed_twin : forall local ops s0 mid, rc_new o ops = Ok s0 -> holds (rco_sid o) 1 [] [] mid -> fed local s0 mid = fed still s0 mid.
Proof.
  intros local ops s0 mid N H. unfold fed. change (sk_start (recorder o local bytes 1) s0) with (rc_Start o local s0).
  change (sk_start (recorder o still bytes 1) s0) with (rc_Start o still s0). rewrite (start_alone o local still).
  destruct (rc_Start o still s0) as [[s1 [|]]|f] eqn:E; auto.
  destruct (start_fields _ _ _ _ _ N E) as (B & Rc & Nw).
  pose proof (hand_holds o local bytes 1 mid [] O [] s1 (ck_local (rc_clock s1)) B Rc Nw H) as X. rewrite reloc_self in X.
  destruct (hand (recorder o still bytes 1) s1 mid) as [? [[s2 b]|f]], (hand (recorder o local bytes 1) s1 mid) as [? [[s2' b']|f']]; cbn [snd simb] in *; try contradiction.
  - destruct X as [-> [lx ->]]. reflexivity.
  - congruence.
Qed.
End Two.

(** ** When recording starts *)
Definition strip (op : clock_op) : clock_op := match op with OpTime t _ => OpTime t 0 | _ => op end.

Lemma step_strip : forall c l op, exists l', ck_step (cl l c) (strip op) = rmap (cl l') (ck_step c op).
Proof.
  intros c l [pid|t x|v]; cbn [strip ck_step].
  - exists l. reflexivity.
  - apply time_cl.
  - exists l. apply pcr_cl.
Qed.
Lemma run_strip : forall ops c l, exists l', ck_run (cl l c) (map strip ops) = rmap (cl l') (ck_run c ops).
Proof.
  induction ops as [|op ops IH]; intros c l; cbn [map ck_run]; [exists l; reflexivity|].
  destruct (step_strip c l op) as [l1 ->]. destruct (ck_step c op) as [c1|f]; cbn [rmap bind]; [apply IH|exists 0; reflexivity].
Qed.
Lemma ready_strip : forall ops, ready_after (map strip ops) = ready_after ops.
Proof.
  intros ops. unfold ready_after. destruct (run_strip ops clock_init 0) as [l E]. change (cl 0 clock_init) with clock_init in E. rewrite E.
  destruct (ck_run clock_init ops); reflexivity.
Qed.

Lemma seen_strip : forall ops p t, seen ops p t -> seen (map strip ops) p t.
Proof.
  induction 1 as [|h p t pid S IH|h p t time l S IH|h p t pcr S IH R|h p t pcr S IH R L]; rewrite ?map_app; cbn [map strip].
  - constructor.
  - eapply seen_pid; eauto.
  - eapply seen_tot; eauto.
  - eapply seen_pcr; eauto. change [OpPcr pcr] with (map strip [OpPcr pcr]). rewrite <- map_app, !ready_strip. exact R.
  - eapply seen_lost; [eauto|rewrite ready_strip; exact R|]. change [OpPcr pcr] with (map strip [OpPcr pcr]). rewrite <- map_app, ready_strip. exact L.
Qed.
Lemma seen_some : forall ops, exists p t, seen ops p t.
Proof.
  induction ops as [|op ops IH] using rev_ind; [exists false, false; constructor|]. destruct IH as (p & t & S).
  destruct op as [pid|x l|v]; [exists false, false; eapply seen_pid; eauto|exists p, true; eapply seen_tot; eauto|].
  destruct (ready_after ops) eqn:R; [destruct (ready_after (ops ++ [OpPcr v])) eqn:R2|].
  - exists true, t. eapply seen_pcr; eauto.
  - exists false, false. eapply seen_lost; eauto.
  - exists true, t. eapply seen_pcr; eauto. congruence.
Qed.
Lemma strip_seen : forall ops p t, seen (map strip ops) p t <-> seen ops p t.
Proof.
  intros ops p t. split; [|apply seen_strip]. intros S. destruct (seen_some ops) as (p' & t' & S').
  destruct (seen_fun _ _ _ (seen_strip _ _ _ S') _ _ S) as [-> ->]. exact S'.
Qed.

Lemma note_strip : forall sid local ts h ops pid h' ops', note sid local h ops pid ts = (h', ops') ->
  note sid still h (map strip ops) pid ts = (h', map strip ops').
Proof.
  intros sid local. induction ts as [|t ts IH]; intros h ops pid h' ops' E; cbn [note] in *; [injection E as <- <-; reflexivity|].
  apply IH in E. rewrite map_app in E. rewrite <- E. f_equal. f_equal. unfold clock_table.
  destruct (service_pmt sid (pid, tb_body t)); [destruct (_ || _); reflexivity|]. destruct (snd (pid, tb_body t)) as [| | | |[x|]| | |]; reflexivity.
Qed.

Lemma record_strip : forall sid stage local h ops ps r, record sid stage local h ops ps r -> record sid stage still h (map strip ops) ps r.
Proof.
  intros sid stage local. induction 1 as [h ops|h ops p ps ts h' ops' H N R|h ops p ps ts h' ops' r H N R _ IH].
  - constructor.
  - apply note_strip in N. rewrite map_app in N. eapply R_ready; [exact H| |].
    + rewrite <- N. f_equal. unfold clock_packet. destruct (_ && _); [destruct (p_pcr p)|]; cbn; rewrite ?app_nil_r; reflexivity.
    + destruct R as [R1 R2]. split; [apply strip_seen; exact R1|exact R2].
  - apply note_strip in N. rewrite map_app in N. eapply R_wait; [exact H| | |exact IH].
    + rewrite <- N. f_equal. unfold clock_packet. destruct (_ && _); [destruct (p_pcr p)|]; cbn; rewrite ?app_nil_r; reflexivity.
    + intros [R1 R2]. apply R. split; [apply strip_seen; exact R1|exact R2].
Qed.

(** ** Checking by a run *)
Section Watch.
Variable o : recorder_option.
Variable bytes : packet -> list Z.
Variable stage : nat.
Notation sid := (rco_sid o).

Fixpoint watch (s : rec_state) (ps : list packet) : bool :=
  match ps with
  | [] => true
  | p :: r =>
      match half o stage still s p, rc_HandlePacket o still bytes stage s p with
      | Ok s2, Ok (s3, true) => (if rc_recording s then ck_IsReady (rc_clock s2) else true) && watch s3 r
      | _, _ => false
      end
  end.

Lemma note_past : forall h n ops s p s2, brel o h n ops s -> half o stage still s p = Ok s2 -> exists h' ops', past sid stage h ops p h' ops'.
Proof.
  intros h n ops s p s2 B E. destruct (after_ok o still stage _ _ _ _ _ _ B E) as (ts & h' & n' & ops' & [H N] & _).
  exists h', ops', ts. split; [exact H|]. eapply heed_note; eauto.
Qed.

Lemma recorded_brel : forall h n ops s p s3 b, brel o h n ops s -> rc_OnRecording still bytes s p = Ok (s3, b) ->
  brel o h (rc_reads s3) ops s3 /\ rc_recording s3 = rc_recording s.
Proof.
  intros h n ops s p s3 b B E3. unfold rc_OnRecording in E3. apply bind_ok in E3 as (a & E & E3). apply bind_ok in E3 as ([[r evs] ok] & E0 & E3). apply bind_ok in E3 as (a1 & E1 & E3). injection E3 as <- _.
  destruct (keeps_trans _ _ _ (events_keeps _ _ _ E) (ring_keeps _ _ _ _ E1)) as (K1 & K2 & K3 & K4 & K5).
  destruct B as [R1 R2 R3 R4 R5]. split; [constructor; cbn [rc_set_ring rc_demux rc_clock rc_pmt_pid rc_reads]; rewrite ?K1, ?K2, ?K3; auto|exact K4].
Qed.

Lemma watch_steady : forall ps h n ops s, brel o h n ops s -> rc_recording s = true -> watch s ps = true -> steady sid stage h ops ps.
Proof.
  induction ps as [|p ps IH]; intros h n ops s B Rc W; [constructor|]. cbn [watch] in W. rewrite Rc in W.
  rewrite handle_half in W. destruct (half o stage still s p) as [s2|] eqn:E; [|discriminate]. cbn [bind] in W.
  destruct (note_past _ _ _ _ _ _ B E) as (h' & ops' & P). destruct (past_half o still bytes stage _ _ _ _ _ _ _ _ B E P) as (B2 & Rc2 & Rd & _).
  rewrite Rc2, Rc in W. destruct (rc_OnRecording still bytes s2 p) as [[s3 [|]]|] eqn:E3; try discriminate. apply andb_prop in W as [W1 W2].
  destruct (recorded_brel _ _ _ _ _ _ _ B2 E3) as [B3 Rc3].
  eapply S_packet; [exact P|apply Rd; exact W1|]. eapply IH; eauto.
Qed.

Lemma watch_loop : forall ps h n ops s, brel o h n ops s -> rc_recording s = false -> rc_new_eit s = latest (service_eit sid) h -> watch s ps = true ->
  holds sid stage h ops ps.
Proof.
  induction ps as [|p ps IH]; intros h n ops s B Rc Nw W; [constructor|]. cbn [watch] in W. rewrite Rc in W.
  rewrite handle_half in W. destruct (half o stage still s p) as [s2|] eqn:E; [|discriminate]. cbn [bind] in W.
  destruct (note_past _ _ _ _ _ _ B E) as (h' & ops' & P). destruct (past_half o still bytes stage _ _ _ _ _ _ _ _ B E P) as (B2 & Rc2 & Rd & Nw2). specialize (Nw2 Nw).
  rewrite Rc2, Rc in W. destruct (rc_OnPreparing o still s2) as [[s3 [|]]|] eqn:E3; try discriminate. cbn [andb] in W. unfold rc_OnPreparing in E3.
  destruct (ck_IsReady (rc_clock s2)) eqn:Y1.
  2: { injection E3 as <-. eapply H_wait; [exact P| |eapply IH; eauto; congruence]. intros [Y _]. apply Rd in Y. discriminate. }
  destruct (rc_new_eit s2) as [t|] eqn:Y2.
  2: { injection E3 as <-. eapply H_wait; [exact P| |eapply IH; eauto; congruence]. intros [_ Y]. congruence. }
  eapply H_start; [exact P|split; [apply Rd; reflexivity|congruence]|].
  assert (K : keeps (rc_set_recording s2) s3).
  { apply bind_ok in E3 as ([s4 now] & E0 & E3). apply now_keeps in E0 as ->. unfold assert in E3. destruct (_ <? _); [|discriminate]. destruct (_ =? 0); [|discriminate].
    apply bind_ok in E3 as (s5 & F1 & E3). unfold rc_SendChunkMessage in F1. apply bind_ok in F1 as (u & _ & F1). injection F1 as <-.
    apply bind_ok in E3 as (ev & _ & E3).
    destruct (rc_IsUnspecifiedEventEndTime ev); [apply bind_ok in E3 as (s6 & F2 & E3); apply boundary_keeps in F2; injection E3 as <-; (eapply keeps_trans; [|eapply keeps_trans; [exact F2|(repeat split; reflexivity)]]; (repeat split; reflexivity))|].
    apply bind_ok in E3 as (z & _ & E3).
    destruct (now <? z); [apply bind_ok in E3 as (s6 & F2 & E3); apply boundary_keeps in F2; injection E3 as <-; (eapply keeps_trans; [|eapply keeps_trans; [exact F2|(repeat split; reflexivity)]]; (repeat split; reflexivity))|].
    injection E3 as <-. (repeat split; reflexivity). }
  destruct K as (K1 & K2 & K3 & K4 & K5). cbn [rc_set_recording rc_demux rc_clock rc_pmt_pid rc_recording] in *.
  destruct B2 as [R1 R2 R3 R4 R5]. apply (watch_steady ps h' (rc_reads s3) ops' s3); [|exact K4|exact W].
  constructor; rewrite ?K1, ?K2, ?K3; auto.
Qed.

Lemma watch_holds : forall ops s0 ps, rc_new o ops = Ok s0 ->
  match rc_Start o still s0 with Ok (s1, true) => watch s1 ps | _ => false end = true -> holds sid stage [] [] ps.
Proof.
  intros ops s0 ps N W. destruct (rc_Start o still s0) as [[s1 [|]]|] eqn:E; try discriminate.
  destruct (start_fields _ _ _ _ _ N E) as (B & Rc & Nw). eapply watch_loop; eauto.
Qed.
End Watch.

(** What the filter passes on, by a run of the filter. *)
Definition keeping : sink packet := mkSink (list packet) (fun d => Ok (d, true)) (fun d p => Ok (d ++ [p], true)) (fun d => Ok d) (fun _ => Ok 0).
Lemma keeping_hand : forall ps d, snd (hand keeping d ps) = Ok (d ++ ps, true).
Proof.
  induction ps as [|p ps IH]; intros d; [cbn; rewrite app_nil_r; reflexivity|].
  specialize (IH (d ++ [p])). rewrite <- app_assoc in IH. cbn [app] in IH. rewrite <- IH.
  change (hand keeping d (p :: ps)) with (let '(out, x) := hand keeping (d ++ [p]) ps in (p :: out, x)).
  destruct (hand keeping (d ++ [p]) ps) as [x y]. reflexivity.
Qed.

Definition kept (x : option (res (Z * (sk_state (service_filter 0 (mkSfOption 0 None) keeping))))) : option (list packet) :=
  match x with Some (Ok (_, (_, m))) => Some m | _ => None end.
Definition passed (opt : service_filter_option) (n : nat) (ps : list packet) : option (list packet) :=
  kept (FeedPackets (list_source packet) (service_filter 0 opt keeping) n ps (sf_init opt, [])).

Lemma filtered_by_run : forall opt ps mid e h n (P : list packet -> Prop), (List.length ps < n)%nat ->
  match passed opt n ps with Some m => P m | _ => False end ->
  filtered (sfo_sid opt) (sfo_time_limit opt) 0 anything [] tt ps mid e h tt -> P mid.
Proof.
  intros opt ps mid e h n P L W F. pose proof (filter_around 0 opt keeping ps n [] [] mid e h L eq_refl F) as A. cbv zeta in A.
  rewrite keeping_hand in A. cbn [finish keeping sk_end sk_exit bind app] in A.
  assert (X : passed opt n ps = Some mid \/ passed opt n ps = None).
  { destruct e; try (right; exact (f_equal kept A)); left; destruct A as (s & code & _ & A); exact (f_equal kept A). }
  destruct X as [X|X]; rewrite X in W; [exact W|destruct W].
Qed.
