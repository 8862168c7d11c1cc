(** A service filter, a pipe, and a command that starts with a service filter: the commands. *)
From Coq Require Import ZArith Lia List Bool.
From Verif Require Import Base.Outcome Base.Util Model.Sink Model.Ts Model.FileSource Model.StdoutSink Model.ServiceFilter Model.RingFileSink Model.ServiceRecorder Model.Commands
  Model.PosixFile Model.Main
  Spec.SourceSpec Spec.StdoutSpec Spec.TransSpec Spec.FilterSpec Spec.TuneSpec Spec.PipeSpec Spec.TwiceSpec Spec.MainSpec Spec.PipelineSpec
  Proofs.SourceProofs Proofs.FilterProofs Proofs.FilterMain Proofs.PipeProofs Proofs.WallMain Proofs.MainProofs Proofs.CommandProofs Proofs.PipelineProofs.
From Verif Require Import Model.Pcr Model.ProgramFilter Model.RecorderOption.
Import ListNotations.
Open Scope Z_scope.

Section Pipeline.
Variable lib : library.
Variable view : list (list Z) -> list Z -> packet.
Hypothesis plain : plain_bytes (li_bytes lib).
Variable sid : Z.
Notation opt := (load_service_filter (Some sid)).
Variables (sys1 : system) (bs : list (list Z)) (n1 : nat) (e1 : ended).
Hypothesis input : has_input sys1 bs n1.
Hypothesis writes1 : Forall no_error (sy_writes sys1).
Hypothesis first : main lib sys1 (FilterService sid) n1 = Some (Ok e1).
Hypothesis pip : pipes lib view sid bs.

Let size : forall p, zlen (li_bytes lib p) = 188 := fun p => proj1 (plain p).

Lemma first_sent : exists mid e h, filtered (sid mod 2 ^ 16) None 0 anything [] tt (views (li_packet lib) [] bs) mid e h tt /\
  (forall f, e <> FilterSpec.Crashed f) /\ exit_code (sid mod 2 ^ 16) h 0 (en_code e1) /\ en_stdout e1 = concat (map (li_bytes lib) mid).
Proof.
  destruct (input_the _ _ _ input) as (R & Pk & L).
  destruct (filter_service_exact (li_packet lib) (li_bytes lib) size sid (the_reads sys1) bs (sy_writes sys1) n1 R Pk writes1 L) as (mid & e & h & F & M).
  exists mid, e, h. split; [exact F|]. unfold main in first.
  assert (X : (forall f, e <> FilterSpec.Crashed f) /\ exists code seen s w, filter_service_main (li_packet lib) (li_bytes lib) sid (the_reads sys1) (sy_writes sys1) n1 = Some (Ok (code, (seen, (s, w)))) /\
      exit_code (sid mod 2 ^ 16) h 0 code /\ so_out w = concat (map (li_bytes lib) mid)).
  { destruct e as [| | |f]; try (split; [discriminate|exact M]). rewrite M in first. discriminate first. }
  destruct X as (N & code & seen & s & w & E & X & O). split; [exact N|]. rewrite E in first. cbn in first. injection first as <-. auto.
Qed.

Lemma pipe_main : forall sys n sys2 n2 k1 k2 R R' d d1 d' d1', echoes k1 k2 R -> (forall x y, R x y -> sime R' (finish k1 x) (finish k2 y)) ->
  sk_start k1 d = Ok (d1, true) -> sk_start k2 d' = Ok (d1', true) -> R d1 d1' ->
  has_input sys bs n -> reads_from sys2 (en_stdout e1) n2 ->
  match run_main (li_packet lib) (service_filter 0 opt k1) (the_reads sys) (sf_init opt, d) n, run_main view (service_filter 0 opt k2) (the_reads sys2) (sf_init opt, d') n2 with
  | Some (Ok (c1, (_, (_, x)))), Some (Ok (c2, (_, (_, y)))) => R' x y /\ pipe_code (en_code e1) c2 c1 /\ exists y0, finish k2 y0 = Ok (c2, y)
  | Some (Fail f), Some (Fail g) => f = g
  | _, _ => False
  end.
Proof.
  intros sys n sys2 n2 k1 k2 R R' d d1 d' d1' H Hf S1 S2 Rd In (R2 & I2 & L2).
  destruct first_sent as (mid & e & h & F & N & X & O). destruct pip as (W & Ha & Pf & V). destruct (V mid e h F) as [Sy V']. clear V. rename V' into V.
  destruct (input_the _ _ _ In) as (R1 & Pk & L).
  assert (In2 : has_input sys2 (map (li_bytes lib) mid) n2).
  { split; [exact R2|]. rewrite I2. split; [|exact L2]. rewrite O, <- (app_nil_r (concat _)). apply aligned; [|rewrite zlen_nil; lia].
    apply Forall_forall. intros b Ib. apply in_map_iff in Ib as (p & <- & Ip). rewrite Forall_forall in Sy. auto. }
  destruct (input_the _ _ _ In2) as (R2' & Pk2 & L2').
  assert (La : (List.length (views (li_packet lib) [] bs) < n)%nat) by (rewrite views_length; pose proof (packets_length _ _ Pk); lia).
  assert (Lb : (List.length mid < n2)%nat) by (pose proof (packets_length _ _ Pk2) as Y; rewrite map_length in Y; lia).
  pose proof (main_feed (li_packet lib) (service_filter 0 opt k1) (the_reads sys) bs (sf_init opt, d) n R1 Pk L) as M1.
  pose proof (main_feed view (service_filter 0 opt k2) (the_reads sys2) (map (li_bytes lib) mid) (sf_init opt, d') n2 R2' Pk2 L2') as M2. rewrite V in M2.
  pose proof (pipe_feed opt (views (li_packet lib) [] bs) mid e h W Ha Pf F N k1 k2 R R' n n2 d d1 d' d1' H Hf S1 S2 Rd La Lb) as P.
  destruct (FeedPackets (list_source packet) (service_filter 0 opt k1) n (views (li_packet lib) [] bs) (sf_init opt, d)) as [[[c1 [s1 x]]|f]|];
    destruct (FeedPackets (list_source packet) (service_filter 0 opt k2) n2 (map again mid) (sf_init opt, d')) as [[[c2 [s2 y]]|g]|]; try contradiction.
  - destruct M1 as (h1 & M1), M2 as (h2 & M2).
    assert (Y : R' x y /\ pipe_code (en_code e1) c2 c1 /\ exists y0, finish k2 y0 = Ok (c2, y)).
    { destruct P as (P & Q & Fin). split; [exact P|]. split; [|exact Fin]. destruct Q as [->|[(-> & Ms & ->)|(_ & ->)]]; [left; reflexivity| |left; reflexivity].
      right. split; [reflexivity|]. destruct X as [(_ & _ & ->)|(Y & _)]; [reflexivity|]. exfalso. apply Y. split; [reflexivity|exact Ms]. }
    match goal with |- match ?a with _ => _ end => replace a with (Some (Ok (c1, (h1, (s1, x))))) by (symmetry; exact M1) end.
    match goal with |- match ?a with _ => _ end => replace a with (Some (Ok (c2, (h2, (s2, y))))) by (symmetry; exact M2) end. exact Y.
  - subst g.
    match goal with |- match ?a with _ => _ end => replace a with (@Some (res (Z * (list (list Z) * sk_state (service_filter 0 opt k1)))) (Fail f)) by (symmetry; exact M1) end.
    match goal with |- match ?a with _ => _ end => replace a with (@Some (res (Z * (list (list Z) * sk_state (service_filter 0 opt k2)))) (Fail f)) by (symmetry; exact M2) end. reflexivity.
Qed.

(** ** The standard output *)
Definition as_out (d e : stdout_state) : Prop := fine d /\ fine e /\ so_out d ++ so_buf d = so_out e ++ so_buf e.
Lemma echo_stdout : echoes (to_stdout (li_bytes lib)) (to_stdout (li_bytes lib)) as_out.
Proof.
  intros d e p (Fd & Fe & O). destruct (stdout_takes _ size d p Fd) as (d' & -> & Fd' & Od), (stdout_takes _ size e (again p) Fe) as (e' & -> & Fe' & Oe).
  cbn. split; [reflexivity|]. split; [exact Fd'|]. split; [exact Fe'|]. rewrite Od, Oe, O. destruct (plain p) as (_ & ->). reflexivity.
Qed.
Lemma end_stdout : forall d e, as_out d e -> sime (fun x y => so_out x = so_out y) (finish (to_stdout (li_bytes lib)) d) (finish (to_stdout (li_bytes lib)) e).
Proof.
  intros d e (Fd & Fe & O). destruct (stdout_finish (li_bytes lib) d Fd) as (d' & -> & Od), (stdout_finish (li_bytes lib) e Fe) as (e' & -> & Oe). cbn. rewrite Od, Oe. auto.
Qed.
Lemma init_stdout : forall w1 w2, Forall no_error w1 -> Forall no_error w2 -> as_out (so_init w1) (so_init w2).
Proof. intros w1 w2 A B. split; [apply fine_init; exact A|]. split; [apply fine_init; exact B|]. reflexivity. Qed.

(** ** The recorder *)
Lemma echo_recorder : forall o local, echoes (recorder o local (li_bytes lib) 1) (recorder o local (li_bytes lib) 1) eq.
Proof.
  intros o local d e p <-. cbn [recorder sk_handle]. unfold rc_HandlePacket.
  change (rc_feed_clock d (again p)) with (rc_feed_clock d p). change (p_pid (again p)) with (p_pid p).
  destruct (rc_feed_clock d p) as [s1|f]; cbn [bind]; [|reflexivity].
  change (demux_feed (rc_demux s1) 1 (again p)) with (demux_feed (rc_demux s1) 1 p).
  destruct (handle_tables _ _ _ _) as [s2|f]; cbn [bind]; [|reflexivity].
  assert (X : rc_OnRecording local (li_bytes lib) s2 (again p) = rc_OnRecording local (li_bytes lib) s2 p).
  { unfold rc_OnRecording. destruct (plain p) as (_ & ->). reflexivity. }
  rewrite X. clear X. set (r := if rc_recording s2 then _ else _). clearbody r. destruct r as [[s3 b]|f]; cbn; auto.
Qed.

End Pipeline.

(** ** The program filter *)
Section Program.
Variable npackets : pmt -> nat.
Variable o : program_filter_option.
Variables k1 k2 : sink packet.
Variable R : sk_state k1 -> sk_state k2 -> Prop.
Hypothesis ech : echoes k1 k2 R.

Definition pag (s : pf_state) : pf_state := pf_set_pats s (map again (pf_pats s)).
Definition rmap {A B} (f : A -> B) (r : res A) : res B := match r with Ok a => Ok (f a) | Fail e => Fail e end.


Lemma pag_convert : forall s t, pf_ConvertTimeToPcr (pag s) t = pf_ConvertTimeToPcr s t.
Proof. reflexivity. Qed.
Lemma pag_range : forall s, pf_UpdatePcrRange (pag s) = rmap pag (pf_UpdatePcrRange s).
Proof.
  intros s. unfold pf_UpdatePcrRange, assert. rewrite !pag_convert. cbn [pag pf_set_pats pf_win pf_clk].
  destruct (pw_ready _); [|reflexivity]. destruct (pc_pcr_ready _); [|reflexivity]. destruct (pc_time_ready _); [|reflexivity].
  change (pf_ConvertTimeToPcr (pf_set_pats s (map again (pf_pats s)))) with (pf_ConvertTimeToPcr s).
  destruct (pf_ConvertTimeToPcr s _); cbn [bind]; [|reflexivity]. destruct (pf_ConvertTimeToPcr s _); reflexivity.
Qed.
Lemma pag_clock_pcr : forall s v, pf_UpdateClockPcr (pag s) v = rmap pag (pf_UpdateClockPcr s v).
Proof.
  intros s v. unfold pf_UpdateClockPcr, assert. change (pf_NeedClockSync (pag s)) with (pf_NeedClockSync s). destruct (pf_NeedClockSync s); [|reflexivity].
  cbn [pag pf_set_pats pf_set_clk pf_win pf_clk pc_time_ready].
  destruct (_ && _); [|reflexivity]. apply (pag_range (pf_set_clk s (mkPfClock (pc_pid (pf_clk s)) v (pc_time (pf_clk s)) true (pc_time_ready (pf_clk s))))).
Qed.
Lemma pag_clock_time : forall s v, pf_UpdateClockTime (pag s) v = rmap pag (pf_UpdateClockTime s v).
Proof.
  intros s v. unfold pf_UpdateClockTime, assert. cbn [pag pf_set_pats pf_set_clk pf_win pf_clk pc_pcr_ready]. destruct (negb _); [|reflexivity].
  destruct (_ && _); [|reflexivity]. apply (pag_range (pf_set_clk s (mkPfClock (pc_pid (pf_clk s)) (pc_pcr (pf_clk s)) v (pc_pcr_ready (pf_clk s)) true))).
Qed.
Lemma pag_event : forall s e, pf_UpdateEventTime o (pag s) e = rmap pag (pf_UpdateEventTime o s e).
Proof.
  intros s e. unfold pf_UpdateEventTime. destruct (i64 _) as [d|]; cbn [bind]; [|reflexivity]. destruct (i64 (d + _)) as [du|]; cbn [bind]; [|reflexivity].
  destruct (i64 (ev_start e - _)) as [st|]; cbn [bind]; [|reflexivity]. destruct (i64 (ev_start e + _)) as [en|]; cbn [bind]; [|reflexivity].
  cbn [pag pf_set_pats pf_set_win pf_clk pf_win]. destruct (_ && _); [|reflexivity].
  apply (pag_range (pf_set_win s (mkPfWindow st en (pw_start_pcr (pf_win s)) (pw_end_pcr (pf_win s)) true))).
Qed.
Lemma pag_table : forall s src t, pf_handleTable o (pag s) src t = rmap pag (pf_handleTable o s src t).
Proof.
  intros s src t. unfold pf_handleTable. destruct (tb_body t) as [b| |b|b|b| | |]; try reflexivity.
  - unfold pf_HandlePat. destruct (negb _); [reflexivity|]. destruct b as [u|]; [|reflexivity]. destruct (_ =? 0); [reflexivity|]. destruct (mfind _ _); reflexivity.
  - unfold pf_HandlePmt. destruct b as [u|]; [|reflexivity]. destruct (negb _); reflexivity.
  - unfold pf_HandleEit. destruct b as [u|]; [|reflexivity]. destruct (negb _); [reflexivity|]. destruct (eit_events u) as [|e1 [|e2 r]]; [reflexivity| |].
    + destruct (_ =? _); [apply pag_event|]. change (pf_streaming (pag s)) with (pf_streaming s). destruct (pf_streaming s); reflexivity.
    + destruct (_ =? _); [apply pag_event|]. destruct (_ =? _); [apply pag_event|]. change (pf_streaming (pag s)) with (pf_streaming s).
      destruct (pf_streaming s); [reflexivity|]. destruct (pfo_wait_until o); reflexivity.
  - unfold pf_HandleTot. destruct b as [u|]; [|reflexivity]. change (pf_streaming (pag s)) with (pf_streaming s).
    assert (X : pf_CheckTimeLimit o (pag s) u = pag (pf_CheckTimeLimit o s u)) by (unfold pf_CheckTimeLimit; destruct (pfo_wait_until o) as [w|]; [destruct (w <? u)|]; reflexivity).
    rewrite X. replace (if pf_streaming s then pag s else pag (pf_CheckTimeLimit o s u)) with (pag (if pf_streaming s then s else pf_CheckTimeLimit o s u)) by (destruct (pf_streaming s); reflexivity).
    set (s1 := if pf_streaming s then s else pf_CheckTimeLimit o s u). clearbody s1. change (pf_clk (pag s1)) with (pf_clk s1). destruct (pc_time_ready _); [reflexivity|apply pag_clock_time].
Qed.
Lemma pag_tables : forall ts s src, handle_tables (pf_handleTable o) (pag s) src ts = rmap pag (handle_tables (pf_handleTable o) s src ts).
Proof.
  induction ts as [|t ts IH]; intros s src; cbn [handle_tables]; [reflexivity|]. rewrite pag_table.
  destruct (pf_handleTable o s src t) as [s1|f]; cbn [rmap bind]; [apply IH|reflexivity].
Qed.

Definition as_prog (x : pf_state * sk_state k1) (y : pf_state * sk_state k2) : Prop := fst y = pag (fst x) /\ R (snd x) (snd y).

(** A packet handed on. *)
Lemma pag_hand : forall s d e p q, R d e -> q = again p ->
  simr as_prog (let* (d1, ok) := sk_handle k1 d p in Ok ((s, d1), ok)) (let* (d1, ok) := sk_handle k2 e q in Ok ((pag s, d1), ok)).
Proof.
  intros s d e p q Rd ->. pose proof (ech d e p Rd) as X.
  destruct (sk_handle k1 d p) as [[d1 b]|f], (sk_handle k2 e (again p)) as [[e1 b']|f']; cbn in X; try contradiction; cbn [bind]; [|exact X].
  destruct X as [<- X]. cbn. split; [reflexivity|]. split; [reflexivity|exact X].
Qed.

Lemma next_again : forall z, again (fst (pz_next npackets z)) = fst (pz_next npackets z).
Proof. intros z. unfold pz_next. destruct (pz_table z); reflexivity. Qed.

Lemma pag_send_all : forall ps d e, R d e -> simr R (pf_send_all k1 d ps) (pf_send_all k2 e (map again ps)).
Proof.
  induction ps as [|p ps IH]; intros d e Rd; cbn [pf_send_all map]; [cbn; auto|]. pose proof (ech d e p Rd) as X.
  destruct (sk_handle k1 d p) as [[d1 b]|f], (sk_handle k2 e (again p)) as [[e1 b']|f']; cbn in X; try contradiction; cbn [bind]; [|exact X].
  destruct X as [<- X]. destruct b; [apply IH; exact X|cbn; auto].
Qed.

Definition simo {A B} (S : A -> B -> Prop) (x : option (res (A * bool))) (y : option (res (B * bool))) : Prop :=
  match x, y with Some a, Some b => simr S a b | None, None => True | _, _ => False end.
Lemma pag_send_pmt : forall n s d e, R d e -> simo as_prog (pf_send_pmt npackets k1 n s d) (pf_send_pmt npackets k2 n (pag s) e).
Proof.
  induction n as [|n IH]; intros s d e Rd; cbn [pf_send_pmt]; [exact I|]. change (pf_pz (pag s)) with (pf_pz s).
  pose proof (next_again (pf_pz s)) as Q. destruct (pz_next npackets (pf_pz s)) as [q z]. cbn [fst] in Q.
  change (pf_set_pz (pag s) z) with (pag (pf_set_pz s z)). change (pf_pmt_pid (pag (pf_set_pz s z))) with (pf_pmt_pid (pf_set_pz s z)).
  destruct (_ =? _); [|reflexivity]. pose proof (ech d e q Rd) as X. rewrite Q in X.
  destruct (sk_handle k1 d q) as [[d1 [|]]|f], (sk_handle k2 e q) as [[e1 [|]]|f']; cbn in X; try contradiction; try (apply proj1 in X; discriminate X).
  - destruct X as [_ X]. destruct (pz_at_boundary z); [cbn; unfold as_prog; auto|]. apply IH. exact X.
  - destruct X as [_ X]. cbn. unfold as_prog. auto.
  - exact X.
Qed.

Lemma pag_forward : forall s d e p, R d e -> simr as_prog (pf_forward npackets k1 s d p) (pf_forward npackets k2 (pag s) e (again p)).
Proof.
  intros s d e p Rd. unfold pf_forward. change (p_pid (again p)) with (p_pid p). change (pf_pmt_pid (pag s)) with (pf_pmt_pid s). change (pf_pz (pag s)) with (pf_pz s).
  change (pf_black (pag s)) with (pf_black s).
  destruct (_ =? _).
  - pose proof (next_again (pf_pz s)) as Q. destruct (pz_next npackets (pf_pz s)) as [q z]. cbn [fst] in Q. unfold assert. destruct (_ =? _); [|reflexivity].
    apply (pag_hand (pf_set_pz s z)); auto.
  - destruct (zmem _ _); [cbn; unfold as_prog; auto|]. apply pag_hand; auto.
Qed.

Lemma pag_stream : forall s d e p, R d e -> simr as_prog (pf_DoStreaming npackets k1 s d p) (pf_DoStreaming npackets k2 (pag s) e (again p)).
Proof.
  intros s d e p Rd. unfold pf_DoStreaming. change (p_pid (again p)) with (p_pid p). change (p_pcr (again p)) with (p_pcr p).
  change (pf_stop (pag s)) with (pf_stop s). change (pf_pcr_pid (pag s)) with (pf_pcr_pid s). change (pf_NeedClockSync (pag s)) with (pf_NeedClockSync s).
  destruct (pf_stop s); [cbn; unfold as_prog; auto|]. destruct (_ =? _); [|apply pag_forward; exact Rd].
  destruct (p_pcr p) as [v|]; [|apply pag_hand; auto].
  assert (X : (if pf_NeedClockSync s then pf_UpdateClockPcr (pag s) v else Ok (pag s)) = rmap pag (if pf_NeedClockSync s then pf_UpdateClockPcr s v else Ok s)).
  { destruct (pf_NeedClockSync s); [apply pag_clock_pcr|reflexivity]. }
  rewrite X. clear X. destruct (if pf_NeedClockSync s then _ else _) as [s1|f]; cbn [rmap bind]; [|reflexivity].
  change (pf_NeedClockSync (pag s1)) with (pf_NeedClockSync s1). change (pf_win (pag s1)) with (pf_win s1). destruct (pf_NeedClockSync s1); [apply pag_hand; auto|].
  destruct (ComparePcr _ _) as [c|]; cbn [bind]; [|reflexivity]. destruct (0 <=? c); [cbn; unfold as_prog; auto|]. apply pag_forward; auto.
Qed.

Lemma pag_wait : forall s d e p, R d e -> simr as_prog (pf_WaitReady npackets o k1 s d p) (pf_WaitReady npackets o k2 (pag s) e (again p)).
Proof.
  intros s d e p Rd. unfold pf_WaitReady. cbv zeta. change (p_pid (again p)) with (p_pid p). change (p_pcr (again p)) with (p_pcr p). change (p_pusi (again p)) with (p_pusi p).
  change (pf_stop (pag s)) with (pf_stop s). destruct (pf_stop s); [cbn; unfold as_prog; auto|].
  destruct (_ && _); [apply pag_hand; auto|].
  set (s1 := if p_pid p =? PID_PAT then pf_set_pats s ((if p_pusi p then [] else pf_pats s) ++ [p]) else s).
  assert (E : (if p_pid p =? PID_PAT then pf_set_pats (pag s) ((if p_pusi p then [] else pf_pats (pag s)) ++ [again p]) else pag s) = pag s1).
  { unfold s1. destruct (_ =? PID_PAT); [|reflexivity]. unfold pag. cbn [pf_set_pats pf_pats]. rewrite map_app. destruct (p_pusi p); reflexivity. }
  rewrite E. clear E. clearbody s1.
  change (pf_pcr_pid_ready (pag s1)) with (pf_pcr_pid_ready s1). change (pf_win (pag s1)) with (pf_win s1). change (pf_pcr_pid (pag s1)) with (pf_pcr_pid s1).
  change (pf_NeedClockSync (pag s1)) with (pf_NeedClockSync s1).
  destruct (_ || _); [cbn; unfold as_prog; auto|]. destruct (negb _); [cbn; unfold as_prog; auto|]. destruct (p_pcr p) as [v|]; [|cbn; unfold as_prog; auto].
  assert (X : (if pf_NeedClockSync s1 then pf_UpdateClockPcr (pag s1) v else Ok (pag s1)) = rmap pag (if pf_NeedClockSync s1 then pf_UpdateClockPcr s1 v else Ok s1)).
  { destruct (pf_NeedClockSync s1); [apply pag_clock_pcr|reflexivity]. }
  rewrite X. clear X. destruct (if pf_NeedClockSync s1 then _ else _) as [s2|f]; cbn [rmap bind]; [|reflexivity].
  change (pf_NeedClockSync (pag s2)) with (pf_NeedClockSync s2). change (pf_win (pag s2)) with (pf_win s2). destruct (pf_NeedClockSync s2); [cbn; unfold as_prog; auto|].
  destruct (ComparePcr v (pw_end_pcr _)) as [c|]; cbn [bind]; [|reflexivity]. destruct (0 <=? c); [cbn; unfold as_prog; auto|].
  destruct (ComparePcr v (pw_start_pcr _)) as [c2|]; cbn [bind]; [|reflexivity]. destruct (c2 <? 0); [cbn; unfold as_prog; auto|].
  assert (A : simr as_prog
    (if pfo_pre_streaming o then Ok (s2, d, true) else assert (negb (match pf_pats s2 with [] => true | _ => false end)) (let* (d1, ok) := pf_send_all k1 d (pf_pats s2) in if ok then Ok (pf_set_pats s2 [], d1, true) else Ok (s2, d1, false)))
    (if pfo_pre_streaming o then Ok (pag s2, e, true) else assert (negb (match pf_pats (pag s2) with [] => true | _ => false end)) (let* (d1, ok) := pf_send_all k2 e (pf_pats (pag s2)) in if ok then Ok (pf_set_pats (pag s2) [], d1, true) else Ok (pag s2, d1, false)))).
  { destruct (pfo_pre_streaming o); [cbn; unfold as_prog; auto|]. unfold assert.
    replace (match pf_pats (pag s2) with [] => true | _ => false end) with (match pf_pats s2 with [] => true | _ => false end) by (cbn [pag pf_set_pats pf_pats]; destruct (pf_pats s2); reflexivity).
    destruct (negb _); [|reflexivity]. pose proof (pag_send_all (pf_pats s2) d e Rd) as X. change (pf_pats (pag s2)) with (map again (pf_pats s2)).
    destruct (pf_send_all k1 d (pf_pats s2)) as [[d1 b]|f], (pf_send_all k2 e (map again (pf_pats s2))) as [[e1 b']|f']; cbn in X; try contradiction; cbn [bind]; [|exact X].
    destruct X as [<- X]. destruct b; cbn; unfold as_prog; auto. }
  match goal with A : simr _ ?x ?y |- simr _ (bind ?a _) (bind ?b _) => change a with x; change b with y; destruct x as [[[s3 d3] ok]|f]; destruct y as [[[s3' e3] ok']|f']; cbn in A; try contradiction; cbn [bind]; [|exact A] end.
  destruct A as [<- [A Rd3]]. cbn [fst snd] in A, Rd3. subst s3'. destruct ok; cbn [negb]; [|cbn; unfold as_prog; auto].
  change (pf_pmt_fuel npackets (pag s3)) with (pf_pmt_fuel npackets s3). pose proof (pag_send_pmt (pf_pmt_fuel npackets s3) s3 d3 e3 Rd3) as B.
  destruct (pf_send_pmt npackets k1 _ s3 d3) as [r|], (pf_send_pmt npackets k2 _ (pag s3) e3) as [r'|]; cbn [simo] in B; try contradiction; [|reflexivity].
  destruct r as [[[s4 d4] ok]|f], r' as [[[s4' e4] ok']|f']; cbn in B; try contradiction; cbn [bind]; [|exact B].
  destruct B as [<- [B Rd4]]. cbn [fst snd] in B, Rd4. subst s4'. destruct ok; cbn [negb]; [|cbn; unfold as_prog; auto].
  apply (pag_hand (pf_set_streaming s4)); auto.
Qed.

Lemma echo_program : echoes (program_filter npackets o k1 1) (program_filter npackets o k2 1) as_prog.
Proof.
  intros [s d] [s' e] p [E Rd]. cbn [fst snd] in E, Rd. subst s'. cbn [program_filter sk_handle]. unfold pf_HandlePacket. change (p_pid (again p)) with (p_pid p).
  change (demux_feed (pf_demux (pag s)) 1 (again p)) with (demux_feed (pf_demux s) 1 p). rewrite pag_tables.
  destruct (handle_tables _ _ _ _) as [s1|f]; cbn [rmap bind]; [|reflexivity]. change (pf_streaming (pag s1)) with (pf_streaming s1).
  destruct (pf_streaming s1); [apply pag_stream|apply pag_wait]; exact Rd.
Qed.

End Program.

Lemma end_program : forall bytes npackets o (R : stdout_state -> stdout_state -> Prop), (forall x y, R x y -> sime (fun a b => so_out a = so_out b) (finish (to_stdout bytes) x) (finish (to_stdout bytes) y)) ->
  forall x y, as_prog (to_stdout bytes) (to_stdout bytes) R x y ->
  sime (fun a b => so_out (snd a) = so_out (snd b)) (finish (program_filter npackets o (to_stdout bytes) 1) x) (finish (program_filter npackets o (to_stdout bytes) 1) y).
Proof.
  intros bytes npackets o R H [s d] [s' e] [E Rd]. cbn [fst snd] in E, Rd. subst s'. specialize (H d e Rd). cbn in *. destruct H as [_ H].
  destruct (pf_retry s); cbn; auto.
Qed.

(** ** The commands *)
Section Commands.
Variable lib : library.
Variable view : list (list Z) -> list Z -> packet.
Hypothesis plain : plain_bytes (li_bytes lib).
Variable sid : Z.
Variables (sys1 : system) (bs : list (list Z)) (n1 : nat) (e1 : ended).
Hypothesis input : has_input sys1 bs n1.
Hypothesis writes1 : Forall no_error (sy_writes sys1).
Hypothesis first : main lib sys1 (FilterService sid) n1 = Some (Ok e1).
Hypothesis pip : pipes lib view sid bs.

Lemma pipe_filter_program : forall a sys n sys2 n2, pa_sid a = sid ->
  has_input sys bs n -> Forall no_error (sy_writes sys) -> reads_from sys2 (en_stdout e1) n2 -> Forall no_error (sy_writes sys2) ->
  match main lib sys (FilterProgram a) n, main (with_packet lib view) sys2 (FilterProgram a) n2 with
  | Some (Ok e), Some (Ok e') => en_stdout e = en_stdout e' /\ pipe_code (en_code e1) (en_code e') (en_code e)
  | Some (Fail f), Some (Fail g) => f = g
  | _, _ => False
  end.
Proof.
  intros a sys n sys2 n2 <- I1 W I2 W2. unfold main. destruct (load_program_filter a) as [[o|]|f]; [|reflexivity|reflexivity].
  cbn [with_packet li_packet li_bytes li_npackets].
  set (k := program_filter (li_npackets lib) o (to_stdout (li_bytes lib)) 1).
  pose proof (pipe_main lib view plain (pa_sid a) sys1 bs n1 e1 input writes1 first pip sys n sys2 n2 k k
    (as_prog (to_stdout (li_bytes lib)) (to_stdout (li_bytes lib)) as_out) (fun a b => so_out (snd a) = so_out (snd b)) (pf_init o, so_init (sy_writes sys)) (pf_init o, so_init (sy_writes sys)) (pf_init o, so_init (sy_writes sys2)) (pf_init o, so_init (sy_writes sys2))
    (echo_program (li_npackets lib) o (to_stdout (li_bytes lib)) (to_stdout (li_bytes lib)) as_out (echo_stdout lib plain)) (end_program (li_bytes lib) (li_npackets lib) o as_out (end_stdout lib)) eq_refl eq_refl
    (conj eq_refl (init_stdout _ _ W W2)) I1 I2) as P.
  unfold filter_program_main, filter_program. fold k.
  destruct (run_main (li_packet lib) _ _ _ _) as [[[c [h [s [q x]]]]|f]|]; destruct (run_main view _ _ _ _) as [[[c2 [h2 [s2 [q2 x2]]]]|f2]|]; try contradiction; cbn; [|exact P]. destruct P as (P & Q & _). auto.
Qed.

Lemma pipe_filter_service : forall sys2 n2, reads_from sys2 (en_stdout e1) n2 -> Forall no_error (sy_writes sys2) ->
  main (with_packet lib view) sys2 (FilterService sid) n2 = Some (Ok (mkEnded 0 (en_stdout e1) [])).
Proof.
  intros sys2 n2 I2 W2. pose proof first as Fi. unfold main in *. cbn [with_packet li_packet li_bytes].
  set (k := to_stdout (li_bytes lib)).
  pose proof (pipe_main lib view plain sid sys1 bs n1 e1 input writes1 first pip sys1 n1 sys2 n2 k k
    as_out (fun a b => so_out a = so_out b) (so_init (sy_writes sys1)) (so_init (sy_writes sys1)) (so_init (sy_writes sys2)) (so_init (sy_writes sys2))
    (echo_stdout lib plain) (end_stdout lib) eq_refl eq_refl (init_stdout _ _ writes1 W2) input I2) as P.
  unfold filter_service_main, filter_service in *. fold k. fold k in Fi.
  destruct (run_main (li_packet lib) _ _ _ _) as [[[c [h [s x]]]|f]|]; try discriminate Fi. cbn in Fi. injection Fi as Fi. rewrite <- Fi in P |- *. cbn [en_stdout en_code] in *.
  destruct (run_main view _ _ _ _) as [[[c2 [h2 [s2 x2]]]|f2]|]; try contradiction. destruct P as (P & _ & y0 & Y). cbn in Y. injection Y as <- _. cbn. rewrite P. reflexivity.
Qed.

Lemma pipe_record_service : forall file cs nc start sys n sys2 n2,
  has_input sys bs n -> reads_from sys2 (en_stdout e1) n2 -> sy_local sys2 = sy_local sys -> sy_file_fd sys2 = sy_file_fd sys -> sy_ops sys2 = sy_ops sys -> sy_flushes sys2 = sy_flushes sys ->
  match main lib sys (RecordService sid file cs nc start) n, main (with_packet lib view) sys2 (RecordService sid file cs nc start) n2 with
  | Some (Ok e), Some (Ok e') => en_trace e = en_trace e' /\ en_stdout e = en_stdout e' /\ pipe_code (en_code e1) (en_code e') (en_code e)
  | Some (Fail f), Some (Fail g) => f = g
  | _, _ => False
  end.
Proof.
  intros file cs nc start sys n sys2 n2 I1 I2 El Ef Eo Efl. unfold main. destruct (load_recorder_option cs nc start) as [[[c0 nc0] st]|]; [|reflexivity].
  cbn [with_packet li_packet li_bytes]. rewrite El, Ef, Eo, Efl. unfold record_on. destruct (rc_new _ _) as [s0|f]; [|reflexivity].
  set (o := mkRcOption (id16 sid) c0 nc0 st). set (k := recorder o (sy_local sys) (li_bytes lib) 1). unfold record_service_main, record_service. fold k.
  set (f := px_open_write file (sy_file_fd sys)).
  assert (P : match run_main (li_packet lib) (service_filter 0 (load_service_filter (Some sid)) k) (the_reads sys) (sf_init (load_service_filter (Some sid)), s0) n,
    run_main view (service_filter 0 (load_service_filter (Some sid)) k) (the_reads sys2) (sf_init (load_service_filter (Some sid)), s0) n2 with
  | Some (Ok (c1, (_, (_, x)))), Some (Ok (c2, (_, (_, y)))) => x = y /\ pipe_code (en_code e1) c2 c1
  | Some (Fail f), Some (Fail g) => f = g
  | _, _ => False
  end).
  { destruct (sk_start k s0) as [[s1 [|]]|g] eqn:Es.
    - pose proof (pipe_main lib view plain sid sys1 bs n1 e1 input writes1 first pip sys n sys2 n2 k k eq eq s0 s1 s0 s1
        (echo_recorder lib plain o (sy_local sys)) ltac:(intros x y ->; destruct (finish k y) as [[c z]|g]; cbn; auto) Es Es eq_refl I1 I2) as P.
      destruct (run_main (li_packet lib) _ _ _ _) as [[[c [h [s x]]]|g]|]; try contradiction; destruct (run_main view _ _ _ _) as [[[c2 [h2 [s2 x2]]]|f2]|]; try contradiction; auto. destruct P as (A & B & _). auto.
    - unfold run_main, FeedPackets. cbn [viewed sk_start service_filter fst snd]. rewrite Es. cbn. unfold pipe_code. auto.
    - unfold run_main, FeedPackets. cbn [viewed sk_start service_filter fst snd]. rewrite Es. reflexivity. }
  destruct (run_main (li_packet lib) _ _ _ _) as [[[c [h [s x]]]|g]|]; try contradiction; destruct (run_main view _ _ _ _) as [[[c2 [h2 [s2 x2]]]|f2]|]; try contradiction; [|exact P].
  destruct P as [<- P]. destruct (existsb _ _); [reflexivity|]. cbn [report bind snd].
  change (trace_lines (with_packet lib view)) with (trace_lines lib). destruct (trace_lines lib _ _); cbn; auto.
Qed.
End Commands.
