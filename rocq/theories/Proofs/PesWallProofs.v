(** print-pes and the wall clock. *)
From Coq Require Import ZArith Lia List Bool.
From Verif Require Import Base.Outcome Base.Util Model.Pcr Model.Clock Model.Sink Model.Ts Model.FileSource Model.PesPrinter Model.PesWall Model.Commands
  Spec.SourceSpec Spec.TransSpec Spec.PipeSpec Proofs.PipeProofs Proofs.WallProofs.
Import ListNotations.
Open Scope Z_scope.

(** The state without what was read from the wall clock. *)
Definition ez (x : Z * clock) : Z * clock := (fst x, cl 0 (snd x)).
Definition er (s : pp_state) : pp_state :=
  mkPp (pp_pids s) (pp_sids s) (pp_pmt_pids s) (map ez (pp_clocks s)) (pp_streams s) (pp_done s) (pp_out s).

Lemma find_ez : forall k l, mfind k (map ez l) = option_map (cl 0) (mfind k l).
Proof. induction l as [|[a c] l IH]; cbn; [reflexivity|]. destruct (k =? a); auto. Qed.
Lemma insert_ez : forall k c l, map ez (minsert k c l) = minsert k (cl 0 c) (map ez l).
Proof. induction l as [|[a d] l IH]; cbn; [reflexivity|]. destruct (k <? a); [reflexivity|]. destruct (k =? a); cbn; [reflexivity|]. rewrite IH. reflexivity. Qed.

Lemma print_er : forall s k pid kind pp v, pp_Print (er s) k pid kind pp v = rmap er (pp_Print s k pid kind pp v).
Proof.
  intros s k pid kind pp v. unfold pp_Print. cbn [er pp_clocks]. rewrite find_ez. destruct (mfind pp (pp_clocks s)) as [c|]; cbn [option_map].
  - change (ck_IsReady (cl 0 c)) with (ck_IsReady c). change (ck_PcrToTime (cl 0 c) v) with (ck_PcrToTime c v).
    destruct (ck_IsReady c); [destruct (ck_PcrToTime c v); cbn [bind rmap]; [|reflexivity]|]; destruct (FormatPcr v); reflexivity.
  - destruct (FormatPcr v); reflexivity.
Qed.
Lemma pcr_er : forall s p, pp_pcr (er s) p = rmap er (pp_pcr s p).
Proof.
  intros s p. unfold pp_pcr. destruct (p_pcr p) as [v|]; [|reflexivity]. cbn [er pp_clocks]. rewrite find_ez. destruct (mfind (p_pid p) (pp_clocks s)) as [c|]; [|reflexivity]. cbn [option_map].
  rewrite pcr_cl. destruct (ck_UpdatePcr c v) as [c1|]; cbn [rmap bind]; [|reflexivity]. rewrite <- print_er. f_equal. unfold er. cbn. rewrite insert_ez. reflexivity.
Qed.
Lemma pes_er : forall s k pid v, pp_pes (er s) k pid v = rmap er (pp_pes s k pid v).
Proof.
  intros s k pid [v|]; [|reflexivity]. unfold pp_pes, assert. destruct (IsValidPcr _); [|reflexivity]. cbn [er pp_streams].
  destruct (mfind pid (pp_streams s)) as [[kind pp]|]; apply print_er.
Qed.
Lemma pmts_er : forall l s, pp_add_pmts (er s) l = er (pp_add_pmts s l).
Proof. induction l as [|[a b] l IH]; intros s; cbn [pp_add_pmts]; [reflexivity|]. rewrite <- IH. reflexivity. Qed.
Lemma streams_er : forall pp l s, pp_add_streams (er s) pp l = er (pp_add_streams s pp l).
Proof. induction l as [|[a b] l IH]; intros s; cbn [pp_add_streams]; [reflexivity|]. rewrite <- IH. reflexivity. Qed.

Section Wall.
Variable local : nat -> Z.

Lemma update_er : forall time l n, pp_update_time time (map ez l) = rmap (fun x => map ez (snd x)) (pw_update_time local n time l).
Proof.
  intros time. induction l as [|[a c] l IH]; intros n; cbn [pp_update_time pw_update_time map]; [reflexivity|]. unfold ez at 1. cbn [fst snd].
  assert (X : ck_UpdateTime (cl 0 c) time 0 = rmap (cl 0) (ck_UpdateTime c time (local n))).
  { destruct c as [b l0 lp gc rd wr]. unfold ck_UpdateTime, ck_SyncPcr, bl_SetPcr, assert, cl; cbn [ck_baseline ck_local ck_last_pcr ck_gap_count ck_ready ck_wrap].
    destruct rd; [|reflexivity]. destruct (IsValidPcr _); reflexivity. }
  rewrite X. destruct (ck_UpdateTime c time (local n)) as [c1|]; cbn [rmap bind]; [|reflexivity].
  rewrite (IH (S n)). destruct (pw_update_time local (S n) time l) as [[m r]|]; reflexivity.
Qed.

Lemma pat_er : forall s pid t, pp_HandlePat (er s) pid t = er (pp_HandlePat s pid t).
Proof.
  intros s pid [t|]; [|reflexivity]. unfold pp_HandlePat. destruct (pid =? PID_PAT); [|reflexivity].
  change (pp_put (pp_ResetStates (er s)) [LPat (pat_version t) pid]) with (er (pp_put (pp_ResetStates s) [LPat (pat_version t) pid])). rewrite pmts_er.
  destruct (pp_pmt_pids (pp_add_pmts (pp_put (pp_ResetStates s) [LPat (pat_version t) pid]) (pat_pmts t))) eqn:E; cbn [er pp_pmt_pids]; rewrite E; reflexivity.
Qed.
Lemma pmt_er : forall s t, pp_HandlePmt (er s) t = er (pp_HandlePmt s t).
Proof.
  intros s [t|]; [|reflexivity]. unfold pp_HandlePmt. destruct (negb _); rewrite <- streams_er; [|reflexivity].
  f_equal. unfold er. cbn. rewrite insert_ez. reflexivity.
Qed.
Lemma eit_er : forall s t, pp_HandleEit (er s) t = rmap er (pp_HandleEit s t).
Proof.
  intros s [t|]; [|reflexivity]. unfold pp_HandleEit. cbn [er pp_sids]. destruct (negb _); [reflexivity|]. destruct (pp_events _ _); reflexivity.
Qed.
Lemma tot_er : forall n s t, pp_HandleTot (er s) t = rmap (fun x => er (snd x)) (pw_HandleTot local (n, s) t).
Proof.
  intros n s [t|]; [|reflexivity]. unfold pp_HandleTot, pw_HandleTot. cbn [fst snd pp_put er pp_clocks]. rewrite (update_er t _ n).
  destruct (pw_update_time local n t (pp_clocks s)) as [[m l]|]; reflexivity.
Qed.

Lemma table_er : forall s pid t, pp_handleTable (er (snd s)) pid t = rmap (fun x => er (snd x)) (pw_handleTable local s pid t).
Proof.
  intros [n s] pid t. unfold pw_handleTable, pp_handleTable. destruct (tb_body t) eqn:E; cbn [fst snd bind rmap];
    rewrite ?pat_er, ?pmt_er; try reflexivity.
  - destruct t0; reflexivity.
  - rewrite eit_er. destruct (pp_HandleEit _ _); reflexivity.
  - apply tot_er.
Qed.

Lemma tables_er : forall pid ts s, handle_tables pp_handleTable (er (snd s)) pid ts = rmap (fun x => er (snd x)) (handle_tables (pw_handleTable local) s pid ts).
Proof.
  induction ts as [|t ts IH]; intros s; cbn [handle_tables]; [reflexivity|]. rewrite table_er. destruct (pw_handleTable local s pid t); cbn [rmap bind]; [apply IH|reflexivity].
Qed.

Lemma handle_er : forall s p, pp_HandlePacket (er (snd s)) p = rmap (fun x => (er (snd (fst x)), snd x)) (pw_HandlePacket local s p).
Proof.
  intros [n s] p. unfold pp_HandlePacket, pw_HandlePacket. cbn [fst snd]. rewrite pcr_er. destruct (pp_pcr s p) as [s1|]; cbn [rmap bind]; [|reflexivity].
  rewrite pes_er. destruct (pp_pes s1 _ _ _) as [s2|]; cbn [rmap bind]; [|reflexivity].
  rewrite pes_er. destruct (pp_pes s2 _ _ _) as [s3|]; cbn [rmap bind]; [|reflexivity].
  rewrite (tables_er _ _ (n, s3)). destruct (handle_tables (pw_handleTable local) (n, s3) _ _) as [[m s4]|]; reflexivity.
Qed.

Lemma hand_er : forall ps s, snd (hand pp_sink (er (snd s)) ps) = rmap (fun x => (er (snd (fst x)), snd x)) (snd (hand (pw_sink local) s ps)).
Proof.
  induction ps as [|p ps IH]; intros s; [reflexivity|]. cbn [hand]. change (sk_handle pp_sink (er (snd s)) p) with (pp_HandlePacket (er (snd s)) p).
  change (sk_handle (pw_sink local) s p) with (pw_HandlePacket local s p). rewrite handle_er.
  destruct (pw_HandlePacket local s p) as [[s1 [|]]|]; cbn [rmap fst snd]; try reflexivity.
  specialize (IH s1). destruct (hand pp_sink (er (snd s1)) ps), (hand (pw_sink local) s1 ps). exact IH.
Qed.

(** The exit code and the lines. *)
Definition lines (x : option (res (Z * (list (list Z) * pp_state)))) : option (res (Z * list pp_line)) :=
  option_map (rmap (fun x => (fst x, pp_out (snd (snd x))))) x.
Definition lines_wall (x : option (res (Z * (list (list Z) * (nat * pp_state))))) : option (res (Z * list pp_line)) :=
  option_map (rmap (fun x => (fst x, pp_out (snd (snd (snd x)))))) x.

Lemma print_pes_er : forall view reads bs n, Forall read_ok reads -> packets_of (bytes_of reads) bs -> (List.length (bytes_of reads) < n)%nat ->
  lines_wall (run_main view (pw_sink local) reads (O, pp_init) n) = lines (print_pes_main view reads n).
Proof.
  intros view reads bs n R P L.
  assert (Ln : (List.length (views view [] bs) < n)%nat) by (rewrite views_length; pose proof (packets_length _ _ P); lia).
  pose proof (main_feed view (pw_sink local) reads bs (O, pp_init) n R P L) as A. pose proof (main_feed view pp_sink reads bs pp_init n R P L) as B.
  rewrite (feed_hand _ (pw_sink local) _ n (O, pp_init) (O, pp_init) Ln eq_refl) in A. rewrite (feed_hand _ pp_sink _ n pp_init pp_init Ln eq_refl) in B.
  pose proof (hand_er (views view [] bs) (O, pp_init)) as H. change (er (snd (O, pp_init))) with pp_init in H. rewrite H in B. clear H.
  destruct (snd (hand (pw_sink local) (O, pp_init) (views view [] bs))) as [[[m s] b]|f]; cbn [rmap fst snd] in B.
  - cbn [finish pw_sink pp_sink sk_end sk_exit bind] in A, B. destruct A as [h A], B as [h' B]. unfold print_pes_main.
    transitivity (Some (Ok (EXIT_SUCCESS, pp_out s))); [exact (f_equal lines_wall A)|symmetry; exact (f_equal lines B)].
  - transitivity (@Some (res (Z * list pp_line)) (Fail f)); [exact (f_equal lines_wall A)|symmetry; exact (f_equal lines B)].
Qed.
End Wall.
