(** C81, command by command. *)
From Coq Require Import ZArith Lia List Bool.
From Verif Require Import Base.Outcome Base.Util Model.Sink Model.FileSource Model.StdoutSink Model.Ts Model.ServiceFilter Model.RecorderOption Model.RingFileSink
  Model.ServiceRecorder Model.Commands Spec.SourceSpec Spec.StdoutSpec Spec.CutSpec Proofs.PipeProofs Proofs.CutProofs.
From Verif Require Model.ProgramFilter Model.EitCollector Model.EitpfCollector Model.AirtimeTracker Model.MetadataFilter Model.ServiceScanner
  Model.PcrSynchronizer Model.PesPrinter Model.Logo.
Import ListNotations.
Open Scope Z_scope.

Lemma filter_service_cut : forall view bytes sid reads reads' writes writes' n c c' h h' s s' w w', (forall p, zlen (bytes p) = 188) ->
  cut_short reads reads' -> Forall no_error writes -> Forall no_error writes' -> (List.length (bytes_of reads') < n)%nat ->
  filter_service_main view bytes sid reads writes n = Some (Ok (c, (h, (s, w)))) ->
  filter_service_main view bytes sid reads' writes' n = Some (Ok (c', (h', (s', w')))) -> is_prefix (so_out w) (so_out w').
Proof.
  intros view bytes sid reads reads' writes writes' n c c' h h' s s' w w' size Cs W W' Hn M M'.
  assert (L : (List.length (bytes_of reads) < n)%nat) by (destruct Cs as [_ [_ [m E]]]; rewrite E, app_length in Hn; lia).
  unfold filter_service_main in *. set (opt := load_service_filter (Some sid)) in *.
  destruct (twin_run _ _ (filter_service bytes sid) (fun x y => fst x = fst y /\ alike (snd x) (snd y)) (fun x => so_out (snd x))
    ltac:(intros [a d] [a' d'] p [E A]; cbn [fst snd] in E, A; subst a';
          pose proof (filter_twin (to_stdout bytes) alike (alike_takes bytes size) 0 opt a d d' p A) as T; cbn [filter_service service_filter sk_handle];
          fold opt; destruct (sf_HandlePacket 0 opt (to_stdout bytes) (a, d) p) as [[[s1 d1] b1]|f], (sf_HandlePacket 0 opt (to_stdout bytes) (a, d') p) as [[[s2 d2] b2]|f'];
          cbn in T |- *; tauto)
    ltac:(intros [a d] [a' d'] c0 t0 [E A] F; cbn [fst snd] in E, A; subst a'; destruct (alike_ends bytes _ _ A) as [t1 [t2 [E1 [E2 O]]]];
          unfold finish in *; cbn [filter_service service_filter sk_end sk_exit fst snd] in *; rewrite E1 in F; rewrite E2; cbn in F |- *; injection F as <- <-; eauto)
    view reads n (sf_init opt, so_init writes) (sf_init opt, so_init writes') (sf_init opt, so_init writes) (sf_init opt, so_init writes') c h (s, w)
    (proj1 Cs) L eq_refl eq_refl (conj eq_refl (alike_init _ _ W W')) M) as [h2 [[s2 w2] [M2 O2]]].
  cbn [snd] in O2. rewrite O2.
  destruct (run_cut (filter_service bytes sid) (fun x => fine (snd x)) (fun x => so_out (snd x) ++ so_buf (snd x))
    (filter_grows _ 0 opt (to_stdout bytes) fine (fun s => so_out s ++ so_buf s) (stdout_grows bytes size)) (fun _ => True) (fun _ _ _ _ _ => Logic.I)
    view reads reads' n (sf_init opt, so_init writes') (sf_init opt, so_init writes') _ _ _ _ _ _ Cs Hn eq_refl (fine_init _ W') Logic.I M2 M') as [d1 [d2 [E1 [E2 [I1 [I2 [Px _]]]]]]].
  destruct d1 as [a1 d1], d2 as [a2 d2]. cbn [fst snd] in *. injection E1 as _ E1. injection E2 as _ E2.
  rewrite <- E1, <- E2, (stdout_ends bytes d1 (so_End d1) I1 eq_refl), (stdout_ends bytes d2 (so_End d2) I2 eq_refl). exact Px.
Qed.

Lemma filter_program_cut : forall view bytes npackets sid o reads reads' writes writes' n c c' h h' s s' t t' w w', (forall p, zlen (bytes p) = 188) ->
  cut_short reads reads' -> Forall no_error writes -> Forall no_error writes' -> (List.length (bytes_of reads') < n)%nat ->
  filter_program_main view bytes npackets sid o reads writes n = Some (Ok (c, (h, (s, (t, w))))) ->
  filter_program_main view bytes npackets sid o reads' writes' n = Some (Ok (c', (h', (s', (t', w'))))) -> is_prefix (so_out w) (so_out w').
Proof.
  intros view bytes npackets sid o reads reads' writes writes' n c c' h h' s s' t t' w w' size Cs W W' Hn M M'.
  assert (L : (List.length (bytes_of reads) < n)%nat) by (destruct Cs as [_ [_ [m E]]]; rewrite E, app_length in Hn; lia).
  unfold filter_program_main in *. set (opt := load_service_filter (Some sid)) in *.
  set (k := ProgramFilter.program_filter npackets o (to_stdout bytes) 1).
  set (R := fun x y : ProgramFilter.pf_state * stdout_state => fst x = fst y /\ alike (snd x) (snd y)).
  assert (Tk : forall d d' p, R d d' -> twin1 k R (sk_handle k d p) (sk_handle k d' p)).
  { intros [a d] [a' d'] p [E A]. cbn [fst snd] in E, A. subst a'.
    pose proof (program_twin (to_stdout bytes) alike (alike_takes bytes size) npackets o 1 a d d' p A) as T. cbn [k ProgramFilter.program_filter sk_handle].
    match type of T with twin _ _ ?x ?y => change (twin1 k R x y); destruct x as [[[s1 d1] b1]|f], y as [[[s2 d2] b2]|f'] end;
      cbn in T |- *; unfold R; cbn [fst snd]; tauto. }
  set (K := filter_program bytes npackets sid o).
  assert (TK : forall d d' p, (fst d = fst d' /\ R (snd d) (snd d')) ->
    match sk_handle K d p, sk_handle K d' p with Ok (a, b), Ok (a', b') => b = b' /\ (fst a = fst a' /\ R (snd a) (snd a')) | Fail f, Fail f' => f = f' | _, _ => False end).
  { intros [a d] [a' d'] p [E A]. cbn [fst snd] in E, A. subst a'. pose proof (filter_twin k R Tk 0 opt a d d' p A) as T.
    match type of T with twin _ _ ?x ?y => change (twin1 K (fun a b => fst a = fst b /\ R (snd a) (snd b)) x y);
      destruct x as [[[s1 d1] b1]|f], y as [[[s2 d2] b2]|f'] end; cbn in T |- *; tauto. }
  assert (FK : forall d d' c t, (fst d = fst d' /\ R (snd d) (snd d')) -> finish K d = Ok (c, t) -> exists t', finish K d' = Ok (c, t') /\ so_out (snd (snd t)) = so_out (snd (snd t'))).
  { intros [a [b d]] [a' [b' d']] c0 t0 [E [E' A]] F. cbn [fst snd] in E, E', A. subst a' b'. destruct (alike_ends bytes _ _ A) as [t1 [t2 [E1 [E2 O]]]].
    unfold finish in *. cbn [K filter_program ProgramFilter.program_filter service_filter sk_end sk_exit fst snd bind] in *. rewrite E1 in F. rewrite E2.
    cbn [bind] in *. unfold sf_GetExitCode in *. cbn [ProgramFilter.program_filter sk_exit fst snd] in *.
    destruct (ProgramFilter.pf_retry b); cbn in F |- *; injection F as <- <-; eauto. }
  destruct (twin_run _ _ K (fun d d' => fst d = fst d' /\ R (snd d) (snd d')) (fun x => so_out (snd (snd x))) TK FK view reads n
    (sf_init opt, (ProgramFilter.pf_init o, so_init writes)) (sf_init opt, (ProgramFilter.pf_init o, so_init writes'))
    (sf_init opt, (ProgramFilter.pf_init o, so_init writes)) (sf_init opt, (ProgramFilter.pf_init o, so_init writes')) c h (s, (t, w))
    (proj1 Cs) L eq_refl eq_refl (conj eq_refl (conj eq_refl (alike_init _ _ W W'))) M) as [h2 [[s2 [t2 w2]] [M2 O2]]].
  cbn [snd] in O2. rewrite O2.
  destruct (run_cut K (fun x => fine (snd (snd x))) (fun x => so_out (snd (snd x)) ++ so_buf (snd (snd x)))
    (filter_grows _ 0 opt k (fun x => fine (snd x)) (fun x => so_out (snd x) ++ so_buf (snd x))
      (program_grows _ npackets o (to_stdout bytes) fine (fun s => so_out s ++ so_buf s) (stdout_grows bytes size) 1)) (fun _ => True) (fun _ _ _ _ _ => Logic.I)
    view reads reads' n (sf_init opt, (ProgramFilter.pf_init o, so_init writes')) (sf_init opt, (ProgramFilter.pf_init o, so_init writes')) _ _ _ _ _ _ Cs Hn eq_refl
    (fine_init _ W') Logic.I M2 M') as [d1 [d2 [E1 [E2 [I1 [I2 [Px _]]]]]]].
  destruct d1 as [a1 [b1 d1]], d2 as [a2 [b2 d2]]. cbn [fst snd] in *. injection E1 as _ _ E1. injection E2 as _ _ E2.
  rewrite <- E1, <- E2, (stdout_ends bytes d1 (so_End d1) I1 eq_refl), (stdout_ends bytes d2 (so_End d2) I2 eq_refl). exact Px.
Qed.

Lemma record_service_cut : forall view bytes sid o local s0 reads reads' n c c' h h' f f' s s', cut_short reads reads' ->
  (List.length (bytes_of reads') < n)%nat ->
  record_service_main view bytes sid o local s0 reads n = Some (Ok (c, (h, (f, s)))) ->
  record_service_main view bytes sid o local s0 reads' n = Some (Ok (c', (h', (f', s')))) ->
  s = s' \/ exists before stop, rc_trace s = before ++ [Msg (MStop stop)] /\ is_prefix before (rc_trace s').
Proof.
  intros view bytes sid o local s0 reads reads' n c c' h h' f f' s s' Cs Hn M M'. unfold record_service_main in *. set (opt := load_service_filter (Some sid)) in *.
  set (K := record_service bytes sid o local).
  destruct (sk_start K (sf_init opt, s0)) as [[d0 [|]]|e] eqn:S0.
  - destruct (run_cut K (fun _ => True) (fun x => rc_trace (snd x)) (filter_grows _ 0 opt (recorder o local bytes 1) (fun _ => True) rc_trace (recorder_grows o local bytes 1))
      (fun _ => True) (fun _ _ _ _ _ => Logic.I) view reads reads' n (sf_init opt, s0) d0 _ _ _ _ _ _ Cs Hn S0 Logic.I Logic.I M M') as [d1 [d2 [E1 [E2 [_ [_ [Px _]]]]]]].
    right. destruct d1 as [a1 d1], d2 as [a2 d2]. cbn [K record_service service_filter recorder sk_end fst snd bind] in E1, E2, Px.
    injection E1 as _ E1. injection E2 as _ E2. exists (rc_trace d1), (rg_broken (rc_ring d1)). split.
    + rewrite <- E1. reflexivity.
    + rewrite <- E2. eapply pre_trans; [exact Px|]. apply put_grows.
  - left. assert (A : forall r c h s, run_main view K r (sf_init opt, s0) n = Some (Ok (c, (h, s))) -> s = d0).
    { intros r c1 h1 s1 H. unfold run_main, FeedPackets in H. cbn [viewed sk_start fst snd] in H. rewrite S0 in H. cbn [bind] in H. injection H as _ _ <-. reflexivity. }
    apply A in M. apply A in M'. congruence.
  - exfalso. unfold run_main, FeedPackets in M. cbn [viewed sk_start fst snd] in M. fold K in M. rewrite S0 in M. discriminate.
Qed.

Lemma scan_services_cut : forall view sids xsids reads reads' n c c' h h' s s', cut_short reads reads' -> (List.length (bytes_of reads') < n)%nat ->
  scan_services_main view sids xsids reads n = Some (Ok (c, (h, s))) -> scan_services_main view sids xsids reads' n = Some (Ok (c', (h', s'))) ->
  is_prefix (ServiceScanner.sc_out s) (ServiceScanner.sc_out s').
Proof.
  intros view sids xsids reads reads' n c c' h h' s s' Cs Hn M M'. unfold scan_services_main in *. destruct (load_service_scanner sids xsids) as [o|f]; [|discriminate].
  destruct (run_cut (ServiceScanner.sc_sink o) (fun _ => True) ServiceScanner.sc_out (scan_grows o) _ (scan_calm o) view reads reads' n ServiceScanner.sc_init ServiceScanner.sc_init _ _ _ _ _ _ Cs Hn eq_refl Logic.I eq_refl M M')
    as [d1 [d2 [E1 [E2 [_ [_ [Px [-> |Cl]]]]]]]].
  - replace s' with s by congruence. apply pre_refl.
  - cbn [ServiceScanner.sc_sink sk_end] in E1, E2. unfold ServiceScanner.sc_End in E1, E2. rewrite Cl in E1. injection E1 as <-.
    destruct (negb _); [injection E2 as <-; exact Px|]. destruct (ServiceScanner.sc_pat d2), (ServiceScanner.sc_sdt d2); injection E2 as <-; try exact Px.
    eapply pre_trans; [exact Px|]. apply pre_app.
Qed.
Lemma sync_clocks_cut : forall view sids xsids reads reads' n c c' h h' s s', cut_short reads reads' -> (List.length (bytes_of reads') < n)%nat ->
  sync_clocks_main view sids xsids reads n = Some (Ok (c, (h, s))) -> sync_clocks_main view sids xsids reads' n = Some (Ok (c', (h', s'))) ->
  is_prefix (PcrSynchronizer.ps_out s) (PcrSynchronizer.ps_out s').
Proof.
  intros view sids xsids reads reads' n c c' h h' s s' Cs Hn M M'. unfold sync_clocks_main in *. destruct (load_pcr_synchronizer sids xsids) as [o|f]; [|discriminate].
  destruct (run_cut (PcrSynchronizer.ps_sink o) (fun _ => True) PcrSynchronizer.ps_out (sync_grows o) _ (sync_calm o) view reads reads' n PcrSynchronizer.ps_init PcrSynchronizer.ps_init _ _ _ _ _ _ Cs Hn eq_refl Logic.I eq_refl M M')
    as [d1 [d2 [E1 [E2 [_ [_ [Px [-> |Cl]]]]]]]].
  - replace s' with s by congruence. apply pre_refl.
  - cbn [PcrSynchronizer.ps_sink sk_end] in E1, E2. unfold PcrSynchronizer.ps_End in E1, E2. rewrite Cl in E1. injection E1 as <-.
    destruct (negb _); [injection E2 as <-; exact Px|]. ib E2. injection E2 as <-. eapply pre_trans; [exact Px|]. apply pre_app.
Qed.

Lemma collect_eits_cut : forall mjd view sids xsids limit streaming actual others reads reads' n c c' h h' s s', cut_short reads reads' ->
  (List.length (bytes_of reads') < n)%nat ->
  collect_eits_main mjd view sids xsids limit streaming actual others reads n = Some (Ok (c, (h, s))) ->
  collect_eits_main mjd view sids xsids limit streaming actual others reads' n = Some (Ok (c', (h', s'))) ->
  is_prefix (EitCollector.ec_out s) (EitCollector.ec_out s').
Proof.
  intros mjd view sids xsids limit streaming actual others reads reads' n c c' h h' s s' Cs Hn M M'. unfold collect_eits_main in *.
  destruct (load_eit_collector _ _ _ _ _ _) as [o|f]; [|discriminate]. destruct (EitCollector.ec_new o) as [s0|f]; [|discriminate].
  exact (run_cut_same (EitCollector.eit_sink mjd o) (fun _ => True) EitCollector.ec_out (eits_grow mjd o) ltac:(intros x y _ E; injection E as <-; reflexivity) view reads reads' n s0 s0 _ _ _ _ _ _ Cs Hn eq_refl Logic.I M M').
Qed.
Lemma collect_eitpfs_cut : forall mjd view sids streaming present following reads reads' n c c' h h' s s', cut_short reads reads' ->
  (List.length (bytes_of reads') < n)%nat ->
  collect_eitpfs_main mjd view sids streaming present following reads n = Some (Ok (c, (h, s))) ->
  collect_eitpfs_main mjd view sids streaming present following reads' n = Some (Ok (c', (h', s'))) ->
  is_prefix (EitpfCollector.pf_out s) (EitpfCollector.pf_out s').
Proof.
  intros mjd view sids streaming present following reads reads' n c c' h h' s s' Cs Hn M M'. unfold collect_eitpfs_main in *.
  destruct (load_eitpf_collector _ _ _ _) as [o|f]; [|discriminate].
  exact (run_cut_same (EitpfCollector.pf_sink mjd o) (fun _ => True) EitpfCollector.pf_out (eitpfs_grow mjd o) ltac:(intros x y _ E; injection E as <-; reflexivity) view reads reads' n EitpfCollector.pf_init EitpfCollector.pf_init _ _ _ _ _ _ Cs Hn eq_refl Logic.I M M').
Qed.
Lemma metadata_cut : forall view sid reads reads' n c c' h h' s s', cut_short reads reads' -> (List.length (bytes_of reads') < n)%nat ->
  program_metadata_main view sid reads n = Some (Ok (c, (h, s))) -> program_metadata_main view sid reads' n = Some (Ok (c', (h', s'))) -> is_prefix s s'.
Proof.
  intros view sid reads reads' n c c' h h' s s' Cs Hn M M'.
  exact (run_cut_same (MetadataFilter.md_sink (load_metadata_filter sid)) (fun _ => True) (fun s => s) (metadata_grows _) ltac:(intros x y _ E; injection E as <-; reflexivity) view reads reads' n [] [] _ _ _ _ _ _ Cs Hn eq_refl Logic.I M M').
Qed.
Lemma track_airtime_cut : forall view sid eid reads reads' n c c' h h' s s', cut_short reads reads' -> (List.length (bytes_of reads') < n)%nat ->
  track_airtime_main view sid eid reads n = Some (Ok (c, (h, s))) -> track_airtime_main view sid eid reads' n = Some (Ok (c', (h', s'))) ->
  is_prefix (AirtimeTracker.at_out s) (AirtimeTracker.at_out s').
Proof.
  intros view sid eid reads reads' n c c' h h' s s' Cs Hn M M'.
  exact (run_cut_same (AirtimeTracker.at_sink (load_airtime_tracker sid eid)) (fun _ => True) AirtimeTracker.at_out (airtime_grows _) ltac:(intros x y _ E; injection E as <-; reflexivity) view reads reads' n AirtimeTracker.at_init AirtimeTracker.at_init _ _ _ _ _ _ Cs Hn eq_refl Logic.I M M').
Qed.
Lemma print_pes_cut : forall view reads reads' n c c' h h' s s', cut_short reads reads' -> (List.length (bytes_of reads') < n)%nat ->
  print_pes_main view reads n = Some (Ok (c, (h, s))) -> print_pes_main view reads' n = Some (Ok (c', (h', s'))) ->
  is_prefix (PesPrinter.pp_out s) (PesPrinter.pp_out s').
Proof.
  intros view reads reads' n c c' h h' s s' Cs Hn M M'.
  exact (run_cut_same PesPrinter.pp_sink (fun _ => True) PesPrinter.pp_out pes_grows ltac:(intros x y _ E; injection E as <-; reflexivity) view reads reads' n PesPrinter.pp_init PesPrinter.pp_init _ _ _ _ _ _ Cs Hn eq_refl Logic.I M M').
Qed.

Lemma logos_grow : forall ls out out', Logo.lg_run out ls = Ok out' -> is_prefix out out'.
Proof.
  induction ls as [|l ls IH]; intros out out' H; cbn [Logo.lg_run] in H; [injection H as <-; apply pre_refl|]. ib H. eapply pre_trans; [|eapply IH; eauto].
  unfold Logo.OnLogoDownloaded in Hb. destruct (_ <=? 93); [injection Hb as <-; apply pre_refl|]. ib Hb. injection Hb as <-. apply pre_app.
Qed.
Lemma collect_logos_cut : forall engine closing reads reads' n c c' h h' s s', cut_short reads reads' -> (List.length (bytes_of reads') < n)%nat ->
  (forall before, closing before = []) ->
  collect_logos_main engine closing reads n = Some (Ok (c, (h, s))) -> collect_logos_main engine closing reads' n = Some (Ok (c', (h', s'))) ->
  is_prefix (Logo.lc_out s) (Logo.lc_out s').
Proof.
  intros engine closing reads reads' n c c' h h' s s' Cs Hn Q M M'.
  refine (run_cut_same (Logo.lc_sink engine closing) (fun _ => True) Logo.lc_out _ _ (fun _ b => b) reads reads' n Logo.lc_init (Logo.mkLc true [] []) _ _ _ _ _ _ Cs Hn eq_refl Logic.I M M').
  - intros x p x' b _ H. split; [exact Logic.I|]. cbn [Logo.lc_sink sk_handle] in H. unfold Logo.lc_HandlePacket in H.
    destruct (Logo.lc_bridge x); [|discriminate]. destruct (engine (Logo.lc_seen x) p) as [ls ok]. ib H. injection H as <- _. cbn [Logo.lc_out]. eapply logos_grow; eauto.
  - intros x y _ E. cbn [Logo.lc_sink sk_end] in E. unfold Logo.lc_End in E. rewrite Q in E. cbn in E. injection E as <-. reflexivity.
Qed.
