From Coq Require Import ZArith Lia List Bool.
From Verif Require Import Base.Outcome Base.Util Model.Pcr Model.Sink Model.FileSource Model.StdoutSink Model.Ts Model.ServiceFilter Model.ProgramFilter Model.Commands
  Spec.PcrSpec Spec.FeedSpec Spec.SourceSpec Spec.StdoutSpec Spec.FilterSpec Spec.TuneSpec Spec.TransSpec Spec.ProgramSpec Spec.PipeSpec
  Proofs.FeedProofs Proofs.FilterProofs Proofs.FilterMain Proofs.TransProofs Proofs.ProgramProofs Proofs.ProgramMain Proofs.PipeProofs.
Import ListNotations.
Open Scope Z_scope.

Section Trans.
Context {H : Type}.
Variable step : H -> packet -> list packet -> verdict -> H -> Prop.

(** In front of a sink that takes everything. *)
Lemma trans_anything : forall (k : sink packet) (I : sk_state k -> Prop),
  (forall qs d, I d -> exists d', hand k d qs = (qs, Ok (d', true)) /\ I d') ->
  forall h d ps out e h' d', trans step k h d ps out e h' d' -> I d ->
  trans step anything h tt ps out e h' tt /\ hand k d out = (out, Ok (d', true)).
Proof.
  intros k I K.
  assert (A : forall qs, hand anything tt qs = (qs, Ok (tt, true))).
  { induction qs as [|q qs IH]; cbn in *; auto. rewrite IH. reflexivity. }
  intros h d ps out e h' d' F.
  induction F as [h d|h d p ps qs h' out d' out' e he de S E F IH|h d p ps qs h' out d' S E|h d p ps qs f h' out d' S E|h d p ps qs v h' out d' S E|h d p ps qs v h' out f S E]; intros Id.
  - split; [constructor|reflexivity].
  - destruct (K qs d Id) as [d2 [E2 I2]]. rewrite E in E2. injection E2 as -> ->. destruct (IH I2) as [T G].
    split; [eapply X_go; eauto|]. rewrite hand_app, E, G. reflexivity.
  - destruct (K qs d Id) as [d2 [E2 I2]]. rewrite E in E2. injection E2 as -> ->. split; [eapply X_halt; eauto|exact E].
  - destruct (K qs d Id) as [d2 [E2 I2]]. rewrite E in E2. injection E2 as -> ->. split; [eapply X_boom; eauto|exact E].
  - destruct (K qs d Id) as [d2 [E2 I2]]. rewrite E in E2. discriminate.
  - destruct (K qs d Id) as [d2 [E2 I2]]. rewrite E in E2. discriminate.
Qed.

(** Refinement, on what is handed in. *)
Variable S : Type.
Variable k : sink packet.
Variable handle : S * sk_state k -> packet -> res ((S * sk_state k) * bool).
Variable inv fin : H -> S -> Prop.
Variable Q : packet -> Prop.

Lemma trans_hand : refines_step step S k handle inv fin Q -> (forall h s, inv h s -> fin h s) ->
  forall start en ex ps h s d, Forall Q ps -> inv h s ->
  exists out e he de, trans step k h d ps out e he de /\
  match e with
  | Crashed f => snd (hand (mkSink _ start handle en ex) (s, d) ps) = Fail f
  | AtEnd => exists s', fin he s' /\ snd (hand (mkSink _ start handle en ex) (s, d) ps) = Ok ((s', de), true)
  | _ => exists s', fin he s' /\ snd (hand (mkSink _ start handle en ex) (s, d) ps) = Ok ((s', de), false)
  end.
Proof.
  intros R F start en ex ps. induction ps as [|p ps IH]; intros h s d HQ I.
  - exists [], AtEnd, h, d. split; [constructor|]. exists s. cbn. auto.
  - inversion HQ as [|? ? Hp HQ']; subst. cbn [hand sk_handle].
    destruct (R h s d p Hp I) as [qs [v [h' [St A]]]].
    destruct (hand k d qs) as [out [[d' [|]]|f]] eqn:E.
    + destruct v as [| |f].
      * destruct A as [s' [-> I']]. destruct (IH h' s' d' HQ' I') as [o [e [he [de [T X]]]]].
        exists (out ++ o), e, he, de. split; [eapply X_go; eauto|].
        destruct (hand (mkSink (S * sk_state k) start handle en ex) (s', d') ps); exact X.
      * destruct A as [s' [-> I']]. exists out, Halted, h', d'. split; [eapply X_halt; eauto|]. eauto.
      * rewrite A. exists out, (Crashed f), h', d'. split; [eapply X_boom; eauto|]. auto.
    + destruct A as [s' [-> I']]. exists out, Refused, h', d'. split; [eapply X_refused; eauto|]. eauto.
    + rewrite A. exists out, (Crashed f), h', d. split; [eapply X_sink; eauto|]. auto.
Qed.
End Trans.

(** Packets that come through the filter: from the input, or generated from PATs
    heard. *)
Lemma filtered_origin : forall sid limit stage (Q : Z * body -> Prop) k h d ps out e h' d', filtered sid limit stage k h d ps out e h' d' ->
  (forall x, In x h -> Q x) -> (forall p t, In p ps -> In t (p_tabs p stage) -> Q (p_pid p, tb_body t)) ->
  forall q, In q out -> (In q ps /\ p_pid q <> 0) \/ (exists p t mp x, In p ps /\ p_pid p = 0 /\ q = gen_pat p (only_service sid t mp) /\
    Q x /\ listing sid x = Some (t, mp)).
Proof.
  intros sid limit stage Q k h d ps out e h' d' F.
  assert (S : forall h p q, decide sid limit h p (Send q) -> (forall x, In x h -> Q x) ->
    (q = p /\ p_pid q <> 0) \/ (exists t mp x, p_pid p = 0 /\ q = gen_pat p (only_service sid t mp) /\ Q x /\ listing sid x = Some (t, mp))).
  { clear. intros h p q D Hq. inversion D; subst.
    - right. match goal with G : latest _ _ = Some _ |- _ => apply latest_some_in in G as [x [Hx L]] end.
      exists t, pmt_pid, x. auto.
    - left. auto. }
  assert (N : forall h p h', heard sid limit stage h p h' -> (forall x, In x h -> Q x) -> (forall t, In t (p_tabs p stage) -> Q (p_pid p, tb_body t)) ->
    forall x, In x h' -> Q x).
  { clear. intros h p h' [[_ ->]|[_ ->]] Hq Hp x Hx; auto. apply in_app_or in Hx as [Hx|Hx]; auto.
    apply in_rev in Hx. apply in_map_iff in Hx as [t [<- Ht]]. auto. }
  induction F; intros Qh Qp y Hy; cbn in Hy; try contradiction;
    assert (Qh' : forall x, In x h' -> Q x) by (eapply N; eauto; intros; apply Qp; cbn; auto).
  - destruct (IHF Qh' (fun p0 t I => Qp p0 t (or_intror I)) y Hy) as [[A B]|[p0 [t [mp [x [A B]]]]]]; [left|right; exists p0, t, mp, x]; cbn; auto.
  - destruct Hy as [<-|Hy].
    + destruct (S _ _ _ H0 Qh') as [[-> M]|[t [mp [x X]]]]; [left|right; exists p, t, mp, x]; cbn; auto.
    + destruct (IHF Qh' (fun p0 t I => Qp p0 t (or_intror I)) y Hy) as [[A B]|[p0 [t [mp [x [A B]]]]]]; [left|right; exists p0, t, mp, x]; cbn; auto.
  - destruct Hy as [<-|[]]. destruct (S _ _ _ H0 Qh') as [[-> M]|[t [mp [x X]]]]; [left|right; exists p, t, mp, x]; cbn; auto.
  - destruct Hy as [<-|[]]. destruct (S _ _ _ H0 Qh') as [[-> M]|[t [mp [x X]]]]; [left|right; exists p, t, mp, x]; cbn; auto.
Qed.

(** What a generated PAT says. *)
Lemma only_service_lists : forall sid x t mp, listing sid x = Some (t, mp) ->
  usable_pat (0, TPat (Some (only_service sid t mp))) = Some (only_service sid t mp) /\
  pmt_pid_of sid (only_service sid t mp) = Some mp.
Proof.
  intros sid x t mp L. unfold listing in L. destruct (usable_pat x) as [u|] eqn:U; [|discriminate].
  destruct (pmt_pid_of sid u) eqn:P; [|discriminate]. injection L as <- <-.
  assert (T : pat_tsid u <> 0).
  { destruct x as [pid b]. unfold usable_pat in U. destruct b as [[v|]| | | | | | |]; try discriminate.
    destruct (Z.eqb_spec pid 0); [|discriminate]. cbn in U. destruct (Z.eqb_spec (pat_tsid v) 0); [discriminate|]. cbn in U. congruence. }
  split.
  - cbn. destruct (Z.eqb_spec (pat_tsid u) 0); [lia|reflexivity].
  - unfold pmt_pid_of in *. destruct (sid =? 0); [discriminate|]. cbn [only_service pat_entries]. rewrite rev_app_distr. cbn.
    rewrite Z.eqb_refl. reflexivity.
Qed.

Ltac use_hand E A := match type of A with context [snd ?x] => let G := fresh in pose proof (E : snd x = _) as G; rewrite G in A end.

Section Main.
Variable view : list (list Z) -> list Z -> packet.
Variable bytes : packet -> list Z.
Hypothesis size : forall p, zlen (bytes p) = 188.
Variable npackets : pmt -> nat.
Hypothesis some_packets : forall m, (1 <= npackets m)%nat.

Lemma filter_program_exact : forall sid o reads bs writes n, sane_option o ->
  Forall read_ok reads -> packets_of (bytes_of reads) bs -> Forall no_error writes ->
  (List.length (bytes_of reads) < n)%nat -> Forall (sane_packet 1) (views view [] bs) ->
  exists mid e h out e' h', filtered (sid mod 2 ^ 16) None 0 anything [] tt (views view [] bs) mid e h tt /\
  trans (program_step npackets o 1) anything [] tt mid out e' h' tt /\
  match e', e with
  | TransSpec.Crashed f, _ => filter_program_main view bytes npackets sid o reads writes n = Some (Fail f)
  | TransSpec.AtEnd, FilterSpec.Crashed f => filter_program_main view bytes npackets sid o reads writes n = Some (Fail f)
  | _, _ => exists code seen s t w,
      filter_program_main view bytes npackets sid o reads writes n = Some (Ok (code, (seen, (s, (t, w))))) /\ so_out w = concat (map bytes out) /\
      match e' with
      | TransSpec.AtEnd => exit_code (sid mod 2 ^ 16) h (program_code o h') code
      | _ => code = program_code o h'
      end
  end.
Proof.
  intros sid o reads bs writes n So R Pk W Hn Sn. set (ps := views view [] bs) in *.
  set (opt := load_service_filter (Some sid)).
  destruct (filter_total 0 opt ps) as [mid [e [h F]]].
  assert (Hl : (List.length ps < n)%nat) by (unfold ps; rewrite views_length; pose proof (packets_length _ _ Pk); lia).
  assert (Sm : Forall (sane_packet 1) mid).
  { apply Forall_forall. intros q Hq. rewrite Forall_forall in Sn.
    destruct (filtered_origin _ _ _ (fun _ => True) _ _ _ _ _ _ _ _ F (fun _ _ => I) (fun _ _ _ _ => I) q Hq) as [[Hi _]|[p [t [mp [x [_ [_ [-> _]]]]]]]]; [auto|].
    split; [cbn; intros; discriminate|]. intros t' Ht. cbn in Ht. apply repeat_spec in Ht. subst. exact I. }
  set (k := program_filter npackets o (to_stdout bytes) 1).
  destruct (trans_hand (program_step npackets o 1) pf_state (to_stdout bytes) (pf_HandlePacket npackets o (to_stdout bytes) 1)
    (pf_inv npackets o) (pf_fin o) (sane_packet 1)
    (program_refines_step npackets some_packets o So (to_stdout bytes) 1) (inv_fin npackets o)
    (sk_start k) (sk_end k) (sk_exit k) mid [] (pf_init o) (so_init writes) Sm) as [out [e' [h' [w [T E]]]]].
  { split; [apply rel_init; auto|discriminate]. }
  change (mkSink _ _ (pf_HandlePacket npackets o (to_stdout bytes) 1) _ _) with k in E.
  destruct (trans_anything (program_step npackets o 1) (to_stdout bytes) fine) with (2 := T) as [T2 Eh].
  { intros qs d Id. destruct (stdout_hand bytes size qs d Id) as [d' [Ed [Fd _]]]. eauto. }
  { apply fine_init; auto. }
  destruct (stdout_hand bytes size out (so_init writes) (fine_init writes W)) as [w' [Eh' [Fw Ow]]].
  rewrite Eh in Eh'. injection Eh' as <-.
  destruct (stdout_finish bytes w Fw) as [w2 [Ef O2]].
  exists mid, e, h, out, e', h'. split; [exact F|]. split; [exact T2|].
  pose proof (filter_around 0 opt k ps n (pf_init o, so_init writes) (pf_init o, so_init writes) mid e h Hl eq_refl F) as A. cbv zeta in A.
  pose proof (main_feed view (filter_program bytes npackets sid o) reads bs (sf_init opt, (pf_init o, so_init writes)) n R Pk Hn) as M.
  change (run_main view (filter_program bytes npackets sid o) reads (sf_init opt, (pf_init o, so_init writes)) n)
    with (filter_program_main view bytes npackets sid o reads writes n) in M.
  unfold filter_program in M. fold opt k ps in M.
  assert (Fin : forall s', pf_fin o h' s' -> finish k (s', w) = Ok (program_code o h', (s', w2))).
  { intros s' Fs. unfold finish in *. cbn [k program_filter sk_end sk_exit snd fst] in *. unfold pf_fin in Fs.
    destruct (sk_end (to_stdout bytes) w) as [w3|] eqn:Ee; cbn [bind] in *; [|discriminate].
    cbn [snd fst]. rewrite Fs. unfold program_code. destruct (given_up o h' && negb (begun h')).
    - cbn. injection Ef as <-. reflexivity.
    - destruct (sk_exit (to_stdout bytes) w3) as [c|]; cbn [bind] in *; [|discriminate]. injection Ef as -> ->. reflexivity. }
  assert (OK : forall code s t, FeedPackets (list_source packet) (service_filter 0 opt k) n ps (sf_init opt, (pf_init o, so_init writes)) = Some (Ok (code, (s, (t, w2)))) ->
    forall X : Z -> Prop, X code ->
    exists code seen s t w, filter_program_main view bytes npackets sid o reads writes n = Some (Ok (code, (seen, (s, (t, w))))) /\ so_out w = concat (map bytes out) /\ X code).
  { intros code s t Er X HX. rewrite Er in M. destruct M as [seen M]. exists code, seen, s, t, w2. split; [exact M|]. split; [|exact HX].
    rewrite O2, Ow. reflexivity. }
  assert (NO : forall f, FeedPackets (list_source packet) (service_filter 0 opt k) n ps (sf_init opt, (pf_init o, so_init writes)) = Some (Fail f) ->
    filter_program_main view bytes npackets sid o reads writes n = Some (Fail f)).
  { intros f Er. rewrite Er in M. exact M. }
  change (sfo_sid opt) with (sid mod 2 ^ 16) in A.
  destruct e' as [| | |f].
  - destruct E as [s' [Fs E]]. use_hand E A. rewrite (Fin s' Fs) in A.
    destruct e as [| | |f]; try (apply NO; exact A); destruct A as [s [code [X A]]]; eapply (OK code s s' A); exact X.
  - destruct E as [s' [Fs E]]. use_hand E A. rewrite (Fin s' Fs) in A. destruct A as [s A].
    destruct e; eapply (OK _ s s' A (fun code => code = program_code o h')); reflexivity.
  - destruct E as [s' [Fs E]]. use_hand E A. rewrite (Fin s' Fs) in A. destruct A as [s A].
    destruct e; eapply (OK _ s s' A (fun code => code = program_code o h')); reflexivity.
  - use_hand E A. apply NO. exact A.
Qed.

(** Survival. *)
Lemma filter_program_survives : forall sid o mpid reads bs writes n, sane_option o -> pfo_sid o = sid mod 2 ^ 16 -> ~ In mpid base_pids ->
  Forall read_ok reads -> packets_of (bytes_of reads) bs -> Forall no_error writes ->
  (List.length (bytes_of reads) < n)%nat -> Forall (sane_packet 1) (views view [] bs) ->
  (forall p t, In p (views view [] bs) -> In t (p_tabs p 0) -> tame (sid mod 2 ^ 16) None (p_pid p, tb_body t) /\
     forall pat q, listing (sid mod 2 ^ 16) (p_pid p, tb_body t) = Some (pat, q) -> q = mpid) ->
  (forall p t, In p (views view [] bs) -> In t (p_tabs p 1) -> service_pmt (sid mod 2 ^ 16) (p_pid p, tb_body t) <> None -> p_pid p = mpid) ->
  exists code s, filter_program_main view bytes npackets sid o reads writes n = Some (Ok (code, s)).
Proof.
  intros sid o mpid reads bs writes n So Es M R Pk W Hn Sn T0 T1.
  destruct (filter_program_exact sid o reads bs writes n So R Pk W Hn Sn) as [mid [e [h [out [e' [h' [F [T A]]]]]]]].
  assert (NF : never_fails anything) by (repeat split; cbn; eauto).
  assert (E1 : forall f, e <> FilterSpec.Crashed f).
  { eapply filtered_tame; [exact NF|exact F|intros x []|]. intros p t Hp Ht. apply (T0 p t Hp Ht). }
  assert (St : Forall (steady_packet o 1 mpid) mid).
  { apply Forall_forall. intros q Hq t Ht.
    destruct (filtered_origin _ _ _ (fun x => forall pat q, listing (sid mod 2 ^ 16) x = Some (pat, q) -> q = mpid) _ _ _ _ _ _ _ _ F
      ltac:(intros x []) (fun p t Hp Ht => proj2 (T0 p t Hp Ht)) q Hq) as [[Hi N]|[p [pt [mp [x [_ [_ [-> [Qx L]]]]]]]]].
    - unfold steady. rewrite Es. unfold missing, listing, usable_pat.
      assert (Z0 : (p_pid q =? 0) = false) by (apply Z.eqb_neq; exact N).
      split; [destruct (tb_body t) as [[u|]| | | | | | |]; try reflexivity; rewrite Z0; reflexivity|].
      split; [intros pt z; destruct (tb_body t) as [[u|]| | | | | | |]; try discriminate; rewrite Z0; discriminate|].
      intros src m Em. apply (T1 q t Hi Ht). unfold service_pmt_from in Em. unfold service_pmt. cbn [snd].
      destruct (tb_body t) as [?|?|[u|]|?|?|?|?|]; try discriminate. rewrite Es in Em. destruct (pmt_sid u =? sid mod 2 ^ 16); congruence.
    - cbn in Ht. apply repeat_spec in Ht. subst t. cbn [tb_body p_pid gen_pat]. change PID_PAT with 0.
      destruct (only_service_lists _ _ _ _ L) as [U P]. unfold steady. rewrite Es. unfold missing, listing. rewrite U, P.
      split; [reflexivity|]. split; [|intros; discriminate]. intros pt2 z E2. injection E2 as _ <-. eapply Qx. exact L. }
  assert (E2 : forall f, e' <> TransSpec.Crashed f) by exact (steady_survives npackets o 1 mpid M anything tt mid out e' h' tt NF St T).
  destruct e' as [| | |f]; [| | |exfalso; eapply E2; reflexivity];
    (destruct e as [| | |f]; [| | |first [exfalso; eapply E1; reflexivity|idtac]]);
    destruct A as [code [seen [s [t [w [A _]]]]]]; eauto.
Qed.

End Main.
