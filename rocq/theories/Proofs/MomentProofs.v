(** Two runs of filter-program with clocks and margins that come to the same. *)
From Coq Require Import ZArith Lia List Bool.
From Verif Require Import Base.Outcome Base.Util Model.Pcr Model.Sink Model.FileSource Model.StdoutSink Model.Ts Model.ProgramFilter Model.Commands Model.Main
  Spec.PcrSpec Spec.SourceSpec Spec.StdoutSpec Spec.FilterSpec Spec.TuneSpec Spec.TransSpec Spec.ProgramSpec Spec.PipeSpec Spec.MainSpec Spec.MomentSpec
  Proofs.FilterProofs Proofs.FilterMain Proofs.TransProofs Proofs.ProgramProofs Proofs.ProgramMain Proofs.PipeProofs Proofs.PipeProgram Proofs.PipeOptions Proofs.MainProofs Proofs.WallMain.
From Verif Require Proofs.PcrProofs.
Import ListNotations.
Open Scope Z_scope.

Section Two.
Variable npackets : pmt -> nat.
(** The options but for the clock and the margins. *)
Variable sid eid cpid : Z.
Variable audio video : list Z.
Variable wait : option Z.
Variable pre : bool.
Variable pcr time sm em pcr' time' sm' em' : Z.
Notation o := (mkPfOption sid eid cpid pcr time audio video sm em wait pre).
Notation o' := (mkPfOption sid eid cpid pcr' time' audio video sm' em' wait pre).

(** What is true of the past, given what is true of the packets. *)
Variable Q : packet -> Prop.
Variable stage : nat.
Variable Inv : past -> Prop.
Hypothesis Inv_nil : Inv [].
Hypothesis Inv_other : forall x h, (forall a b, x <> Tab a b) -> Inv h -> Inv (x :: h).
Hypothesis Inv_hear : forall h p ts, Inv h -> Q p -> (forall t, In t ts -> In t (p_tabs p stage)) -> Inv (hear h p ts).
Hypothesis W : forall h, Inv h -> window o h = window o' h.

Lemma react_same : forall h p, Inv h -> react npackets o h p = react npackets o' h p /\ Inv (snd (react npackets o h p)).
Proof.
  intros h p I.
  assert (IC : forall v g, Inv g -> Inv (Clk v :: g)) by (intros; apply Inv_other; [discriminate|auto]).
  assert (IP : forall q g, Inv g -> Inv (PatPkt q :: g)) by (intros; apply Inv_other; [discriminate|auto]).
  assert (IM : forall g, Inv g -> Inv (PmtSent :: g)) by (intros; apply Inv_other; [discriminate|auto]).
  assert (IB : forall g, Inv g -> Inv (Begun :: g)) by (intros; apply Inv_other; [discriminate|auto]).
  assert (G : forall g, given_up o g = given_up o' g) by (induction g as [|x g IH]; [reflexivity|cbn [given_up]; rewrite IH; reflexivity]).
  assert (Pa : forall g, Inv g -> pass npackets o g p = pass npackets o' g p /\ Inv (snd (pass npackets o g p))).
  { intros g Ig. split; [reflexivity|]. unfold pass. destruct (pmt_now o g) as [[src m]|]; [|exact Ig].
    destruct (_ =? _); [destruct (_ =? _); cbn; auto|]. destruct (removed _ _ _); cbn; auto. }
  assert (Be : forall g, Inv g -> begin npackets o g p = begin npackets o' g p /\ Inv (snd (begin npackets o g p))).
  { intros g Ig. split; [reflexivity|]. unfold begin. destruct (pmt_now o g) as [[src m]|]; [|exact Ig].
    destruct (_ && _); [exact Ig|]. destruct (_ =? _); cbn; auto. }
  unfold react. destruct (begun h).
  - unfold streaming. rewrite <- (G h). destruct (given_up o h); [split; [reflexivity|exact I]|].
    change (pmt_now o' h) with (pmt_now o h). destruct (pmt_now o h) as [[src m]|]; [|split; [reflexivity|exact I]].
    destruct (_ =? _); [|apply Pa; exact I]. destruct (p_pcr p) as [v|]; [|split; [reflexivity|exact I]].
    rewrite <- (W (Clk v :: h)) by auto. destruct (window o (Clk v :: h)) as [[s e]|]; [|split; [reflexivity|cbn; auto]].
    destruct (reached v e); [split; [reflexivity|cbn; auto]|]. apply Pa. auto.
  - unfold waiting. rewrite <- (G h). destruct (given_up o h); [split; [reflexivity|exact I]|].
    change (pfo_pre_streaming o') with (pfo_pre_streaming o). destruct (_ && _); [split; [reflexivity|exact I]|].
    change (event_now o' h) with (event_now o h). change (service_pcr o' h p) with (service_pcr o h p).
    set (h1 := if p_pid p =? 0 then PatPkt p :: h else h). assert (I1 : Inv h1) by (unfold h1; destruct (_ =? _); auto).
    destruct (event_now o h); [|split; [reflexivity|exact I1]]. destruct (service_pcr o h p) as [v|]; [|split; [reflexivity|exact I1]].
    rewrite <- (W (Clk v :: h1)) by auto. destruct (window o (Clk v :: h1)) as [[s e']|]; [|split; [reflexivity|cbn; auto]].
    destruct (reached v e'); [split; [reflexivity|cbn; auto]|]. destruct (reached v s); [|split; [reflexivity|cbn; auto]].
    apply Be. auto.
Qed.

Lemma step_same : forall h p qs v h', Inv h -> Q p -> program_step npackets o stage h p qs v h' -> program_step npackets o' stage h p qs v h' /\ Inv h'.
Proof.
  intros h p qs v h' I Qp (ts & D & C). assert (S : forall t, In t ts -> In t (p_tabs p stage)) by (destruct D as [[_ ->]|[_ ->]]; [auto|intros t []]).
  destruct C as [[B E]|[B E]].
  - split; [exists ts; split; [exact D|left; split; [exact B|exact E]]|]. injection E as -> -> ->. exact I.
  - destruct (react_same (hear h p ts) p (Inv_hear h p ts I Qp S)) as [R N]. split.
    + exists ts. split; [exact D|right]. split; [exact B|]. rewrite <- R. exact E.
    + rewrite <- E in N. exact N.
Qed.

Lemma trans_same : forall k h d ps out e h' d', trans (program_step npackets o stage) k h d ps out e h' d' -> Inv h -> Forall Q ps ->
  trans (program_step npackets o' stage) k h d ps out e h' d'.
Proof.
  intros k h d ps out e h' d' T.
  induction T as [h d|h d p ps qs h' out d' out' e he de S E F IH|h d p ps qs h' out d' S E|h d p ps qs f h' out d' S E|h d p ps qs v h' out d' S E|h d p ps qs v h' out f S E];
    intros I Qs; [constructor| | | | |]; inversion Qs as [|p' ps' Qp Qr]; subst; destruct (step_same _ _ _ _ _ I Qp S) as [S' I'].
  - eapply X_go; eauto.
  - eapply X_halt; eauto.
  - eapply X_boom; eauto.
  - eapply X_refused; eauto.
  - eapply X_sink; eauto.
Qed.
End Two.

(** ** The windows *)
Section Windows.
Variable sid eid cpid : Z.
Variable audio video : list Z.
Variable wait : option Z.
Variable pre : bool.

(** The same clock, [d] ms later. *)
Lemma window_moment : forall pcr time sm em d h,
  window (mkPfOption sid eid cpid pcr time audio video sm em wait pre) h =
  window (mkPfOption sid eid cpid (pcr_after d pcr) (time + d) audio video sm em wait pre) h.
Proof.
  intros pcr time sm em d h. set (o := mkPfOption sid eid cpid pcr time audio video sm em wait pre).
  set (o' := mkPfOption sid eid cpid (pcr_after d pcr) (time + d) audio video sm em wait pre).
  assert (C : clock_now o h = clock_now o' h \/ exists pid, clock_now o h = (pid, Some pcr, Some time) /\ clock_now o' h = (pid, Some (pcr_after d pcr), Some (time + d))).
  { induction h as [|x h IH]; [right; eexists; split; reflexivity|]. cbn [clock_now]. destruct IH as [->|(pid & -> & ->)].
    - left. destruct (clock_now o' h) as [[pid c] t]. destruct x as [src b|v|p| |]; try reflexivity.
    - destruct x as [src b|v|p| |]; try (right; eexists; split; reflexivity). destruct b as [?|?|[m|]|?|[t|]|?|?|]; try (right; eexists; split; reflexivity).
      change (pfo_sid o') with (pfo_sid o). destruct (_ && _); [left; reflexivity|right; eexists; split; reflexivity]. }
  unfold window. change (event_now o' h) with (event_now o h). destruct C as [->|(pid & -> & ->)]; [reflexivity|].
  destruct (event_now o h) as [e|]; [|reflexivity]. change (pfo_start_margin o') with sm. change (pfo_start_margin o) with sm. change (pfo_end_margin o') with em. change (pfo_end_margin o) with em.
  assert (X : forall t, to_pcr pcr time t = to_pcr (pcr_after d pcr) (time + d) t).
  { intros t. unfold to_pcr, pcr_after. rewrite Zplus_mod_idemp_l. f_equal. lia. }
  rewrite <- !X. reflexivity.
Qed.

(** No PMT of the service has another PCR PID. *)
Definition same_pid (h : past) : Prop := forall src m, In (src, TPmt (Some m)) (tabs h) -> pmt_sid m = sid -> pmt_pcr_pid m = cpid.

Lemma clock_kept : forall pcr time sm em h, same_pid h ->
  clock_now (mkPfOption sid eid cpid pcr time audio video sm em wait pre) h = (cpid, Some pcr, Some time).
Proof.
  intros pcr time sm em h. induction h as [|x h IH]; intros S; [reflexivity|]. cbn [clock_now].
  rewrite IH by (intros src m I; apply (S src m); destruct x; cbn [tabs]; try exact I; right; exact I).
  destruct x as [src b|v|p| |]; try reflexivity. destruct b as [?|?|[m|]|?|[t|]|?|?|]; try reflexivity. cbn [pfo_sid].
  destruct (Z.eqb_spec (pmt_sid m) sid) as [E|_]; [|reflexivity]. rewrite (S src m (or_introl eq_refl) E), Z.eqb_refl. reflexivity.
Qed.

Lemma window_margins : forall pcr time sm em d h, same_pid h ->
  window (mkPfOption sid eid cpid pcr (time + d) audio video sm em wait pre) h =
  window (mkPfOption sid eid cpid pcr time audio video (sm + d) (em - d) wait pre) h.
Proof.
  intros pcr time sm em d h S. unfold window. rewrite !clock_kept by exact S.
  match goal with |- match event_now ?a h with _ => _ end = match event_now ?b h with _ => _ end => change (event_now b h) with (event_now a h); destruct (event_now a h) as [e|] end; [|reflexivity].
  cbn [pfo_start_margin pfo_end_margin]. unfold to_pcr.
  replace (ev_start e - (sm + d) - time) with (ev_start e - sm - (time + d)) by lia.
  replace (ev_start e + (ev_duration e * 1000 + (em - d)) - time) with (ev_start e + (ev_duration e * 1000 + em) - (time + d)) by lia. reflexivity.
Qed.
End Windows.

Lemma same_pid_hear : forall stage sid cpid h p ts, same_pid sid cpid h ->
  (forall t m, In t (p_tabs p stage) -> tb_body t = TPmt (Some m) -> pmt_sid m = sid -> pmt_pcr_pid m = cpid) ->
  (forall t, In t ts -> In t (p_tabs p stage)) -> same_pid sid cpid (hear h p ts).
Proof.
  intros stage sid cpid h p ts S K I src m M E. rewrite tabs_hear in M. apply in_app_or in M as [M|M]; [|exact (S src m M E)].
  apply in_rev, in_map_iff in M as (t & Et & It). injection Et as _ Et. exact (K t m (I t It) Et E).
Qed.

(** ** The command *)
Lemma program_main_same : forall view bytes, (forall p, zlen (bytes p) = 188) -> forall npackets, (forall m, (1 <= npackets m)%nat) ->
  forall sid o o' reads bs writes n, sane_option o -> sane_option o' -> Forall read_ok reads -> packets_of (bytes_of reads) bs -> Forall no_error writes ->
  (List.length (bytes_of reads) < n)%nat -> Forall (sane_packet 1) (views view [] bs) ->
  (forall mid e h out e' h', filtered (sid mod 2 ^ 16) None 0 anything [] tt (views view [] bs) mid e h tt ->
     trans (program_step npackets o 1) anything [] tt mid out e' h' tt ->
     trans (program_step npackets o' 1) anything [] tt mid out e' h' tt /\ program_code o h' = program_code o' h') ->
  report (filter_program_main view bytes npackets sid o reads writes n) (fun s => Ok (so_out (snd (snd s)))) (fun _ => []) =
  report (filter_program_main view bytes npackets sid o' reads writes n) (fun s => Ok (so_out (snd (snd s)))) (fun _ => []).
Proof.
  intros view bytes B npackets NP sid o o' reads bs writes n So So' R P Wr L Sp X.
  destruct (filter_program_exact view bytes B npackets NP sid o reads bs writes n So R P Wr L Sp) as (mid & e & h & out & e' & h' & F & T & K).
  destruct (filter_program_exact view bytes B npackets NP sid o' reads bs writes n So' R P Wr L Sp) as (mid2 & e2 & h2 & out2 & e2' & h2' & F2 & T2 & K2).
  destruct (filtered_det _ _ _ _ _ _ _ _ _ _ _ _ _ _ _ F F2) as (<- & <- & <- & _). destruct (X _ _ _ _ _ _ F T) as [T' C].
  destruct (trans_det _ (program_step_det npackets o' 1) _ _ _ _ _ _ _ _ _ _ _ _ T' T2) as (<- & <- & <- & _).
  clear T T' T2 F F2 X. rewrite C in K. clear C.
  set (r := filter_program_main view bytes npackets sid o reads writes n) in *. set (r' := filter_program_main view bytes npackets sid o' reads writes n) in *.
  clearbody r r'. cbn [sk_state filter_program ServiceFilter.service_filter program_filter to_stdout] in *.
  destruct e' as [| | |f'].
  - destruct e as [| | |f]; [| | |subst; reflexivity];
      (destruct K as (c & seen & s & t & w & -> & Q & Y); destruct K2 as (c2 & seen2 & s2 & t2 & w2 & -> & Q2 & Y2);
       pose proof (exit_code_fun _ _ _ _ _ Y Y2) as E; subst c2; cbn [report bind snd]; rewrite Q, Q2; reflexivity).
  - destruct K as (c & seen & s & t & w & -> & Q & Y); destruct K2 as (c2 & seen2 & s2 & t2 & w2 & -> & Q2 & Y2). subst c c2. cbn [report bind snd]. rewrite Q, Q2. reflexivity.
  - destruct K as (c & seen & s & t & w & -> & Q & Y); destruct K2 as (c2 & seen2 & s2 & t2 & w2 & -> & Q2 & Y2). subst c c2. cbn [report bind snd]. rewrite Q, Q2. reflexivity.
  - subst. reflexivity.
Qed.

Definition jst (t : Z) : Z := 40587 * 86400000 + 9 * 3600000 + t.
Lemma load_cases : forall a, Z.abs (pa_clock_time a) < 2 ^ 60 -> given (fun w => Z.abs w < 2 ^ 60) (pa_wait_until a) ->
  load_program_filter a =
    let* audio := Options.LoadComponentTags (pa_audio_tags a) in
    match audio with
    | None => Ok None
    | Some audio =>
        let* video := Options.LoadComponentTags (pa_video_tags a) in
        match video with
        | None => Ok None
        | Some video => Ok (Some (mkPfOption (pa_sid a mod 65536) (pa_eid a mod 65536) (pa_clock_pid a mod 65536) (pa_clock_pcr a) (jst (pa_clock_time a))
            audio video (or_zero (pa_start_margin a)) (or_zero (pa_end_margin a)) (option_map jst (pa_wait_until a)) (pa_pre_streaming a)))
        end
    end.
Proof.
  intros a T W. unfold load_program_filter.
  assert (U : forall u, Z.abs u < 2 ^ 60 -> ConvertUnixTimeToJstTime u = Ok (jst u)).
  { intros u H. change (2 ^ 60) with 1152921504606846976 in H. apply PcrProofs.unix_jst_value. lia. }
  rewrite (U _ T). cbn [bind]. destruct (Options.LoadComponentTags (pa_audio_tags a)) as [[audio|]|]; cbn [bind]; try reflexivity.
  destruct (Options.LoadComponentTags (pa_video_tags a)) as [[video|]|]; cbn [bind]; try reflexivity.
  destruct (pa_wait_until a) as [w|]; [|reflexivity]. cbn [given] in W. rewrite (U w W). reflexivity.
Qed.

Lemma sane_given : forall v, given (fun v => Z.abs v < 2 ^ 44) v -> Z.abs (or_zero v) < 2 ^ 44.
Proof. intros [v|] H; [exact H|cbn; lia]. Qed.
Lemma sane_load : forall a, sane_args a -> forall sid eid cpid au vi w pre,
  sane_option (mkPfOption sid eid cpid (pa_clock_pcr a) (jst (pa_clock_time a)) au vi (or_zero (pa_start_margin a)) (or_zero (pa_end_margin a)) w pre).
Proof.
  intros a (P & T & S & E & _) sid eid cpid au vi w pre. split; [exact P|]. split; [cbn [pfo_clock_time]; unfold jst; lia|].
  split; [exact (sane_given _ S)|exact (sane_given _ E)].
Qed.

(** Two command lines that are read as options with the same steps. *)
Lemma main_alike : forall lib sys a a' bs n, (forall p, zlen (li_bytes lib p) = 188) -> (forall m, (1 <= li_npackets lib m)%nat) ->
  sane_args a -> sane_args a' -> pa_sid a' = pa_sid a -> pa_eid a' = pa_eid a -> pa_clock_pid a' = pa_clock_pid a ->
  pa_audio_tags a' = pa_audio_tags a -> pa_video_tags a' = pa_video_tags a -> pa_wait_until a' = pa_wait_until a -> pa_pre_streaming a' = pa_pre_streaming a ->
  has_input sys bs n -> Forall no_error (sy_writes sys) -> Forall (sane_packet 1) (views (li_packet lib) [] bs) ->
  (forall audio video mid e h out e' h', filtered (pa_sid a mod 2 ^ 16) None 0 anything [] tt (views (li_packet lib) [] bs) mid e h tt ->
     let opt pcr time sm em := mkPfOption (pa_sid a mod 65536) (pa_eid a mod 65536) (pa_clock_pid a mod 65536) pcr time audio video sm em
       (option_map jst (pa_wait_until a)) (pa_pre_streaming a) in
     trans (program_step (li_npackets lib) (opt (pa_clock_pcr a) (jst (pa_clock_time a)) (or_zero (pa_start_margin a)) (or_zero (pa_end_margin a))) 1) anything [] tt mid out e' h' tt ->
     trans (program_step (li_npackets lib) (opt (pa_clock_pcr a') (jst (pa_clock_time a')) (or_zero (pa_start_margin a')) (or_zero (pa_end_margin a'))) 1) anything [] tt mid out e' h' tt) ->
  main lib sys (FilterProgram a) n = main lib sys (FilterProgram a') n.
Proof.
  intros lib sys a a' bs n B NP S S' E1 E2 E3 E4 E5 E6 E7 (R & P & L) Wr Sp X. unfold main.
  assert (Lo : forall x, sane_args x -> Z.abs (pa_clock_time x) < 2 ^ 60 /\ given (fun w => Z.abs w < 2 ^ 60) (pa_wait_until x)).
  { intros x (_ & T & _ & _ & W). split; [|exact W]. change (2 ^ 43) with 8796093022208 in T. change (2 ^ 60) with 1152921504606846976. lia. }
  rewrite (load_cases a), (load_cases a') by (apply Lo; assumption). rewrite E1, E2, E3, E4, E5, E6, E7.
  destruct (Options.LoadComponentTags (pa_audio_tags a)) as [[audio|]|]; cbn [bind]; [|reflexivity|reflexivity].
  destruct (Options.LoadComponentTags (pa_video_tags a)) as [[video|]|]; cbn [bind]; [|reflexivity|reflexivity].
  rewrite <- input_read in P, L. assert (R' : Forall read_ok (the_reads sys)) by (apply reads_read; auto).
  apply (program_main_same (li_packet lib) (li_bytes lib) B (li_npackets lib) NP (pa_sid a) _ _ _ bs (sy_writes sys) n); auto.
  - apply (sane_load a S).
  - apply (sane_load a' S').
  - intros mid e h out e' h' F T. split; [exact (X audio video mid e h out e' h' F T)|]. unfold program_code.
    match goal with |- (if given_up ?x h' && _ then _ else _) = (if given_up ?y h' && _ then _ else _) => assert (G : given_up x h' = given_up y h') end; [|rewrite G; reflexivity].
    clear. induction h' as [|x g IH]; [reflexivity|cbn [given_up]; rewrite IH; reflexivity].
Qed.

Lemma main_moment : forall lib sys a d bs n, (forall p, zlen (li_bytes lib p) = 188) -> (forall m, (1 <= li_npackets lib m)%nat) ->
  let a' := with_clock (pcr_after d (pa_clock_pcr a)) (pa_clock_time a + d) a in
  sane_args a -> sane_args a' -> has_input sys bs n -> Forall no_error (sy_writes sys) -> Forall (sane_packet 1) (views (li_packet lib) [] bs) ->
  main lib sys (FilterProgram a) n = main lib sys (FilterProgram a') n.
Proof.
  intros lib sys a d bs n B NP a' S S' I Wr Sp. apply (main_alike lib sys a a' bs n); auto.
  intros audio video mid e h out e' h' F. cbv zeta. cbn [a' with_clock pa_clock_pcr pa_clock_time pa_start_margin pa_end_margin].
  replace (jst (pa_clock_time a + d)) with (jst (pa_clock_time a) + d) by (unfold jst; lia). intros T.
  refine (trans_same _ _ _ _ _ _ _ _ _ _ _ _ _ _ _ _ (fun _ => True) 1 (fun _ => True) _ _ _ _ _ _ _ _ _ _ _ T _ _); auto.
  - intros g _. apply window_moment.
  - apply Forall_forall. auto.
Qed.

Lemma main_margins : forall lib sys a d bs n, (forall p, zlen (li_bytes lib p) = 188) -> (forall m, (1 <= li_npackets lib m)%nat) ->
  let fast := with_clock (pa_clock_pcr a) (pa_clock_time a + d) a in
  let shifted := with_margins (or_zero (pa_start_margin a) + d) (or_zero (pa_end_margin a) - d) a in
  sane_args fast -> sane_args shifted -> has_input sys bs n -> Forall no_error (sy_writes sys) -> Forall (sane_packet 1) (views (li_packet lib) [] bs) ->
  Forall (keeps_pcr_pid a) (views (li_packet lib) [] bs) ->
  main lib sys (FilterProgram fast) n = main lib sys (FilterProgram shifted) n.
Proof.
  intros lib sys a d bs n B NP fast shifted S S' I Wr Sp K. apply (main_alike lib sys fast shifted bs n); auto.
  intros audio video mid e h out e' h' F. cbv zeta. cbn [fast shifted with_clock with_margins pa_sid pa_eid pa_clock_pid pa_wait_until pa_pre_streaming pa_clock_pcr pa_clock_time pa_start_margin pa_end_margin or_zero].
  replace (jst (pa_clock_time a + d)) with (jst (pa_clock_time a) + d) by (unfold jst; lia). intros T.
  refine (trans_same _ _ _ _ _ _ _ _ _ _ _ _ _ _ _ _ (keeps_pcr_pid a) 1 (same_pid (pa_sid a mod 65536) (pa_clock_pid a mod 65536)) _ _ _ _ _ _ _ _ _ _ _ T _ _); auto.
  - intros x g N Sg. intros src m M. apply (Sg src m). destruct x; try exact M. destruct (N pid b eq_refl).
  - intros g p ts Sg Kp Its. apply (same_pid_hear 1); auto.
  - intros g Sg. apply window_margins. exact Sg.
  - intros src m [].
  - apply Forall_forall. intros q Iq. rewrite Forall_forall in K.
    destruct (filtered_origin _ _ _ (fun _ => True) _ _ _ _ _ _ _ _ F (fun _ _ => Logic.I) (fun _ _ _ _ => Logic.I) q Iq) as [[Ip _]|(p & t & mp & x & _ & _ & -> & _)]; [apply K; exact Ip|].
    intros t0 m It Et. cbn [gen_pat p_tabs] in It. apply repeat_spec in It. subst t0. discriminate Et.
Qed.
