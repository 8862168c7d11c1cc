From Coq Require Import ZArith Lia List Bool.
From Verif Require Import Base.Outcome Base.Util Model.Sink Model.FileSource Model.Ts Model.ServiceFilter Model.RingFileSink Model.ServiceRecorder Model.Commands
  Spec.FeedSpec Spec.SourceSpec Spec.FilterSpec Spec.TuneSpec Spec.TransSpec Spec.FileSpec Spec.RecorderSpec Spec.ProgramSpec Spec.PipeSpec
  Proofs.FeedProofs Proofs.FilterProofs Proofs.FilterMain Proofs.TransProofs Proofs.RingMain Proofs.RecorderProofs Proofs.RecorderSafe Proofs.PipeProofs Proofs.PipeProgram.
Import ListNotations.
Open Scope Z_scope.

(** A refusal comes from a broken ring. *)
Lemma loop_broken : forall fuel s data s' evs, rg_loop fuel s data = Ok (s', evs, false) -> rg_broken s' = true.
Proof.
  induction fuel as [|fuel IH]; intros s data s' evs E; [discriminate|]. cbn [rg_loop] in E.
  destruct (rg_FillBuffer s data) as [[s1 n]|]; cbn [bind] in E; [|discriminate].
  destruct (if rg_NeedFlush s1 then rg_Flush s1 else Ok (s1, [], true)) as [[[s2 e2] [|]]|]; cbn [bind negb] in E; [| |discriminate].
  - destruct (zlen (zdrop n data) =? 0); [discriminate|].
    destruct (rg_loop fuel s2 (zdrop n data)) as [[[s3 e3] ok]|] eqn:El; cbn [bind] in E; [|discriminate].
    injection E as <- _ ->. eapply IH; eauto.
  - injection E as <- _. reflexivity.
Qed.

Section Rc.
Variable o : recorder_option.
Variable local : nat -> Z.
Variable bytes : packet -> list Z.

Lemma refused_broken : forall stage s p s', rc_HandlePacket o local bytes stage s p = Ok (s', false) -> rg_broken (rc_ring s') = true.
Proof.
  intros stage s p s' E. unfold rc_HandlePacket in E.
  destruct (rc_feed_clock s p) as [s1|]; cbn [bind] in E; [|discriminate].
  destruct (handle_tables (rc_handleTable o local) s1 (p_pid p) (demux_feed (rc_demux s1) stage p)) as [s2|]; cbn [bind] in E; [|discriminate].
  destruct (rc_recording s2).
  - unfold rc_OnRecording in E. destruct (rc_events local s2) as [s3|]; cbn [bind] in E; [|discriminate].
    destruct (rg_HandlePacket (rc_ring s3) (bytes p)) as [[[r evs] ok]|] eqn:Er; cbn [bind] in E; [|discriminate].
    destruct (rc_ring_events local s3 evs) as [s4|]; cbn [bind] in E; [|discriminate]. injection E as <- ->.
    cbn. eapply loop_broken. exact Er.
  - unfold rc_OnPreparing in E. destruct (ck_IsReady (rc_clock s2)); [|discriminate].
    destruct (rc_new_eit s2) as [t|]; [|discriminate].
    repeat match type of E with
    | (let* _ := ?x in _) = _ => destruct x as [?|]; cbn [bind] in E; [|discriminate]
    | (let (_, _) := ?x in _) = _ => destruct x
    | assert ?b _ = _ => apply assert_ok in E as [_ E]
    | (if ?b then _ else _) = _ => destruct b
    end; try discriminate.
Qed.

Lemma hand_broken : forall stage ps s out s', hand (recorder o local bytes stage) s ps = (out, Ok (s', false)) -> rg_broken (rc_ring s') = true.
Proof.
  intros stage ps. induction ps as [|p ps IH]; intros s out s' E; cbn [hand] in E; [discriminate|].
  change (sk_handle (recorder o local bytes stage) s p) with (rc_HandlePacket o local bytes stage s p) in E.
  destruct (rc_HandlePacket o local bytes stage s p) as [[s1 [|]]|] eqn:Ep.
  - destruct (hand (recorder o local bytes stage) s1 ps) as [o1 r1] eqn:Eh.
    cbn [fst snd] in E. inversion E; subst. eapply IH. exact Eh.
  - inversion E; subst. eapply refused_broken; eauto.
  - discriminate.
Qed.

Variable view : list (list Z) -> list Z -> packet.

Ltac main_by A M :=
  match type of M with match ?r with _ => _ end => let A2 := fresh in pose proof (A : r = _) as A2; rewrite A2 in M; clear A2 end.

(** record-service is the recorder fed with the filtered list. *)
Lemma record_service_exact : forall sid s0 reads bs n, Forall read_ok reads -> packets_of (bytes_of reads) bs ->
  (List.length (bytes_of reads) < n)%nat ->
  exists mid e h, filtered (sid mod 2 ^ 16) None 0 anything [] tt (views view [] bs) mid e h tt /\
  forall m, (List.length mid < m)%nat ->
  match FeedPackets (list_source packet) (recorder o local bytes 1) m mid s0, e with
  | Some (Ok (c, s)), FilterSpec.Crashed f =>
      (c <> 0 /\ exists seen t, record_service_main view bytes sid o local s0 reads n = Some (Ok (c, (seen, (t, s))))) \/
      record_service_main view bytes sid o local s0 reads n = Some (Fail f)
  | Some (Ok (c, s)), _ => exists code seen t, exit_code (sid mod 2 ^ 16) h c code /\
      record_service_main view bytes sid o local s0 reads n = Some (Ok (code, (seen, (t, s))))
  | Some (Fail f), _ => record_service_main view bytes sid o local s0 reads n = Some (Fail f)
  | None, _ => False
  end.
Proof.
  intros sid s0 reads bs n R Pk Hn. set (ps := views view [] bs).
  set (opt := load_service_filter (Some sid)). set (k := recorder o local bytes 1).
  destruct (filter_total 0 opt ps) as [mid [e [h F]]]. exists mid, e, h. split; [exact F|]. intros m Hm.
  assert (Hl : (List.length ps < n)%nat) by (unfold ps; rewrite views_length; pose proof (packets_length _ _ Pk); lia).
  pose proof (main_feed view (service_filter 0 opt k) reads bs (sf_init opt, s0) n R Pk Hn) as M. fold ps in M.
  change (run_main view (service_filter 0 opt k) reads (sf_init opt, s0) n) with (record_service_main view bytes sid o local s0 reads n) in M.
  set (main := record_service_main view bytes sid o local s0 reads n) in *. clearbody main.
  assert (Ex : forall c, c <> 0 -> exit_code (sid mod 2 ^ 16) h c c) by (intros c Nc; right; split; [intros [? _]; lia|reflexivity]).
  destruct (sk_start k s0) as [[d1 [|]]|f] eqn:Es.
  - pose proof (filter_around 0 opt k ps n s0 d1 mid e h Hl Es F) as A. cbv zeta in A.
    rewrite (feed_hand _ k mid m s0 d1 Hm Es).
    destruct (hand k d1 mid) as [out [[d2 b]|f]] eqn:Eh; cbn [snd] in *.
    + assert (Fi : finish k d2 = Ok (rg_GetExitCode (rc_ring d2), rc_put d2 (Msg (MStop (rg_broken (rc_ring d2)))))) by reflexivity.
      rewrite Fi in *. destruct b.
      * destruct e as [| | |f]; try (destruct A as [t [code [X A]]]; main_by A M; cbn in M; destruct M as [seen M]; exists code, seen, t; split; [exact X|exact M]).
        right. main_by A M. exact M.
      * destruct A as [t A]. main_by A M. destruct M as [seen M].
        assert (B : rg_GetExitCode (rc_ring d2) = 1) by (unfold rg_GetExitCode; rewrite (hand_broken 1 _ _ _ _ Eh); reflexivity).
        destruct e; try (exists (rg_GetExitCode (rc_ring d2)), seen, t; split; [apply Ex; rewrite B; discriminate|exact M]).
        left. split; [rewrite B; discriminate|eauto].
    + main_by A M. exact M.
  - unfold FeedPackets in *. cbn [service_filter sk_start fst snd] in M. fold k in M. rewrite Es in *. cbn [bind] in M. destruct M as [seen M].
    destruct e; try (exists 1, seen, (sf_init opt); split; [apply Ex; discriminate|exact M]).
    left. split; [discriminate|eauto].
  - unfold FeedPackets in *. cbn [service_filter sk_start fst snd] in M. fold k in M. rewrite Es in *. cbn [bind] in M. exact M.
Qed.

(** On tables in range nothing fails: the filter keeps PATs without the service
    away from the recorder. *)
Lemma record_service_safe : (forall n, Z.abs (local n) < 2 ^ 44) ->
  valid_geometry (rco_chunk_size o) (rco_num_chunks o) (rco_start_pos o) ->
  forall sid ops reads bs n, rco_sid o = sid mod 2 ^ 16 -> Forall read_ok reads -> packets_of (bytes_of reads) bs ->
  (List.length (bytes_of reads) < n)%nat ->
  (forall p t, In p (views view [] bs) -> In t (p_tabs p 0) -> FilterSpec.tame (sid mod 2 ^ 16) None (p_pid p, tb_body t)) ->
  (forall p v, In p (views view [] bs) -> p_pcr p = Some v -> 0 <= v < 2 ^ 33 * 300) ->
  (forall p t, In p (views view [] bs) -> In t (p_tabs p 1) -> sane_table (tb_body t)) ->
  exists s0 code s, rc_new o ops = Ok s0 /\ record_service_main view bytes sid o local s0 reads n = Some (Ok (code, s)).
Proof.
  intros Lo Geo sid ops reads bs n Es R Pk Hn T0 Pc T1.
  assert (X : exists s0, rc_new o ops = Ok s0).
  { destruct (run_safe o local bytes 1 Lo Geo ops [] 1 ltac:(constructor) ltac:(cbn; lia)) as [s0 [_ [_ [E _]]]]. eauto. }
  destruct X as [s0 E0].
  destruct (record_service_exact sid s0 reads bs n R Pk Hn) as [mid [e [h [F A]]]].
  assert (So : Forall (sound_packet (rco_sid o) 1) mid).
  { apply Forall_forall. intros q Hq.
    destruct (filtered_origin _ _ _ (fun _ => True) _ _ _ _ _ _ _ _ F (fun _ _ => I) (fun _ _ _ _ => I) q Hq) as [[Hi N]|[p [pt [mp [x [_ [_ [-> [_ L]]]]]]]]].
    - split; [intros v; apply Pc; auto|]. intros t Ht. split.
      + unfold missing, usable_pat. assert (Z0 : (p_pid q =? 0) = false) by (apply Z.eqb_neq; exact N).
        destruct (tb_body t) as [[u|]| | | | | | |]; try reflexivity; rewrite Z0; reflexivity.
      + exact (T1 q t Hi Ht).
    - split; [cbn; intros; discriminate|]. intros t Ht. cbn in Ht. apply repeat_spec in Ht. subst t. split; [|exact I].
      destruct (only_service_lists _ _ _ _ L) as [U P]. cbn [tb_body p_pid gen_pat]. change PID_PAT with 0. rewrite Es. unfold missing. rewrite U, P. reflexivity. }
  destruct (run_safe o local bytes 1 Lo Geo ops mid (S (List.length mid)) So ltac:(lia)) as [s1 [c [s [E1 Fd]]]].
  rewrite E0 in E1. injection E1 as <-. specialize (A (S (List.length mid)) ltac:(lia)). rewrite Fd in A.
  assert (NC : forall f, e <> FilterSpec.Crashed f).
  { eapply filtered_tame; [|exact F|intros x []|exact T0]. repeat split; cbn; eauto. }
  exists s0. destruct e as [| | |f]; try (destruct A as [code [seen [t [_ A]]]]; eauto). exfalso. eapply NC. reflexivity.
Qed.

End Rc.
