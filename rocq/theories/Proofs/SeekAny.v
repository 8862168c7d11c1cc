(** seek-start in front of any sink. *)
From Coq Require Import ZArith Lia List Bool.
From Verif Require Import Base.Outcome Base.Util Model.Pcr Model.Sink Model.Ts Model.StartSeeker Spec.PcrSpec Spec.FilterSpec
  Spec.TuneSpec Spec.TransSpec Spec.ProgramSpec Spec.SeekSpec Proofs.FilterProofs Proofs.TuneProofs Proofs.TransProofs Proofs.ProgramProofs Proofs.SeekProofs.
Import ListNotations.
Open Scope Z_scope.

Section Any.
Variable o : start_seeker_option.
Variable stage : nat.
Notation sid := (sso_sid o).
Variable k : sink packet.
Notation handle := (ss_HandlePacket o k stage).

Lemma send_all_hand : forall qs d, ss_send_all k d qs = snd (hand k d qs).
Proof.
  induction qs as [|q qs IH]; intros d; cbn [ss_send_all hand]; [reflexivity|].
  destruct (sk_handle k d q) as [[d1 [|]]|f]; cbn [bind]; [|reflexivity|reflexivity]. rewrite IH. destruct (hand k d1 qs). reflexivity.
Qed.

(** The state of the sink after the batches. *)
Definition after (d : sk_state k) (bs : list (list packet)) : res (sk_state k) := snd (hand_batches k d bs).
Lemma after_cons : forall d b bs, after d (b :: bs) = match ss_send_all k d b with Ok (d1, _) => after d1 bs | Fail f => Fail f end.
Proof.
  intros d b bs. unfold after. cbn [hand_batches]. rewrite send_all_hand. destruct (hand k d b) as [out [[d1 x]|f]]; cbn [snd]; [|reflexivity].
  destruct (hand_batches k d1 bs). reflexivity.
Qed.

(** A run of the loop, and what is still held back. *)
Definition finish (r : option (res (ss_state * sk_state k))) : option (res (sk_state k)) :=
  match r with
  | None => None
  | Some (Fail f) => Some (Fail f)
  | Some (Ok (s, d)) => Some (match ss_send_all k d (ss_packets s) with Ok (d1, _) => Ok d1 | Fail f => Fail f end)
  end.

Lemma no_trouble : forall h p s, view o h s -> (forall t, In t (p_tabs p stage) -> missing sid (p_pid p, tb_body t) = false) ->
  exists s', handle_tables (ss_handleTable o) s (p_pid p) (demux_feed (ss_demux s) stage p) = Ok s' /\
    view o (add h p (demux_feed (ss_demux s) stage p)) s' /\ keeps s s'.
Proof.
  intros h p s V M. destruct (packet_tables o stage h s p [] V (or_intror M)) as [[[N L] _]|[s' [E [V1 [K _]]]]]; [|eauto].
  exfalso. inversion L as [h0 p0 ps0 ts t [[_ ->]|[_ ->]] I0 M0|h0 p0 ps0 ts H0 N0 L0]; subst; [|destruct I0|inversion L0].
  rewrite (M t I0) in M0. discriminate.
Qed.

Lemma any_stream : forall start en ex ps n h s d, (List.length ps < n)%nat -> ss_streaming s = true -> ss_packets s = [] -> view o h s ->
  (forall p t, In p ps -> In t (p_tabs p stage) -> missing sid (p_pid p, tb_body t) = false) ->
  finish (feed_loop (list_source packet) (mkSink _ start handle en ex) n ps (s, d)) = Some (after d [ps]).
Proof.
  intros start en ex ps. induction ps as [|p ps IH]; intros n h s d Hn S Pk V M; (destruct n as [|n]; [cbn in Hn; lia|]).
  - cbn [feed_loop list_source sr_next finish]. rewrite Pk. reflexivity.
  - cbn [feed_loop list_source sr_next sk_handle ss_HandlePacket].
    destruct (no_trouble h p s V (fun t => M p t (or_introl eq_refl))) as [s1 [E1 [V1 [K1 [K2 K3]]]]]. rewrite E1. cbn [bind]. rewrite K1, S.
    rewrite after_cons. cbn [ss_send_all]. destruct (sk_handle k d p) as [[d1 [|]]|f]; cbn [bind].
    + rewrite (IH n _ s1 d1 ltac:(cbn in Hn; lia) ltac:(congruence) ltac:(congruence) V1 (fun q t I => M q t (or_intror I))).
      rewrite after_cons. destruct (ss_send_all k d1 ps) as [[d2 x]|f]; reflexivity.
    + cbn [finish]. rewrite K2, Pk. reflexivity.
    + reflexivity.
Qed.

Variable all : list packet.
Hypothesis order : orderly o stage all.
Hypothesis sane : sane_seek o.

Lemma take_held : forall (a b : list packet), ztake (zlen a) (a ++ b) = a /\ zdrop (zlen a) (a ++ b) = b.
Proof.
  intros a b. rewrite ztake_app_le, ztake_all, zdrop_app_ge, zdrop_0 by lia. auto.
Qed.

Lemma any_loop : forall start en ex ps n h base held s d, (List.length ps < n)%nat -> held ++ ps = all -> seeking o h base held s ->
  exists r, seek o stage h base (zlen held) ps r /\
    finish (feed_loop (list_source packet) (mkSink _ start handle en ex) n ps (s, d)) = Some (after d (batches all r)).
Proof.
  intros start en ex ps. induction ps as [|p ps IH]; intros n h base held s d Hn Ha K; (destruct n as [|n]; [cbn in Hn; lia|]).
  { rewrite app_nil_r in Ha. exists (Whole (zlen held)). split; [constructor|]. cbn [feed_loop list_source sr_next finish batches].
    rewrite (k_held _ _ _ _ _ K), <- Ha. pose proof (take_held held []) as [T1 T2]. rewrite app_nil_r in T1, T2. rewrite T1, T2, after_cons.
    destruct (ss_send_all k d held) as [[d1 x]|f]; [|reflexivity]. rewrite after_cons. reflexivity. }
  assert (Np : znth (zlen held) all = Some p).
  { rewrite <- Ha, znth_app_r, Z.sub_diag by lia. reflexivity. }
  destruct (order _ _ Np) as [Opcr Otab].
  pose proof (zlen_nonneg _ held) as Hl.
  destruct K as [V N Off He En Bb Few Fi].
  destruct (no_trans_view _ _ _ V N) as [T0 Dm].
  set (ts := demux_feed (ss_demux s) stage p).
  assert (Hr : hears o stage h p ts) by (apply delivered_feed; auto).
  assert (Its : forall t, In t ts -> In t (p_tabs p stage)).
  { intros t I. unfold ts, demux_feed in I. destruct (zmem (p_pid p) (ss_demux s)); [auto|destruct I]. }
  destruct (no_trouble h p s V (fun t I => proj1 (Otab t I))) as [s1 [E1 [V1 [K1 [K2 K3]]]]]. fold ts in E1, V1.
  set (h1 := add h p ts) in *.
  assert (Fi1 : forall x, In x h1 -> 0 <= tb_first (snd x) < zlen held + 1 /\ (service_pmt sid (fst x, tb_body (snd x)) <> None -> 0 < tb_first (snd x))).
  { intros x I. apply add_in in I as [[t [I ->]]|I].
    - destruct (Otab t (Its t I)) as [_ [O2 [_ O4]]]. cbn [fst snd]. split; [lia|auto].
    - destruct (Fi _ I). split; [lia|auto]. }
  set (s2 := ss_set_packets s1 (held ++ [p])).
  assert (Pk : ss_set_packets s1 (ss_packets s1 ++ [p]) = s2) by (subst s2; rewrite K2, He; auto).
  assert (V2 : view o h1 s2) by (apply (view_set o h1 s1); auto).
  assert (Ml : forall q t, In q ps -> In t (p_tabs q stage) -> missing sid (p_pid q, tb_body t) = false).
  { intros q t Iq It. apply in_znth in Iq as [i Ei].
    assert (Nq : znth (zlen (held ++ [p]) + i) all = Some q).
    { rewrite <- Ha. replace (held ++ p :: ps) with ((held ++ [p]) ++ ps) by (rewrite <- app_assoc; reflexivity).
      destruct (znth_range _ _ _ _ Ei). rewrite znth_app_r by lia. replace (zlen (held ++ [p]) + i - zlen (held ++ [p])) with i by lia. exact Ei. }
    apply (order _ _ Nq). auto. }
  cbn [feed_loop list_source sr_next sk_handle ss_HandlePacket]. fold ts. rewrite E1. cbn [bind]. rewrite K1, Off.
  unfold ss_Seek. rewrite Pk. cbv zeta.
  assert (Ha2 : (held ++ [p]) ++ ps = all) by (rewrite <- app_assoc; exact Ha).
  assert (Hl2 : zlen (held ++ [p]) = zlen held + 1) by (rewrite zlen_app; reflexivity).
  destruct (take_held (held ++ [p]) ps) as [Tk Dr]. rewrite Ha2, Hl2 in Tk, Dr.
  assert (Vs : view o h1 (ss_set_streaming (ss_set_packets s2 []))) by (apply (view_set o h1 s2); auto).
  (* releasing everything *)
  assert (Rel : seek o stage h base (zlen held) (p :: ps) (Whole (zlen held + 1)) ->
    exists r, seek o stage h base (zlen held) (p :: ps) r /\
      finish (match ss_release k s2 d with
      | Ok (s3, true) => feed_loop (list_source packet) (mkSink _ start handle en ex) n ps s3
      | Ok (s3, false) => Some (Ok s3)
      | Fail f => Some (Fail f)
      end) = Some (after d (batches all r))).
  { intros Sk. exists (Whole (zlen held + 1)). split; [exact Sk|]. cbn [batches]. rewrite Tk, Dr, after_cons.
    unfold ss_release, ss_SendPackets. change (ss_packets s2) with (held ++ [p]). rewrite zdrop_0 by lia.
    destruct (ss_send_all k d (held ++ [p])) as [[d1 x]|f]; cbn [bind]; [|reflexivity].
    apply (any_stream start en ex ps n h1); auto. cbn in Hn. lia. }
  destruct (v_trans _ _ _ V2) as [T|[N1 [T1 _]]].
  - (* found *)
    destruct (transition_in _ _ _ T) as [x [Ix [Ex Sx]]]. destruct (Fi1 _ Ix) as [Bx Px]. specialize (Px Sx).
    destruct (Z.ltb_spec 0 (ss_transition s2)) as [Lt|Lt]; [|lia].
    assert (Bp : 0 <= pat_start o h1 < zlen held + 1) by (apply pat_start_bound; [lia|intros y Iy; apply (Fi1 _ Iy)]).
    exists (Cut (pat_start o h1) (ss_transition s2) (zlen held + 1)). split; [apply (K_found o stage h base _ p ps ts); auto|].
    cbn [batches]. rewrite Tk, Dr. rewrite <- Ha2 at 1. rewrite (znth_app_l _ _ (held ++ [p]) ps) by lia.
    unfold ss_SendPacket. change (ss_packets s2) with (held ++ [p]). rewrite (v_pat _ _ _ V2).
    destruct (znth_some _ (pat_start o h1) (held ++ [p]) ltac:(lia)) as [q Eq]. rewrite Eq.
    rewrite after_cons. cbn [ss_send_all]. unfold ss_SendPackets. change (ss_packets s2) with (held ++ [p]).
    destruct (sk_handle k d q) as [[d1 b]|f]; cbn [bind]; [|reflexivity].
    replace (match (if b then Ok (d1, true) else Ok (d1, false)) with Ok (d2, _) => after d2 [zdrop (ss_transition s2) (held ++ [p]); ps] | Fail f => Fail f end)
      with (after d1 [zdrop (ss_transition s2) (held ++ [p]); ps]) by (destruct b; reflexivity).
    rewrite after_cons. destruct (ss_send_all k d1 (zdrop (ss_transition s2) (held ++ [p]))) as [[d2 b2]|f]; cbn [bind]; [|reflexivity].
    apply (any_stream start en ex ps n h1); auto. cbn in Hn. lia.
  - rewrite T1. cbn [Z.ltb Z.compare]. change (ss_packets s2) with (held ++ [p]). rewrite Hl2.
    destruct sane as [Sd Sm].
    destruct (negb (sso_max_packets o =? 0) && (sso_max_packets o =? zlen held + 1)) eqn:B.
    { apply andb_prop in B as [B1 B2]. apply Z.eqb_eq in B2. destruct (Z.eqb_spec (sso_max_packets o) 0) as [|B3]; [discriminate|].
      apply Rel. apply (K_packets o stage h base _ p ps ts); auto. }
    assert (Q : (sso_max_packets o =? 0) || (zlen held + 1 <? sso_max_packets o) = true /\ zlen held + 1 <> sso_max_packets o /\
                (sso_max_packets o = 0 \/ zlen (held ++ [p]) < sso_max_packets o)).
    { rewrite Hl2. destruct (Z.eqb_spec (sso_max_packets o) 0), (Z.eqb_spec (sso_max_packets o) (zlen held + 1)), (Z.ltb_spec (zlen held + 1) (sso_max_packets o));
        cbn in *; try discriminate; lia. }
    destruct Q as [Q1 [Q2 Q3]]. unfold assert. rewrite Q1. clear B Q1.
    assert (So : ss_streaming s2 = false) by (change (ss_streaming s1 = false); congruence).
    assert (Se : ss_end_pcr s2 = end_of o base) by (change (ss_end_pcr s1 = end_of o base); congruence).
    rewrite (v_pcr _ _ _ V2).
    assert (Fi2 : forall x, In x h1 -> 0 <= tb_first (snd x) < zlen (held ++ [p]) /\ (service_pmt sid (fst x, tb_body (snd x)) <> None -> 0 < tb_first (snd x)))
      by (rewrite Hl2; exact Fi1).
    assert (Skip : pcr_of o h1 p = None -> exists r, seek o stage h base (zlen held) (p :: ps) r /\
        finish (feed_loop (list_source packet) (mkSink _ start handle en ex) n ps (s2, d)) = Some (after d (batches all r))).
    { intros Pn. destruct (IH n h1 base (held ++ [p]) s2 d ltac:(cbn in Hn; lia) Ha2) as [r [S' X]].
      { constructor; auto. }
      exists r. split; [|exact X]. rewrite Hl2 in S'. apply (K_other o stage h base _ p ps ts); auto. }
    unfold pcr_of in Skip.
    destruct (pmt_of o h1) as [m|] eqn:Em; [|rewrite Z.eqb_refl; cbn [orb]; apply Skip; auto].
    rewrite (Z.eqb_sym (pmt_pcr_pid m) (p_pid p)). unfold PID_NULL.
    destruct (pmt_pcr_pid m =? 8191) eqn:Q4; cbn [orb negb andb] in *; [apply Skip; auto|].
    destruct (p_pid p =? pmt_pcr_pid m) eqn:Q5; cbn [negb]; [|apply Skip; auto].
    destruct (p_pcr p) as [v|] eqn:Ev; [|apply Skip; auto]. clear Skip.
    assert (Pc : pcr_of o h1 p = Some v) by (unfold pcr_of; rewrite Em, Q4, Q5; cbn; auto).
    specialize (Opcr v eq_refl).
    rewrite Se. destruct base as [b|]; cbn [end_of].
    + assert (Bm : 0 <= (b + ticks_per_ms * sso_max_duration o) mod pcr_cycle < pcr_cycle) by (apply Z.mod_pos_bound; reflexivity).
      destruct (Z.ltb_spec ((b + ticks_per_ms * sso_max_duration o) mod pcr_cycle) 0) as [Ln|_]; [lia|].
      destruct (compare_reached v ((b + ticks_per_ms * sso_max_duration o) mod pcr_cycle) Opcr Bm) as [c [Ec [_ Ec2]]].
      rewrite Ec. cbn [bind]. rewrite Ec2.
      destruct (reached v ((b + ticks_per_ms * sso_max_duration o) mod pcr_cycle)) eqn:Re; cbn [negb].
      * apply Rel. apply (K_duration o stage h b _ p ps ts v); auto.
      * destruct (IH n h1 (Some b) (held ++ [p]) s2 d ltac:(cbn in Hn; lia) Ha2) as [r [S' X]].
        { constructor; auto. }
        exists r. split; [|exact X]. rewrite Hl2 in S'. apply (K_within o stage h b _ p ps ts v); auto.
    + change (-1 <? 0) with true. cbv iota.
      change kPcrTicksPerMs with 27000. change pcr_cycle with (8589934592 * 300) in Opcr.
      change (2 ^ 44) with 17592186044416 in Sd.
      assert (I1 : i64 (sso_max_duration o * 27000) = Ok (sso_max_duration o * 27000)) by (apply i64_ok; unfold int64_min, int64_max; lia).
      assert (I2 : i64 (v + sso_max_duration o * 27000) = Ok (v + sso_max_duration o * 27000)) by (apply i64_ok; unfold int64_min, int64_max; lia).
      rewrite I1. cbn [bind]. rewrite I2. cbn [bind].
      assert (Eq : Z.rem (v + sso_max_duration o * 27000) kPcrUpperBound = end_of o (Some v)).
      { rewrite Z.rem_mod_nonneg by (try reflexivity; lia). unfold end_of, ticks_per_ms. change kPcrUpperBound with pcr_cycle. f_equal. lia. }
      rewrite Eq.
      destruct (IH n h1 (Some v) (held ++ [p]) (ss_set_end_pcr s2 (end_of o (Some v))) d ltac:(cbn in Hn; lia) Ha2) as [r [S' X]].
      { constructor; auto.
        - apply (view_set o h1 s2); auto.
        - intros b Eb. injection Eb as <-. exact Opcr. }
      exists r. split; [|exact X]. rewrite Hl2 in S'. apply (K_base o stage h _ p ps ts v); auto.
Qed.
End Any.

Lemma seek_any : forall o stage k ps n d d1, sk_start k d = Ok (d1, true) -> orderly o stage ps -> sane_seek o -> (List.length ps < n)%nat ->
  exists r s, seek o stage [] None 0 ps r /\
    FeedPackets (list_source packet) (start_seeker o k stage) n ps (ss_init, d) =
    Some (let* d2 := snd (hand_batches k d1 (batches ps r)) in
          let* d3 := sk_end k d2 in let* c := sk_exit k d3 in Ok (c, (s, d3))).
Proof.
  intros o stage k ps n d d1 Es O Sa Hn.
  assert (K0 : seeking o [] None [] ss_init).
  { constructor; auto using init_view.
    - intros j T; inversion T.
    - discriminate.
    - destruct Sa. change (zlen (@nil packet)) with 0. lia.
    - intros x []. }
  destruct (any_loop o stage k ps O Sa (sk_start (start_seeker o k stage)) (sk_end (start_seeker o k stage)) (sk_exit (start_seeker o k stage))
      ps n [] None [] ss_init d1 Hn eq_refl K0) as [r [S F]].
  change (finish k (feed_loop (list_source packet) (start_seeker o k stage) n ps (ss_init, d1)) = Some (after k d1 (batches ps r))) in F.
  unfold after in F.
  assert (E0 : sk_start (start_seeker o k stage) (ss_init, d) = Ok ((ss_init, d1), true)).
  { cbn [sk_start start_seeker snd fst]. rewrite Es. reflexivity. }
  unfold FeedPackets. rewrite E0.
  destruct (feed_loop (list_source packet) (start_seeker o k stage) n ps (ss_init, d1)) as [[[s d2]|f]|]; cbn [finish] in F; [| |discriminate F].
  - exists r, (ss_set_packets s []). split; [exact S|]. injection F as <-. cbn [bind start_seeker sk_end sk_exit fst snd].
    unfold ss_SendPackets. rewrite zdrop_0 by lia.
    destruct (ss_send_all k d2 (ss_packets s)) as [[d3 b]|f]; cbn [bind fst snd]; [|reflexivity].
    destruct (sk_end k d3); cbn [bind fst snd]; reflexivity.
  - exists r, ss_init. split; [exact S|]. injection F as <-. reflexivity.
Qed.

(** When the search ends. *)
Lemma seek_limit : forall o stage h base n ps r, seek o stage h base n ps r -> forall all held, all = held ++ ps -> n = zlen held ->
  (sso_max_packets o = 0 \/ n < sso_max_packets o) ->
  (forall b, base = Some b -> exists i q, 0 <= i < n /\ znth i all = Some q /\ p_pcr q = Some b) ->
  0 <= held_of r <= zlen all /\ (sso_max_packets o = 0 \/ held_of r <= sso_max_packets o) /\
  (forall m, r = Whole m -> m = zlen all \/ (sso_max_packets o <> 0 /\ m = sso_max_packets o) \/
     exists i q b p v, 0 <= i < m - 1 /\ znth i all = Some q /\ p_pcr q = Some b /\ znth (m - 1) all = Some p /\ p_pcr p = Some v /\
       reached v ((b + ticks_per_ms * sso_max_duration o) mod pcr_cycle) = true).
Proof.
  assert (Pv : forall o h p v, pcr_of o h p = Some v -> p_pcr p = Some v).
  { intros o h p v E. unfold pcr_of in E. destruct (pmt_of o h); [|discriminate]. destruct (negb _ && _); [auto|discriminate]. }
  assert (Ln : forall (held : list packet) p ps, zlen (held ++ p :: ps) = zlen held + 1 + zlen ps) by (intros; rewrite zlen_app, zlen_cons; lia).
  assert (Nth : forall (held : list packet) p ps, znth (zlen held + 1 - 1) (held ++ p :: ps) = Some p).
  { intros. pose proof (zlen_nonneg _ held). rewrite znth_app_r by lia. replace (zlen held + 1 - 1 - zlen held) with 0 by lia. reflexivity. }
  induction 1; intros all held Ea En Fw Bb; subst n;
    pose proof (zlen_nonneg _ held) as H9; try (pose proof (zlen_nonneg _ ps) as H10); cbn [held_of].
  - rewrite app_nil_r in Ea. subst all. split; [lia|]. split; [lia|]. intros m E. injection E as <-. auto.
  - subst all. rewrite Ln. split; [lia|]. split; [lia|]. discriminate.
  - subst all. rewrite Ln. split; [lia|]. split; [lia|]. intros m E. injection E as <-. right. left. lia.
  - destruct (IHseek all (held ++ [p])) as [I1 [I2 I3]]; auto.
    + rewrite Ea, <- app_assoc. reflexivity.
    + rewrite zlen_app. reflexivity.
    + lia.
    + intros b E. injection E as <-. exists (zlen held), p. split; [lia|]. subst all. split; [|eauto].
      rewrite <- (Nth held p ps). f_equal. lia.
  - subst all. rewrite Ln. split; [lia|]. split; [lia|]. intros m E. injection E as <-. right. right.
    destruct (Bb b eq_refl) as [i [q [I1 [I2 I3]]]]. exists i, q, b, p, v. split; [lia|]. do 2 (split; [auto|]). split; [apply Nth|]. split; eauto.
  - destruct (IHseek all (held ++ [p])) as [I1 [I2 I3]]; auto.
    + rewrite Ea, <- app_assoc. reflexivity.
    + rewrite zlen_app. reflexivity.
    + lia.
    + intros b' E. destruct (Bb b' E) as [i [q [J1 J2]]]. exists i, q. split; [lia|auto].
  - destruct (IHseek all (held ++ [p])) as [I1 [I2 I3]]; auto.
    + rewrite Ea, <- app_assoc. reflexivity.
    + rewrite zlen_app. reflexivity.
    + lia.
    + intros b' E. destruct (Bb b' E) as [i [q [J1 J2]]]. exists i, q. split; [lia|auto].
Qed.

Lemma seek_when : forall o stage ps r, sane_seek o -> seek o stage [] None 0 ps r ->
  0 <= held_of r <= zlen ps /\ (sso_max_packets o = 0 \/ held_of r <= sso_max_packets o) /\
  (forall m, r = Whole m -> m = zlen ps \/ (sso_max_packets o <> 0 /\ m = sso_max_packets o) \/
     exists i q b p v, 0 <= i < m - 1 /\ znth i ps = Some q /\ p_pcr q = Some b /\ znth (m - 1) ps = Some p /\ p_pcr p = Some v /\
       reached v ((b + ticks_per_ms * sso_max_duration o) mod pcr_cycle) = true).
Proof.
  intros o stage ps r [_ Sm] S. apply (seek_limit _ _ _ _ _ _ _ S ps []); auto; [lia|discriminate].
Qed.

Lemma load_only : forall sid n o, ss_LoadOption sid None (Some n) = Some o -> 0 < n < 2 ^ 32 -> sane_seek o /\ sso_max_duration o = 0 /\ sso_max_packets o = n.
Proof.
  intros sid n o E B. pose proof (load_limit _ _ _ _ E B) as L. unfold ss_LoadOption in E. destruct (_ && _); [discriminate|]. injection E as <-.
  cbn [sso_max_packets sso_max_duration] in *. split; [split; cbn [sso_max_packets sso_max_duration]; [split; [lia|reflexivity]|lia]|auto].
Qed.

Lemma seek_only : forall sid n o stage ps m, ss_LoadOption sid None (Some n) = Some o -> 0 < n < 2 ^ 32 -> orderly o stage ps ->
  seek o stage [] None 0 ps (Whole m) ->
  m = zlen ps \/ m = n \/ exists i q b p v, 0 <= i < m - 1 /\ znth i ps = Some q /\ p_pcr q = Some b /\ znth (m - 1) ps = Some p /\ p_pcr p = Some v /\
       reached v b = true.
Proof.
  intros sid n o stage ps m El B O S. destruct (load_only _ _ _ El B) as [Sa [Ed Em]].
  destruct (seek_when o stage ps _ Sa S) as [_ [_ X]]. destruct (X m eq_refl) as [Y|[[_ Y]|[i [q [b [p [v [I1 [I2 [I3 [I4 [I5 I6]]]]]]]]]]]]; [auto|rewrite Em in Y; auto|].
  right. right. exists i, q, b, p, v. repeat (split; [assumption|]). rewrite Ed, Z.mul_0_r, Z.add_0_r in I6.
  destruct (O _ _ I2) as [Ob _]. rewrite Z.mod_small in I6 by (apply Ob; exact I3). exact I6.
Qed.
