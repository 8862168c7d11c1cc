From Coq Require Import ZArith Lia List Bool.
From Verif Require Import Base.Outcome Base.Util Model.Sink Model.FileSource Model.StdoutSink Model.Ts Model.ServiceFilter Model.Commands
  Spec.FeedSpec Spec.SourceSpec Spec.StdoutSpec Spec.FilterSpec Spec.TuneSpec Spec.TransSpec Spec.PipeSpec
  Proofs.FeedProofs Proofs.SourceProofs Proofs.StdoutProofs Proofs.FilterProofs Proofs.FilterMain Proofs.TransProofs.
Import ListNotations.
Open Scope Z_scope.

(** ** End and GetExitCode *)
Definition finish {P} (k : sink P) (d : sk_state k) : res (Z * sk_state k) :=
  let* d3 := sk_end k d in let* c := sk_exit k d3 in Ok (c, d3).

Lemma loop_hand : forall P (k : sink P) ps n d, (List.length ps < n)%nat ->
  feed_loop (list_source P) k n ps d = Some (match snd (hand k d ps) with Ok (d', _) => Ok d' | Fail f => Fail f end).
Proof.
  intros P k ps. induction ps as [|p ps IH]; intros n d Hn; (destruct n as [|n]; [cbn in Hn; lia|]); cbn [feed_loop list_source sr_next hand].
  - reflexivity.
  - destruct (sk_handle k d p) as [[d1 [|]]|f]; try reflexivity. rewrite IH by (cbn in Hn; lia).
    destruct (hand k d1 ps); reflexivity.
Qed.

Lemma feed_hand : forall P (k : sink P) ps n d d1, (List.length ps < n)%nat -> sk_start k d = Ok (d1, true) ->
  FeedPackets (list_source P) k n ps d = Some (match snd (hand k d1 ps) with Ok (d2, _) => finish k d2 | Fail f => Fail f end).
Proof.
  intros P k ps n d d1 Hn Es. unfold FeedPackets. rewrite Es, loop_hand by auto.
  destruct (hand k d1 ps) as [out [[d2 b]|f]]; reflexivity.
Qed.

(** ** The source *)
Section View.
Context {P : Type}.
Variable view : list (list Z) -> list Z -> P.

Lemma viewed_loop : forall k bs n h d,
  match feed_loop (list_source P) k n (views view h bs) d with
  | None => feed_loop (list_source (list Z)) (viewed view k) n bs (h, d) = None
  | Some (Fail f) => feed_loop (list_source (list Z)) (viewed view k) n bs (h, d) = Some (Fail f)
  | Some (Ok d') => exists h', feed_loop (list_source (list Z)) (viewed view k) n bs (h, d) = Some (Ok (h', d'))
  end.
Proof.
  intros k bs. induction bs as [|b bs IH]; intros n h d; (destruct n as [|n]; [reflexivity|]); cbn [feed_loop list_source sr_next views].
  - eauto.
  - cbn [viewed sk_handle fst snd]. destruct (sk_handle k d (view h b)) as [[d1 [|]]|f]; cbn [bind]; try reflexivity; [|eauto].
    apply IH.
Qed.

Lemma views_length : forall bs h, List.length (views view h bs) = List.length bs.
Proof. induction bs as [|b bs IH]; intros h; cbn; auto. Qed.

Lemma viewed_feed : forall k bs n h d, (List.length bs < n)%nat ->
  match FeedPackets (list_source P) k n (views view h bs) d with
  | None => False
  | Some (Fail f) => FeedPackets (list_source (list Z)) (viewed view k) n bs (h, d) = Some (Fail f)
  | Some (Ok (c, d')) => exists h', FeedPackets (list_source (list Z)) (viewed view k) n bs (h, d) = Some (Ok (c, (h', d')))
  end.
Proof.
  intros k bs n h d Hn. unfold FeedPackets. cbn [viewed sk_start fst snd].
  destruct (sk_start k d) as [[d1 [|]]|f]; cbn [bind]; try reflexivity; [|eauto].
  destruct (feed_loop_total _ k (views view h bs) n d1) as [r E]; [rewrite views_length; auto|].
  pose proof (viewed_loop k bs n h d1) as V. rewrite E in *. destruct r as [d2|f]; [destruct V as [h' ->]|rewrite V; reflexivity]. cbn [bind].
  cbn [viewed sk_end fst snd]. destruct (sk_end k d2) as [d3|f]; cbn [bind]; [|reflexivity].
  cbn [viewed sk_exit fst snd]. destruct (sk_exit k d3) as [c|f]; cbn [bind]; [|reflexivity].
  eauto.
Qed.

Lemma packets_length : forall bs ps, packets_of bs ps -> (List.length ps <= List.length bs)%nat.
Proof.
  induction 1 as [| p rest ps L _ _ IH|bs i p rest ps L _ _ _ _ D Lp _ IH| |]; cbn; try lia.
  - rewrite app_length. unfold zlen in L. lia.
  - assert (E : (List.length (zdrop i bs) <= List.length bs)%nat).
    { pose proof (zlen_zdrop _ i bs) as E. unfold zlen in E. lia. }
    rewrite D, app_length in E. unfold zlen in Lp. lia.
Qed.

(** A command is its sink, fed with the packets of the file. *)
Lemma main_feed : forall k reads bs d n, Forall read_ok reads -> packets_of (bytes_of reads) bs ->
  (List.length (bytes_of reads) < n)%nat ->
  match FeedPackets (list_source P) k n (views view [] bs) d with
  | None => False
  | Some (Fail f) => run_main view k reads d n = Some (Fail f)
  | Some (Ok (c, d')) => exists h, run_main view k reads d n = Some (Ok (c, (h, d')))
  end.
Proof.
  intros k reads bs d n R Pk Hn. unfold run_main. rewrite (feed_file (viewed view k) reads bs ([], d) n R Pk Hn).
  apply viewed_feed. pose proof (packets_length _ _ Pk). lia.
Qed.

End View.

(** ** The filter in front of any sink *)
Section Through.
Variable sid : Z.
Variable limit : option Z.
Variable stage : nat.

Lemma filtered_through : forall h ps mid e h' (u v : sk_state anything), filtered sid limit stage anything h u ps mid e h' v ->
  forall k d,
  match hand k d mid with
  | (out, Ok (d', true)) => filtered sid limit stage k h d ps mid e h' d'
  | (out, Ok (d', false)) => exists h2, filtered sid limit stage k h d ps out FilterSpec.Refused h2 d' /\ ~ over sid limit h2
  | (out, Fail f) => exists h2 d2, filtered sid limit stage k h d ps out (FilterSpec.Crashed f) h2 d2
  end.
Proof.
  intros h ps mid e h' u v F.
  induction F as [h d0|h d0 p h' ps out e he de Hh D F IH|h d0 p h' q d' ps out e he de Hh D E F IH|h d0 p h' q d' ps Hh D E|h d0 p h' q f ps Hh D E|h d0 p h' ps Hh D|h d0 p h' f ps Hh D];
    intros k d; cbn [hand].
  - constructor.
  - specialize (IH k d). destruct (hand k d out) as [o [[d1 [|]]|f]].
    + eapply F_skip; eauto.
    + destruct IH as [h2 [G N]]. exists h2. split; [eapply F_skip; eauto|auto].
    + destruct IH as [h2 [d2 G]]. exists h2, d2. eapply F_skip; eauto.
  - destruct (sk_handle k d q) as [[d1 [|]]|f] eqn:Eq.
    + specialize (IH k d1). destruct (hand k d1 out) as [o [[d2 [|]]|f]].
      * eapply F_send; eauto.
      * destruct IH as [h2 [G N]]. exists h2. split; [eapply F_send; eauto|auto].
      * destruct IH as [h2 [d3 G]]. exists h2, d3. eapply F_send; eauto.
    + exists h'. split; [eapply F_refused; eauto|]. inversion D; subst; auto.
    + exists h', d. eapply F_sink_crash; eauto.
  - discriminate E.
  - discriminate E.
  - eapply F_stop; eauto.
  - eapply F_crash; eauto.
Qed.

Lemma anything_not_refused : forall h ps mid e h' (u v : sk_state anything), filtered sid limit stage anything h u ps mid e h' v -> e <> FilterSpec.Refused.
Proof. induction 1; auto; try discriminate. Qed.

End Through.

(** The command around a sink: it is fed with the filtered list. *)
Lemma filter_around : forall stage opt k ps n d d1 mid e h, (List.length ps < n)%nat -> sk_start k d = Ok (d1, true) ->
  filtered (sfo_sid opt) (sfo_time_limit opt) stage anything [] tt ps mid e h tt ->
  let run := FeedPackets (list_source packet) (service_filter stage opt k) n ps (sf_init opt, d) in
  match snd (hand k d1 mid) with
  | Fail f => run = Some (Fail f)
  | Ok (d2, false) =>
      match finish k d2 with
      | Fail f => run = Some (Fail f)
      | Ok (c, d3) => exists s, run = Some (Ok (c, (s, d3)))
      end
  | Ok (d2, true) =>
      match e with
      | FilterSpec.Crashed f => run = Some (Fail f)
      | _ =>
          match finish k d2 with
          | Fail f => run = Some (Fail f)
          | Ok (c, d3) => exists s code, exit_code (sfo_sid opt) h c code /\ run = Some (Ok (code, (s, d3)))
          end
      end
  end.
Proof.
  intros stage opt k ps n d d1 mid e h Hn Es F run.
  destruct (filter_refines stage opt k ps n d d1 Hn Es) as [out [e2 [h2 [d2 [F2 R]]]]]. fold run in R.
  pose proof (filtered_through _ _ _ _ _ _ _ _ _ _ F k d1) as T.
  destruct (hand k d1 mid) as [o [[d3 [|]]|f]]; cbn [snd].
  - destruct (filtered_det _ _ _ _ _ _ _ _ _ _ _ _ _ _ _ F2 T) as [-> [-> [-> ->]]].
    unfold finish. destruct e; auto; destruct (sk_end k d3) as [d4|f4]; cbn [bind]; auto; destruct (sk_exit k d4) as [c|f5]; cbn [bind]; auto.
  - destruct T as [h3 [T N]]. destruct (filtered_det _ _ _ _ _ _ _ _ _ _ _ _ _ _ _ F2 T) as [-> [-> [-> ->]]].
    unfold finish. destruct (sk_end k d3) as [d4|f4]; cbn [bind]; auto; destruct (sk_exit k d4) as [c|f5]; cbn [bind]; auto.
    destruct R as [s [code [X R]]]. exists s. rewrite R. destruct X as [[_ [M _]]|[_ ->]]; [|reflexivity].
    exfalso. apply N. left. exact M.
  - destruct T as [h3 [d4 T]]. destruct (filtered_det _ _ _ _ _ _ _ _ _ _ _ _ _ _ _ F2 T) as [-> [-> [-> ->]]]. exact R.
Qed.

Lemma filter_total : forall stage opt ps, exists mid e h, filtered (sfo_sid opt) (sfo_time_limit opt) stage anything [] tt ps mid e h tt.
Proof.
  intros stage opt ps. destruct (filter_refines stage opt anything ps (S (List.length ps)) tt tt ltac:(lia) eq_refl) as [out [e [h [[] [F _]]]]]. eauto.
Qed.

(** ** Standard output *)
Section Out.
Variable bytes : packet -> list Z.
Hypothesis size : forall p, zlen (bytes p) = 188.

Definition fine (s : stdout_state) : Prop := zlen (so_buf s) < 16384 /\ Forall no_error (so_writes s).

Lemma stdout_takes : forall s p, fine s -> exists s', sk_handle (to_stdout bytes) s p = Ok (s', true) /\ fine s' /\
  so_out s' ++ so_buf s' = (so_out s ++ so_buf s) ++ bytes p.
Proof.
  intros s p [B W]. destruct (handle_ok s (bytes p) B (size p) W) as [s1 [E [B1 [W1 O1]]]].
  exists s1. cbn. split; [exact E|]. split; [split; auto|]. rewrite O1, app_assoc. reflexivity.
Qed.

Lemma stdout_hand : forall qs s, fine s -> exists s', hand (to_stdout bytes) s qs = (qs, Ok (s', true)) /\ fine s' /\
  so_out s' ++ so_buf s' = (so_out s ++ so_buf s) ++ concat (map bytes qs).
Proof.
  induction qs as [|q qs IH]; intros s F; cbn [hand map concat].
  - exists s. rewrite app_nil_r. auto.
  - destruct (stdout_takes s q F) as [s1 [-> [F1 O1]]]. destruct (IH s1 F1) as [s2 [-> [F2 O2]]].
    exists s2. split; [reflexivity|]. split; [auto|]. rewrite O2, O1, <- app_assoc. reflexivity.
Qed.

Lemma stdout_finish : forall s, fine s -> exists s', finish (to_stdout bytes) s = Ok (0, s') /\ so_out s' = so_out s ++ so_buf s.
Proof. intros s [_ W]. exists (so_End s). split; [reflexivity|]. apply end_ok. auto. Qed.

Lemma fine_init : forall writes, Forall no_error writes -> fine (so_init writes).
Proof. intros. split; [cbn; rewrite zlen_nil; lia|auto]. Qed.
End Out.

Lemma packets_are : forall bs ps, packets_of bs ps -> Forall is_byte bs -> Forall ts_packet ps.
Proof.
  induction 1 as [| | | |]; intros B; try constructor.
  - apply Forall_app in B as [B1 B2]. split; auto.
  - apply Forall_app in B as [B1 B2]. auto.
  - match goal with E : zdrop i bs = p ++ rest |- _ => rename E into Ez end.
    assert (Bz : Forall is_byte (p ++ rest)) by (rewrite <- Ez; unfold zdrop; rewrite <- (firstn_skipn (Z.to_nat i) bs) in B; apply Forall_app in B; tauto).
    apply Forall_app in Bz as [B1 B2]. split; auto.
  - match goal with E : zdrop i bs = p ++ rest |- _ => rename E into Ez end.
    assert (Bz : Forall is_byte (p ++ rest)) by (rewrite <- Ez; unfold zdrop; rewrite <- (firstn_skipn (Z.to_nat i) bs) in B; apply Forall_app in B; tauto).
    apply Forall_app in Bz as [B1 B2]. auto.
Qed.

Section Mains.
Variable view : list (list Z) -> list Z -> packet.
Variable bytes : packet -> list Z.

(** ** filter-service *)
Lemma filter_service_exact : (forall p, zlen (bytes p) = 188) ->
  forall sid reads bs writes n, Forall read_ok reads -> packets_of (bytes_of reads) bs -> Forall no_error writes ->
  (List.length (bytes_of reads) < n)%nat ->
  exists out e h, filtered (sid mod 2 ^ 16) None 0 anything [] tt (views view [] bs) out e h tt /\
  match e with
  | FilterSpec.Crashed f => filter_service_main view bytes sid reads writes n = Some (Fail f)
  | _ => exists code seen s w, filter_service_main view bytes sid reads writes n = Some (Ok (code, (seen, (s, w)))) /\
      exit_code (sid mod 2 ^ 16) h 0 code /\ so_out w = concat (map bytes out)
  end.
Proof.
  intros Sz sid reads bs writes n R Pk W Hn.
  set (opt := load_service_filter (Some sid)).
  destruct (filter_total 0 opt (views view [] bs)) as [mid [e [h F]]]. exists mid, e, h. split; [exact F|].
  assert (Hl : (List.length (views view [] bs) < n)%nat) by (rewrite views_length; pose proof (packets_length _ _ Pk); lia).
  pose proof (filter_around 0 opt (to_stdout bytes) (views view [] bs) n (so_init writes) (so_init writes) mid e h Hl eq_refl F) as A. cbv zeta in A.
  pose proof (main_feed view (filter_service bytes sid) reads bs (sf_init opt, so_init writes) n R Pk Hn) as M.
  change (run_main view (filter_service bytes sid) reads (sf_init opt, so_init writes) n) with (filter_service_main view bytes sid reads writes n) in M.
  unfold filter_service in M. fold opt in M.
  destruct (stdout_hand bytes Sz mid (so_init writes) (fine_init writes W)) as [s1 [Eh [F1 O1]]]. rewrite Eh in A. cbn [snd] in A.
  destruct (stdout_finish bytes s1 F1) as [s2 [Ef O2]]. rewrite Ef in A.
  assert (G : forall P : Prop, (exists s code, exit_code (sfo_sid opt) h 0 code /\ FeedPackets (list_source packet) (service_filter 0 opt (to_stdout bytes)) n (views view [] bs) (sf_init opt, so_init writes) =
             Some (Ok (code, (s, s2)))) -> exists code seen s w, filter_service_main view bytes sid reads writes n = Some (Ok (code, (seen, (s, w)))) /\
      exit_code (sid mod 2 ^ 16) h 0 code /\ so_out w = concat (map bytes mid)).
  { intros _ [s [code [X E]]]. rewrite E in M. destruct M as [seen M]. exists code, seen, s, s2. split; [exact M|]. split; [exact X|].
    rewrite O2, O1. reflexivity. }
  destruct e; try (apply (G True); exact A). 
  assert (A2 : FeedPackets (list_source packet) (service_filter 0 opt (to_stdout bytes)) n (views view [] bs) (sf_init opt, so_init writes) = Some (Fail f)) by exact A.
  rewrite A2 in M. exact M.
Qed.

Lemma kept_views : faithful view bytes -> forall sid bs h out, Forall ts_packet bs -> thinned sid (views view h bs) out -> kept bs (map bytes out).
Proof.
  intros [Fb [Fp Fz]] sid bs. induction bs as [|b bs IH]; intros h out Ip T; cbn [views] in T.
  - inversion T; subst. constructor.
  - inversion Ip as [|? ? Ib Ir]; subst. inversion T as [|p ps o T1|p q ps o St T1]; subst; cbn [map].
    + constructor.
    + apply K_drop. eapply IH; eauto.
    + destruct St as [[N ->]|[Z0 [t [mp [-> _]]]]].
      * rewrite Fb by auto. rewrite Fp in N by auto. apply K_keep; [auto|eapply IH; eauto].
      * rewrite Fp in Z0 by auto. apply K_pat; auto. eapply IH; eauto.
Qed.

Lemma filter_service_kept : faithful view bytes ->
  forall sid reads bs writes n code seen s w, Forall read_ok reads -> Forall is_byte (bytes_of reads) -> packets_of (bytes_of reads) bs -> Forall no_error writes ->
  (List.length (bytes_of reads) < n)%nat ->
  filter_service_main view bytes sid reads writes n = Some (Ok (code, (seen, (s, w)))) ->
  exists out, so_out w = concat out /\ kept bs out.
Proof.
  intros Fa sid reads bs writes n code seen s w R Bt Pk W Hn E. pose proof Fa as [Fb [Fp Fz]].
  destruct (filter_service_exact Fz sid reads bs writes n R Pk W Hn) as [out [e [h [F A]]]].
  exists (map bytes out). split.
  - destruct e; try (destruct A as [c' [se [s' [w' [A [_ O]]]]]]; rewrite E in A; injection A as <- <- <- <-; exact O).
    rewrite E in A. discriminate.
  - eapply kept_views; [auto|eapply packets_are; eauto|]. eapply filtered_thinned. exact F.
Qed.

End Mains.
