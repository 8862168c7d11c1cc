From Coq Require Import ZArith Lia List Bool.
From Verif Require Import Base.Outcome Base.Util Model.Pcr Model.Sink Model.Ts Model.ProgramFilter
  Spec.PcrSpec Spec.FeedSpec Spec.FilterSpec Spec.TuneSpec Spec.TransSpec Spec.ProgramSpec
  Proofs.PcrProofs Proofs.FeedProofs Proofs.FilterProofs Proofs.FilterMain Proofs.TuneProofs Proofs.TransProofs Proofs.ProgramProofs.
Import ListNotations.
Open Scope Z_scope.

Section Main.
Variable npackets : pmt -> nat.
Variable o : program_filter_option.
Variable stage : nat.
Notation step := (program_step npackets o stage).

(** ** Tables do not change these *)
Lemma app_tabs : forall A (f : past -> A), (forall a b r, f (Tab a b :: r) = f r) ->
  forall ts h p, f (hear h p ts) = f h.
Proof.
  intros A f Hf ts h p. unfold hear. rewrite <- map_rev. generalize (rev ts). clear ts.
  induction l as [|t l IH]; cbn [map app]; auto. rewrite Hf. auto.
Qed.
Lemma begun_hear : forall ts h p, begun (hear h p ts) = begun h.
Proof. intros. apply (app_tabs _ begun). reflexivity. Qed.
Lemma pats_hear : forall ts h p, pats (hear h p ts) = pats h.
Proof. intros. apply (app_tabs _ pats). reflexivity. Qed.

Lemma tabs_app : forall a b, tabs (a ++ b) = tabs a ++ tabs b.
Proof. induction a as [|[] a IH]; intros; cbn; auto. rewrite IH. auto. Qed.
Lemma tabs_hear : forall ts h p, tabs (hear h p ts) = rev (map (fun t => (p_pid p, tb_body t)) ts) ++ tabs h.
Proof.
  intros. unfold hear. rewrite tabs_app. f_equal. rewrite <- !map_rev. generalize (rev ts). clear ts.
  induction l as [|t l IH]; cbn; auto. rewrite IH. auto.
Qed.

(** ** Refinement *)
Lemma program_refines : (forall m, (1 <= npackets m)%nat) -> sane_option o ->
  forall k ps n d d1, Forall (sane_packet stage) ps -> (List.length ps < n)%nat -> sk_start k d = Ok (d1, true) ->
  exists out e h d2, trans step k [] d1 ps out e h d2 /\
  let run := FeedPackets (list_source packet) (program_filter npackets o k stage) n ps (pf_init o, d) in
  match e with
  | TransSpec.Crashed f => run = Some (Fail f)
  | _ =>
      match sk_end k d2 with
      | Fail f => run = Some (Fail f)
      | Ok d3 =>
          if given_up o h && negb (begun h) then exists s, run = Some (Ok (222, (s, d3)))
          else
            match sk_exit k d3 with
            | Fail f => run = Some (Fail f)
            | Ok c => exists s, run = Some (Ok (c, (s, d3)))
            end
      end
  end.
Proof.
  intros Np So k ps n d d1 Sp Hn Es.
  destruct (trans_loop step pf_state k (pf_HandlePacket npackets o k stage) (pf_inv npackets o) (pf_fin o) (sane_packet stage)
    (program_refines_step npackets Np o So k stage) (inv_fin npackets o)
    (sk_start (program_filter npackets o k stage)) (sk_end (program_filter npackets o k stage)) (sk_exit (program_filter npackets o k stage))
    ps n [] (pf_init o) d1 Hn Sp) as [out [e [h [d2 [T E]]]]].
  { split; [apply rel_init; auto|discriminate]. }
  exists out, e, h, d2. split; auto. cbv zeta.
  unfold FeedPackets. cbn [sk_start program_filter snd fst]. rewrite Es. cbn [bind].
  change (mkSink _ _ (pf_HandlePacket npackets o k stage) _ _) with (program_filter npackets o k stage) in E.
  assert (G : (exists s', pf_fin o h s' /\ feed_loop (list_source packet) (program_filter npackets o k stage) n ps (pf_init o, d1) = Some (Ok (s', d2))) ->
    match sk_end k d2 with
    | Fail f => match feed_loop (list_source packet) (program_filter npackets o k stage) n ps (pf_init o, d1) with
       | Some r => Some (let* s2 := r in let* s3 := sk_end (program_filter npackets o k stage) s2 in
                  let* code := sk_exit (program_filter npackets o k stage) s3 in Ok (code, s3)) | None => None end = Some (Fail f)
    | Ok d3 =>
        if given_up o h && negb (begun h) then exists s, match feed_loop (list_source packet) (program_filter npackets o k stage) n ps (pf_init o, d1) with
       | Some r => Some (let* s2 := r in let* s3 := sk_end (program_filter npackets o k stage) s2 in
                  let* code := sk_exit (program_filter npackets o k stage) s3 in Ok (code, s3)) | None => None end = Some (Ok (222, (s, d3)))
        else match sk_exit k d3 with
            | Fail f => match feed_loop (list_source packet) (program_filter npackets o k stage) n ps (pf_init o, d1) with
       | Some r => Some (let* s2 := r in let* s3 := sk_end (program_filter npackets o k stage) s2 in
                  let* code := sk_exit (program_filter npackets o k stage) s3 in Ok (code, s3)) | None => None end = Some (Fail f)
            | Ok c => exists s, match feed_loop (list_source packet) (program_filter npackets o k stage) n ps (pf_init o, d1) with
       | Some r => Some (let* s2 := r in let* s3 := sk_end (program_filter npackets o k stage) s2 in
                  let* code := sk_exit (program_filter npackets o k stage) s3 in Ok (code, s3)) | None => None end = Some (Ok (c, (s, d3)))
            end
    end).
  { intros [s' [F ->]]. cbn [bind program_filter sk_end sk_exit snd fst]. unfold pf_fin in F.
    destruct (sk_end k d2) as [d3|]; cbn; auto. rewrite F. destruct (given_up o h && negb (begun h)).
    - exists s'. reflexivity.
    - destruct (sk_exit k d3); cbn; eauto. }
  destruct e; first [exact (G E)|rewrite E; reflexivity].
Qed.

(** ** While waiting *)
Lemma waiting_step : forall h p qs v h', step h p qs v h' -> begun h = false -> begun h' = false -> (forall f, v <> Boom f) ->
  (qs = if pfo_pre_streaming o && (p_pid p =? 0) && (match v with Go => true | _ => false end) then [p] else []) /\
  (v = Go -> pfo_pre_streaming o = false -> pats h' = latest_pat (pats h) [p]).
Proof.
  intros h p qs v h' [ts [D [[_ E]|[_ E]]]] B B' N.
  { inversion E; subst. exfalso. eapply N. reflexivity. }
  unfold react in E. rewrite begun_hear, B in E. unfold waiting in E.
  destruct (given_up o (hear h p ts)).
  { inversion E; subst. split; [rewrite andb_false_r; auto|discriminate]. }
  rewrite (andb_comm (pfo_pre_streaming o)).
  destruct ((p_pid p =? 0) && pfo_pre_streaming o) eqn:Ep.
  { inversion E; subst. split; auto. intros _ P. rewrite P, andb_false_r in Ep. discriminate. }
  set (h1 := if p_pid p =? 0 then PatPkt p :: hear h p ts else hear h p ts) in *.
  assert (P1 : pats h1 = latest_pat (pats h) [p]).
  { subst h1. cbn [latest_pat]. destruct (p_pid p =? 0); cbn [pats]; rewrite pats_hear; auto. }
  assert (X : qs = [] /\ (v = Go -> pats h' = pats h1)).
  { destruct (event_now o (hear h p ts)); [|inversion E; subst; auto].
    destruct (service_pcr o (hear h p ts) p) as [c|]; [|inversion E; subst; auto].
    destruct (window o (Clk c :: h1)) as [[ws we]|]; [|inversion E; subst; auto].
    destruct (reached c we); [inversion E; subst; split; auto|].
    destruct (reached c ws); [|inversion E; subst; auto].
    unfold begin in E. destruct (pmt_now o (Clk c :: h1)) as [[src m]|]; [|inversion E; subst; auto].
    destruct (negb (pfo_pre_streaming o) && _); [inversion E; subst; exfalso; eapply N; reflexivity|].
    destruct (src =? pmt_pid o (Clk c :: h1)); [|inversion E; subst; exfalso; eapply N; reflexivity].
    inversion E; subst. discriminate. }
  destruct X as [-> X]. cbn. split; auto. intros V _. rewrite (X V). auto.
Qed.

Lemma step_begun : forall h p qs v h', step h p qs v h' -> begun h = true -> begun h' = true.
Proof.
  intros h p qs v h' [ts [D [[_ E]|[_ E]]]] B; [inversion E; subst; auto|].
  unfold react in E. rewrite begun_hear, B in E.
  assert (Pass : forall g, begun g = true -> (qs, v, h') = pass npackets o g p -> begun h' = true).
  { intros g Bg Eg. unfold pass in Eg. destruct (pmt_now o g) as [[src m]|]; [|inversion Eg; subst; auto].
    destruct (p_pid p =? pmt_pid o g); [destruct (src =? p_pid p)|destruct (removed o m (p_pid p))]; inversion Eg; subst; auto. }
  assert (Bh : begun (hear h p ts) = true) by (rewrite begun_hear; auto).
  unfold streaming in E. destruct (given_up o (hear h p ts)); [inversion E; subst; auto|].
  destruct (pmt_now o (hear h p ts)) as [[src m]|]; [|inversion E; subst; auto].
  destruct (p_pid p =? pmt_pcr_pid m); [|eauto].
  destruct (p_pcr p) as [c|]; [|inversion E; subst; auto].
  destruct (window o (Clk c :: hear h p ts)) as [[ws we]|]; [|inversion E; subst; auto].
  destruct (reached c we); [inversion E; subst; auto|]. eapply Pass; [|exact E]. auto.
Qed.

Lemma trans_begun : forall k h d ps out e h' d', trans step k h d ps out e h' d' -> begun h = true -> begun h' = true.
Proof.
  intros k h d ps out e h' d' T. induction T; intros B; auto; try (eapply step_begun; eauto; fail).
  apply IHT. eapply step_begun; eauto.
Qed.

Lemma latest_pat_app : forall a b acc, latest_pat acc (a ++ b) = latest_pat (latest_pat acc a) b.
Proof. induction a as [|p a IH]; intros; cbn; auto. Qed.

(** What a run that is still waiting has output and saved. *)
Lemma waiting_run : forall k h d ps out e h' d', trans step k h d ps out e h' d' -> begun h = false -> begun h' = false -> e = AtEnd ->
  out = (if pfo_pre_streaming o then pat_packets ps else []) /\
  (pfo_pre_streaming o = false -> pats h' = latest_pat (pats h) ps).
Proof.
  intros k h d ps out e h' d' T. induction T; intros B B' Ee; try discriminate.
  - split; auto. destruct (pfo_pre_streaming o); auto.
  - assert (B1 : begun h' = false).
    { destruct (begun h') eqn:X; auto. rewrite (trans_begun _ _ _ _ _ _ _ _ T X) in B'. discriminate. }
    destruct (IHT B1 B' Ee) as [I1 I2].
    destruct (waiting_step _ _ _ _ _ H B B1 ltac:(discriminate)) as [W1 W2].
    apply hand_ok in H0. subst. split.
    + destruct (pfo_pre_streaming o); cbn [andb]; auto. unfold pat_packets. cbn [filter]. destruct (p_pid p =? 0); auto.
    + intros P. rewrite (I2 P), (W2 eq_refl P). reflexivity.
Qed.

(** The step that begins. *)
Lemma begin_step : forall h p qs v h', step h p qs v h' -> begun h = false -> begun h' = true ->
  exists ts c ws we src m, delivered base_pids (pfo_sid o) stage (tabs h) p ts /\
    service_pcr o (hear h p ts) p = Some c /\ p_pcr p = Some c /\
    pmt_now o (hear h p ts) = Some (src, m) /\ src = pmt_pid o (hear h p ts) /\
    window o (Clk c :: hear h p ts) = Some (ws, we) /\ reached c ws = true /\ reached c we = false /\
    given_up o (hear h p ts) = false /\ v = Go /\
    (pfo_pre_streaming o = false -> latest_pat (pats h) [p] <> []) /\
    qs = (if pfo_pre_streaming o then [] else latest_pat (pats h) [p]) ++ pmt_cycle npackets src (reduced o m) ++ [p].
Proof.
  intros h p qs v h' [ts [D [[_ E]|[_ E]]]] B B'.
  { inversion E; subst. congruence. }
  unfold react in E. rewrite begun_hear, B in E. unfold waiting in E.
  assert (Bh : begun (hear h p ts) = false) by (rewrite begun_hear; auto).
  destruct (given_up o (hear h p ts)) eqn:G.
  { inversion E; subst. congruence. }
  destruct ((p_pid p =? 0) && pfo_pre_streaming o) eqn:Ep.
  { inversion E; subst. congruence. }
  set (h1 := if p_pid p =? 0 then PatPkt p :: hear h p ts else hear h p ts) in *.
  assert (P1 : pats h1 = latest_pat (pats h) [p]).
  { subst h1. cbn [latest_pat]. destruct (p_pid p =? 0); cbn [pats]; rewrite pats_hear; auto. }
  assert (B1 : begun h1 = false) by (subst h1; destruct (p_pid p =? 0); auto).
  assert (W1 : forall c, window o (Clk c :: h1) = window o (Clk c :: hear h p ts)).
  { intros c. subst h1. destruct (p_pid p =? 0); auto. apply window_ext; auto. cbn [clock_now].
    destruct (clock_now o (hear h p ts)) as [[? ?] ?]. auto. }
  destruct (event_now o (hear h p ts)); [|inversion E; subst; congruence].
  destruct (service_pcr o (hear h p ts) p) as [c|] eqn:Es; [|inversion E; subst; congruence].
  rewrite W1 in E.
  destruct (window o (Clk c :: hear h p ts)) as [[ws we]|] eqn:Ew; [|inversion E; subst; cbn in B'; congruence].
  destruct (reached c we) eqn:Re; [inversion E; subst; cbn in B'; congruence|].
  destruct (reached c ws) eqn:Rs; [|inversion E; subst; cbn in B'; congruence].
  unfold begin in E.
  assert (M1 : pmt_now o (Clk c :: h1) = pmt_now o (hear h p ts)) by (subst h1; destruct (p_pid p =? 0); auto).
  assert (M2 : pmt_pid o (Clk c :: h1) = pmt_pid o (hear h p ts)) by (subst h1; destruct (p_pid p =? 0); auto).
  rewrite M1, M2 in E. change (pats (Clk c :: h1)) with (pats h1) in E. rewrite P1 in E.
  destruct (pmt_now o (hear h p ts)) as [[src m]|] eqn:Em; [|inversion E; subst; cbn in B'; congruence].
  destruct (negb (pfo_pre_streaming o) && _) eqn:Ne; [inversion E; subst; cbn in B'; congruence|].
  destruct (Z.eqb_spec src (pmt_pid o (hear h p ts))); [|inversion E; subst; cbn in B'; congruence].
  inversion E; subst qs v h'. exists ts, c, ws, we, src, m.
  assert (Ec : p_pcr p = Some c).
  { unfold service_pcr in Es. rewrite Em in Es. destruct (p_pid p =? pmt_pcr_pid m); [auto|discriminate]. }
  repeat (split; auto).
  intros Pp. rewrite Pp in Ne. cbn [negb andb] in Ne. destruct (latest_pat (pats h) [p]); [discriminate|discriminate].
Qed.

(** A run that is still waiting at its end, without a refusal or crash, has output
    PAT packets only, ahead of time; without pre-streaming nothing. *)
Lemma waiting_quiet : forall k h d ps out e h' d', trans step k h d ps out e h' d' -> begun h = false -> begun h' = false ->
  e = AtEnd \/ e = Halted ->
  (exists rest, pat_packets ps = out ++ rest) /\ (pfo_pre_streaming o = false -> out = []).
Proof.
  intros k h d ps out e h' d' T.
  induction T as [h d|h d p ps qs h' out d' out' e he de S E F IH|h d p ps qs h' out d' S E|h d p ps qs f h' out d' S E|h d p ps qs v h' out d' S E|h d p ps qs v h' out f S E];
    intros B B' N; try (destruct N; discriminate).
  - split; auto. exists []. auto.
  - assert (B1 : begun h' = false).
    { destruct (begun h') eqn:X; auto. rewrite (trans_begun _ _ _ _ _ _ _ _ F X) in B'. discriminate. }
    destruct (IH B1 B' N) as [[rest I1] I2].
    destruct (waiting_step _ _ _ _ _ S B B1 ltac:(discriminate)) as [W1 _].
    apply hand_ok in E. subst. unfold pat_packets in *. cbn [filter].
    destruct (pfo_pre_streaming o); cbn [andb].
    + split; [|discriminate]. destruct (p_pid p =? 0); cbn [app andb]; [exists rest; rewrite I1; auto|eauto].
    + split; [|rewrite I2; auto]. rewrite I2 by auto. destruct (p_pid p =? 0); cbn; eauto.
  - destruct (waiting_step _ _ _ _ _ S B B' ltac:(discriminate)) as [W1 _]. rewrite andb_false_r in W1. subst.
    apply hand_ok in E. subst. split; auto. eexists. cbn. reflexivity.
Qed.

(** A run that began: where it did and what it output there. *)
Lemma begin_run : forall k h d ps out e h' d', trans step k h d ps out e h' d' -> begun h = false -> begun h' = true ->
  exists a p b o1 ha da qs h1, ps = a ++ p :: b /\ trans step k h d a o1 AtEnd ha da /\ begun ha = false /\
    step ha p qs Go h1 /\ begun h1 = true /\
    ((exists rest, e <> AtEnd /\ out ++ rest = o1 ++ qs) \/
     (exists d1 o2, trans step k h1 d1 b o2 e h' d' /\ out = o1 ++ qs ++ o2)).
Proof.
  intros k h d ps out e h' d' T.
  induction T as [h d|h d p ps qs h' out d' out' e he de S E F IH|h d p ps qs h' out d' S E|h d p ps qs f h' out d' S E|h d p ps qs v h' out d' S E|h d p ps qs v h' out f S E];
    intros B B'.
  - congruence.
  - destruct (begun h') eqn:B1.
    + exists [], p, ps, [], h, d, qs, h'. split; auto. split; [constructor|]. split; auto. split; auto. split; auto.
      right. exists d', out'. split; auto. apply hand_ok in E. subst. reflexivity.
    + destruct (IH eq_refl B') as [a [q [b [o1 [ha [da [qs1 [h1 [-> [T1 [Ba [Sa [B2 X]]]]]]]]]]]]].
      exists (p :: a), q, b, (out ++ o1), ha, da, qs1, h1. split; auto. split; [eapply X_go; eauto|]. split; auto. split; auto. split; auto.
      destruct X as [[rest [N X]]|[d1 [o2 [T2 X]]]].
      * left. exists rest. split; auto. rewrite <- !app_assoc, X. reflexivity.
      * right. exists d1, o2. split; auto. rewrite X, <- !app_assoc. reflexivity.
  - exfalso. destruct (begin_step _ _ _ _ _ S B B') as (ts & c & ws & we & src & m & _ & _ & _ & _ & _ & _ & _ & _ & _ & V & _). discriminate.
  - exfalso. destruct (begin_step _ _ _ _ _ S B B') as (ts & c & ws & we & src & m & _ & _ & _ & _ & _ & _ & _ & _ & _ & V & _). discriminate.
  - destruct (begin_step _ _ _ _ _ S B B') as (ts & c & ws & we & src & m & _ & _ & _ & _ & _ & _ & _ & _ & _ & V & _). subst v.
    exists [], p, ps, [], h, d, qs, h'. split; auto. split; [constructor|]. split; auto. split; auto. split; auto.
    left. destruct (hand_split _ _ _ _ _ E) as [r [Er _]]. exists r. split; [discriminate|]. auto.
  - destruct (begin_step _ _ _ _ _ S B B') as (ts & c & ws & we & src & m & _ & _ & _ & _ & _ & _ & _ & _ & _ & V & _). subst v.
    exists [], p, ps, [], h, d, qs, h'. split; auto. split; [constructor|]. split; auto. split; auto. split; auto.
    left. destruct (hand_split _ _ _ _ _ E) as [r [Er _]]. exists r. split; [discriminate|]. auto.
Qed.

(** C25: the output of a run that began. *)
Lemma output_starts : forall k d ps out e h d', trans step k [] d ps out e h d' -> begun h = true ->
  exists a p b src m, ps = a ++ p :: b /\ p_pcr p <> None /\
    (pfo_pre_streaming o = false -> latest_pat [] (a ++ [p]) <> []) /\
    let opening := (if pfo_pre_streaming o then pat_packets a else latest_pat [] (a ++ [p])) ++ pmt_cycle npackets src (reduced o m) ++ [p] in
    (exists ha o1 da ts, trans step k [] d a o1 AtEnd ha da /\ delivered base_pids (pfo_sid o) stage (tabs ha) p ts /\
       pmt_now o (hear ha p ts) = Some (src, m) /\ src = pmt_pid o (hear ha p ts)) /\
    ((e <> AtEnd /\ exists rest, out ++ rest = opening) \/ exists more, out = opening ++ more).
Proof.
  intros k d ps out e h d' T B.
  destruct (begin_run _ _ _ _ _ _ _ _ T eq_refl B) as (a & p & b & o1 & ha & da & qs & h1 & -> & T1 & Ba & S & B1 & X).
  destruct (waiting_run _ _ _ _ _ _ _ _ T1 eq_refl Ba eq_refl) as [W1 W2].
  destruct (begin_step _ _ _ _ _ S Ba B1) as (ts & c & ws & we & src & m & D & Sp & Ep & Em & Es & Ew & Rs & Re & G & V & Ne & Eq).
  exists a, p, b, src, m. split; auto. split; [congruence|].
  assert (L : pfo_pre_streaming o = false -> latest_pat [] (a ++ [p]) = latest_pat (pats ha) [p]).
  { intros P. rewrite latest_pat_app, (W2 P). reflexivity. }
  split; [intros P; rewrite (L P); auto|]. cbv zeta.
  split; [exists ha, o1, da, ts; auto|].
  assert (Q : o1 ++ qs = (if pfo_pre_streaming o then pat_packets a else latest_pat [] (a ++ [p])) ++ pmt_cycle npackets src (reduced o m) ++ [p]).
  { subst qs o1. destruct (pfo_pre_streaming o); [reflexivity|]. rewrite L by auto. reflexivity. }
  destruct X as [[rest [N X]]|[d1 [o2 [T2 X]]]].
  - left. split; auto. exists rest. rewrite <- Q. auto.
  - right. exists o2. rewrite <- Q, X, <- app_assoc. auto.
Qed.

(** C24: at the packet that begins, the PCR lies in the window. *)
Lemma begins_in_window : forall k d ps out e h d', trans step k [] d ps out e h d' -> begun h = true ->
  exists a p b o1 ha da ts v ws we, ps = a ++ p :: b /\ trans step k [] d a o1 AtEnd ha da /\
    delivered base_pids (pfo_sid o) stage (tabs ha) p ts /\ service_pcr o (hear ha p ts) p = Some v /\
    window o (Clk v :: hear ha p ts) = Some (ws, we) /\ reached v ws = true /\ reached v we = false /\
    o1 = (if pfo_pre_streaming o then pat_packets a else []).
Proof.
  intros k d ps out e h d' T B.
  destruct (begin_run _ _ _ _ _ _ _ _ T eq_refl B) as (a & p & b & o1 & ha & da & qs & h1 & -> & T1 & Ba & S & B1 & X).
  destruct (waiting_run _ _ _ _ _ _ _ _ T1 eq_refl Ba eq_refl) as [W1 W2].
  destruct (begin_step _ _ _ _ _ S Ba B1) as (ts & c & ws & we & src & m & D & Sp & Ep & Em & Es & Ew & Rs & Re & G & V & Ne & Eq).
  exists a, p, b, o1, ha, da, ts, c, ws, we. auto 10.
Qed.

(** When a step halts. *)
Lemma halt_step : forall h p qs v h', step h p qs v h' ->
  (v = Halt -> qs = [] /\ exists ts, delivered base_pids (pfo_sid o) stage (tabs h) p ts /\
     (given_up o (hear h p ts) = true \/
      exists c ws we, service_pcr o (hear h p ts) p = Some c /\ window o (Clk c :: hear h p ts) = Some (ws, we) /\ reached c we = true)) /\
  (forall ts c ws we, delivered base_pids (pfo_sid o) stage (tabs h) p ts -> ~ bad_pat o p ts ->
     (p_pid p <> 0 \/ pfo_pre_streaming o = false \/ begun h = true) ->
     service_pcr o (hear h p ts) p = Some c -> window o (Clk c :: hear h p ts) = Some (ws, we) -> reached c we = true -> v = Halt).
Proof.
  intros h p qs v h' [ts [D X]]. split.
  - intros ->. destruct X as [[_ E]|[_ E]]; [discriminate|]. unfold react in E. rewrite begun_hear in E.
    destruct (begun h) eqn:B.
    + unfold streaming in E. destruct (given_up o (hear h p ts)) eqn:G.
      { inversion E; subst. split; auto. exists ts. auto. }
      assert (Pass : forall g, (qs, Halt, h') <> pass npackets o g p).
      { intros g Eg. unfold pass in Eg. destruct (pmt_now o g) as [[src m]|]; [|discriminate].
        destruct (p_pid p =? pmt_pid o g); [destruct (src =? p_pid p)|destruct (removed o m (p_pid p))]; discriminate. }
      destruct (pmt_now o (hear h p ts)) as [[src m]|] eqn:Em; [|discriminate].
      destruct (p_pid p =? pmt_pcr_pid m) eqn:Ep; [|exfalso; eapply Pass; eauto].
      destruct (p_pcr p) as [c|] eqn:Ec; [|discriminate].
      destruct (window o (Clk c :: hear h p ts)) as [[ws we]|] eqn:Ew; [|discriminate].
      destruct (reached c we) eqn:Rr; [|exfalso; eapply Pass; eauto].
      inversion E; subst. split; auto. exists ts. split; auto. right. exists c, ws, we.
      unfold service_pcr. rewrite Em, Ep. auto.
    + unfold waiting in E. destruct (given_up o (hear h p ts)) eqn:G.
      { inversion E; subst. split; auto. exists ts. auto. }
      destruct ((p_pid p =? 0) && pfo_pre_streaming o); [discriminate|].
      set (h1 := if p_pid p =? 0 then PatPkt p :: hear h p ts else hear h p ts) in *.
      assert (W1 : forall c, window o (Clk c :: h1) = window o (Clk c :: hear h p ts)).
      { intros c. subst h1. destruct (p_pid p =? 0); auto. apply window_ext; auto. cbn [clock_now].
        destruct (clock_now o (hear h p ts)) as [[? ?] ?]. auto. }
      destruct (event_now o (hear h p ts)); [|discriminate].
      destruct (service_pcr o (hear h p ts) p) as [c|] eqn:Es; [|discriminate]. rewrite W1 in E.
      destruct (window o (Clk c :: hear h p ts)) as [[ws we]|] eqn:Ew; [|discriminate].
      destruct (reached c we) eqn:Rr.
      { inversion E; subst. split; auto. exists ts. split; auto. right. exists c, ws, we. auto. }
      destruct (reached c ws); [|discriminate]. exfalso. unfold begin in E.
      destruct (pmt_now o (Clk c :: h1)) as [[src m]|]; [|discriminate].
      destruct (negb (pfo_pre_streaming o) && _); [discriminate|].
      destruct (src =? pmt_pid o (Clk c :: h1)); discriminate.
  - intros ts' c ws we D' Nb Np Es Ew Rr. pose proof (delivered_det _ _ _ _ _ _ _ D D'). subst ts'.
    destruct X as [[Bp _]|[_ E]]; [tauto|]. unfold react in E. rewrite begun_hear in E.
    assert (Wev : event_now o (hear h p ts) <> None).
    { unfold window in Ew. change (event_now o (Clk c :: hear h p ts)) with (event_now o (hear h p ts)) in Ew.
      destruct (event_now o (hear h p ts)); [discriminate|].
      destruct (clock_now o (Clk c :: hear h p ts)) as [[? [?|]] [?|]]; discriminate. }
    destruct (begun h) eqn:B.
    + unfold streaming in E. destruct (given_up o (hear h p ts)); [inversion E; auto|].
      unfold service_pcr in Es. destruct (pmt_now o (hear h p ts)) as [[src m]|]; [|discriminate].
      destruct (p_pid p =? pmt_pcr_pid m); [|discriminate]. rewrite Es, Ew, Rr in E. inversion E; auto.
    + unfold waiting in E. destruct (given_up o (hear h p ts)); [inversion E; auto|].
      destruct ((p_pid p =? 0) && pfo_pre_streaming o) eqn:Pp.
      { apply andb_prop in Pp as [P1 P2]. apply Z.eqb_eq in P1. destruct Np as [Np|[Np|Np]]; congruence. }
      set (h1 := if p_pid p =? 0 then PatPkt p :: hear h p ts else hear h p ts) in *.
      assert (W1 : window o (Clk c :: h1) = window o (Clk c :: hear h p ts)).
      { subst h1. destruct (p_pid p =? 0); auto. apply window_ext; auto. cbn [clock_now].
        destruct (clock_now o (hear h p ts)) as [[? ?] ?]. auto. }
      destruct (event_now o (hear h p ts)); [|congruence]. rewrite Es, W1, Ew, Rr in E. inversion E; auto.
Qed.

(** C24: a run that halts does so because it gave up or at a PCR at or after the
    end, having output what it had before. *)
Lemma halts_at_end : forall k d ps out h d', trans step k [] d ps out Halted h d' ->
  exists a p b ha ts, ps = a ++ p :: b /\ trans step k [] d a out AtEnd ha d' /\
    delivered base_pids (pfo_sid o) stage (tabs ha) p ts /\
    (given_up o (hear ha p ts) = true \/
     exists v ws we, service_pcr o (hear ha p ts) p = Some v /\ window o (Clk v :: hear ha p ts) = Some (ws, we) /\ reached v we = true).
Proof.
  intros k d ps out h d' T. remember ([] : past) as h0 eqn:E0. clear E0. remember Halted as e eqn:Ee. revert Ee.
  induction T as [h d|h d p ps qs h' out d' out' e he de S E F IH|h d p ps qs h' out d' S E|h d p ps qs f h' out d' S E|h d p ps qs v h' out d' S E|h d p ps qs v h' out f S E];
    intros Ee; try discriminate.
  - destruct (IH Ee) as (a & q & b & ha & ts & -> & T1 & D & X).
    exists (p :: a), q, b, ha, ts. split; auto. split; [eapply X_go; eauto|]. auto.
  - destruct (halt_step _ _ _ _ _ S) as [Hq _]. destruct (Hq eq_refl) as [-> [ts [D X]]].
    cbn in E. inversion E; subst. exists [], p, ps, h, ts. split; auto. split; [constructor|]. auto.
Qed.

Lemma ends_at_end : forall k d a p b out e h d' o1 ha da ts v ws we,
  trans step k [] d (a ++ p :: b) out e h d' -> trans step k [] d a o1 AtEnd ha da -> begun ha = true ->
  delivered base_pids (pfo_sid o) stage (tabs ha) p ts -> ~ bad_pat o p ts ->
  service_pcr o (hear ha p ts) p = Some v -> window o (Clk v :: hear ha p ts) = Some (ws, we) -> reached v we = true ->
  e = Halted /\ out = o1.
Proof.
  intros k d a p b out e h d' o1 ha da ts v ws we T Ta B D Nb Es Ew Rr.
  assert (St : exists h1, step ha p [] Halt h1).
  { destruct (react npackets o (hear ha p ts) p) as [[qs w] h1] eqn:Er.
    assert (S : step ha p qs w h1) by (exists ts; split; auto; right; auto).
    destruct (halt_step _ _ _ _ _ S) as [X1 X2]. specialize (X2 ts v ws we D Nb ltac:(auto) Es Ew Rr). subst w.
    destruct (X1 eq_refl) as [-> _]. eauto. }
  destruct St as [h1 S].
  assert (T2 : trans step k ha da (p :: b) [] Halted h1 da) by (eapply X_halt; [exact S|reflexivity]).
  pose proof (trans_app _ _ _ _ _ _ _ _ _ _ _ _ _ Ta T2) as T3. rewrite app_nil_r in T3.
  destruct (trans_det step (program_step_det npackets o stage) _ _ _ _ _ _ _ _ _ _ _ _ T T3) as [-> [-> _]]. auto.
Qed.

(** A step that does not halt leaves a past in which it did not give up. *)
Lemma step_not_given : forall h p qs v h', step h p qs v h' -> given_up o h = false -> v <> Halt -> given_up o h' = false.
Proof.
  intros h p qs v h' [ts [D [[_ E]|[_ E]]]] G N.
  { inversion E; subst. auto. }
  assert (Items : forall x r, (forall a b, x <> Tab a b) -> given_up o (x :: r) = given_up o r).
  { intros x r Nx. cbn [given_up]. destruct x; cbn [gives_up]; try (rewrite orb_false_r; auto). exfalso. eapply Nx. eauto. }
  unfold react in E. set (g := hear h p ts) in *.
  assert (Pass : forall g, given_up o g = false -> (qs, v, h') = pass npackets o g p -> given_up o h' = false).
  { intros g' G' Eg. unfold pass in Eg. destruct (pmt_now o g') as [[src m]|]; [|inversion Eg; subst; auto].
    destruct (p_pid p =? pmt_pid o g'); [destruct (src =? p_pid p)|destruct (removed o m (p_pid p))]; inversion Eg; subst; auto.
    rewrite Items by discriminate. auto. }
  destruct (begun g).
  - unfold streaming in E. destruct (given_up o g) eqn:Gg; [inversion E; subst; congruence|].
    destruct (pmt_now o g) as [[src m]|]; [|inversion E; subst; auto].
    destruct (p_pid p =? pmt_pcr_pid m); [|eauto].
    destruct (p_pcr p) as [c|]; [|inversion E; subst; auto].
    assert (Gc : given_up o (Clk c :: g) = false) by (rewrite Items by discriminate; auto).
    destruct (window o (Clk c :: g)) as [[ws we]|]; [|inversion E; subst; auto].
    destruct (reached c we); [inversion E; subst; congruence|eauto].
  - unfold waiting in E. destruct (given_up o g) eqn:Gg; [inversion E; subst; congruence|].
    destruct ((p_pid p =? 0) && pfo_pre_streaming o); [inversion E; subst; auto|].
    set (h1 := if p_pid p =? 0 then PatPkt p :: g else g) in *.
    assert (G1 : given_up o h1 = false) by (subst h1; destruct (p_pid p =? 0); auto; rewrite Items by discriminate; auto).
    destruct (event_now o g); [|inversion E; subst; auto].
    destruct (service_pcr o g p) as [c|]; [|inversion E; subst; auto].
    assert (Gc : given_up o (Clk c :: h1) = false) by (rewrite Items by discriminate; auto).
    destruct (window o (Clk c :: h1)) as [[ws we]|]; [|inversion E; subst; auto].
    destruct (reached c we); [inversion E; subst; congruence|].
    destruct (reached c ws); [|inversion E; subst; auto]. unfold begin in E.
    destruct (pmt_now o (Clk c :: h1)) as [[src m]|]; [|inversion E; subst; auto].
    destruct (negb (pfo_pre_streaming o) && _); [inversion E; subst; auto|].
    destruct (src =? pmt_pid o (Clk c :: h1)); inversion E; subst; auto. rewrite Items by discriminate. auto.
Qed.

(** C26: giving up halts. *)
Lemma gave_up_halts : forall k h d ps out e h' d', trans step k h d ps out e h' d' -> given_up o h = false -> given_up o h' = true -> e = Halted.
Proof.
  intros k h d ps out e h' d' T.
  induction T as [h d|h d p ps qs h' out d' out' e he de S E F IH|h d p ps qs h' out d' S E|h d p ps qs f h' out d' S E|h d p ps qs v h' out d' S E|h d p ps qs v h' out f S E];
    intros G G'; auto; try congruence.
  - apply IH; auto. eapply step_not_given; eauto. discriminate.
  - rewrite (step_not_given _ _ _ _ _ S G) in G' by discriminate. discriminate.
  - exfalso. destruct (halt_step _ _ _ _ _ S) as [Hh _].
    assert (N : v <> Halt) by (intros ->; destruct (Hh eq_refl) as [-> _]; discriminate).
    rewrite (step_not_given _ _ _ _ _ S G N) in G'. discriminate.
  - exfalso. destruct (halt_step _ _ _ _ _ S) as [Hh _].
    assert (N : v <> Halt) by (intros ->; destruct (Hh eq_refl) as [-> _]; discriminate).
    rewrite (step_not_given _ _ _ _ _ S G N) in G'. discriminate.
Qed.

(** And a table that makes it give up does so at once: the run halts at the packet
    with it. *)
Lemma gives_up_halts : forall k d a p b out e h d' o1 ha da ts,
  trans step k [] d (a ++ p :: b) out e h d' -> trans step k [] d a o1 AtEnd ha da ->
  delivered base_pids (pfo_sid o) stage (tabs ha) p ts -> ~ bad_pat o p ts -> given_up o (hear ha p ts) = true ->
  e = Halted /\ out = o1 /\ given_up o h = true /\ begun h = begun ha.
Proof.
  intros k d a p b out e h d' o1 ha da ts T Ta D Nb G.
  assert (S : step ha p [] Halt (hear ha p ts)).
  { exists ts. split; auto. right. split; auto. unfold react, streaming, waiting. rewrite G. destruct (begun (hear ha p ts)); auto. }
  assert (T2 : trans step k ha da (p :: b) [] Halted (hear ha p ts) da) by (eapply X_halt; [exact S|reflexivity]).
  pose proof (trans_app _ _ _ _ _ _ _ _ _ _ _ _ _ Ta T2) as T3. rewrite app_nil_r in T3.
  destruct (trans_det step (program_step_det npackets o stage) _ _ _ _ _ _ _ _ _ _ _ _ T T3) as [-> [-> [-> _]]].
  rewrite begun_hear. auto.
Qed.

(** C27: what is done with a packet while streaming, of a PID other than the
    service's PCR and PMT PIDs. *)
Lemma stream_step : forall h p qs v h', step h p qs v h' -> begun h = true -> v = Go ->
  exists ts, delivered base_pids (pfo_sid o) stage (tabs h) p ts /\
  forall src m, pmt_now o (hear h p ts) = Some (src, m) ->
    (p_pid p <> pmt_pcr_pid m \/ p_pcr p <> None /\ window o (Clk (match p_pcr p with Some c => c | None => 0 end) :: hear h p ts) <> None) ->
    (p_pid p <> pmt_pid o (hear h p ts) -> qs = if removed o m (p_pid p) then [] else [p]) /\
    (p_pid p = pmt_pid o (hear h p ts) -> src = p_pid p /\
       qs = [pmt_packet src (reduced o m) (pmt_count o (hear h p ts) mod npackets (reduced o m))]).
Proof.
  intros h p qs v h' [ts [D [[_ E]|[_ E]]]] B V; [congruence|]. exists ts. split; auto. intros src m Em C.
  assert (Pass : forall g, pmt_now o g = Some (src, m) -> pmt_pid o g = pmt_pid o (hear h p ts) -> pmt_count o g = pmt_count o (hear h p ts) ->
    (qs, v, h') = pass npackets o g p ->
    (p_pid p <> pmt_pid o (hear h p ts) -> qs = if removed o m (p_pid p) then [] else [p]) /\
    (p_pid p = pmt_pid o (hear h p ts) -> src = p_pid p /\
       qs = [pmt_packet src (reduced o m) (pmt_count o (hear h p ts) mod npackets (reduced o m))])).
  { intros g G1 G2 G3 Eg. unfold pass in Eg. rewrite G1, G2, G3 in Eg.
    destruct (Z.eqb_spec (p_pid p) (pmt_pid o (hear h p ts))) as [Q|Q].
    - split; [tauto|]. intros _. destruct (Z.eqb_spec src (p_pid p)); inversion Eg; subst; auto. discriminate.
    - split; [|tauto]. intros _. destruct (removed o m (p_pid p)); inversion Eg; auto. }
  unfold react in E. rewrite begun_hear, B in E. unfold streaming in E.
  destruct (given_up o (hear h p ts)); [inversion E; subst; discriminate|]. rewrite Em in E.
  destruct (Z.eqb_spec (p_pid p) (pmt_pcr_pid m)) as [Q|Q]; [|apply (Pass (hear h p ts)); auto].
  destruct C as [C|[C1 C2]]; [congruence|]. destruct (p_pcr p) as [c|]; [|congruence].
  destruct (window o (Clk c :: hear h p ts)) as [[ws we]|]; [|congruence].
  destruct (reached c we); [inversion E; subst; discriminate|]. apply (Pass (Clk c :: hear h p ts)); auto.
Qed.

(** The packets while streaming, without exception. *)
Lemma stream_step_exact : forall h p qs v h', step h p qs v h' -> begun h = true -> v = Go ->
  exists ts, delivered base_pids (pfo_sid o) stage (tabs h) p ts /\
  forall src m, pmt_now o (hear h p ts) = Some (src, m) ->
    let unexamined := p_pid p = pmt_pcr_pid m /\ (p_pcr p = None \/ exists c, p_pcr p = Some c /\ window o (Clk c :: hear h p ts) = None) in
    (unexamined -> qs = [p]) /\
    (~ unexamined -> p_pid p <> pmt_pid o (hear h p ts) -> qs = if removed o m (p_pid p) then [] else [p]) /\
    (~ unexamined -> p_pid p = pmt_pid o (hear h p ts) -> src = p_pid p /\
       qs = [pmt_packet src (reduced o m) (pmt_count o (hear h p ts) mod npackets (reduced o m))]).
Proof.
  intros h p qs v h' [ts [D [[_ E]|[Nb E]]]] B V; [congruence|].
  assert (S : step h p qs v h') by (exists ts; split; [exact D|]; right; split; [|exact E]; assumption).
  exists ts. split; auto. intros src m Em. cbn zeta.
  assert (U : p_pid p = pmt_pcr_pid m /\ (p_pcr p = None \/ exists c, p_pcr p = Some c /\ window o (Clk c :: hear h p ts) = None) -> qs = [p]).
  { intros [Q W]. unfold react in E. rewrite begun_hear, B in E. unfold streaming in E.
    destruct (given_up o (hear h p ts)); [inversion E; subst; discriminate|]. rewrite Em in E. rewrite Q, Z.eqb_refl in E.
    destruct W as [W|(c & W & N)]; rewrite W in E; [|rewrite N in E]; inversion E; reflexivity. }
  split; [exact U|].
  assert (X : ~ (p_pid p = pmt_pcr_pid m /\ (p_pcr p = None \/ exists c, p_pcr p = Some c /\ window o (Clk c :: hear h p ts) = None)) ->
    p_pid p <> pmt_pcr_pid m \/ p_pcr p <> None /\ window o (Clk (match p_pcr p with Some c => c | None => 0 end) :: hear h p ts) <> None).
  { intros N. destruct (Z.eq_dec (p_pid p) (pmt_pcr_pid m)) as [Q|Q]; [right|left; exact Q].
    split; [intros C; apply N; auto|]. intros C. destruct (p_pcr p) as [c|] eqn:Pc; [|apply N; auto]. apply N. split; [exact Q|]. right. eauto. }
  assert (T : forall ts', delivered base_pids (pfo_sid o) stage (tabs h) p ts' -> ts' = ts) by (intros ts' D'; eapply delivered_det; eauto).
  destruct (stream_step h p qs v h' S B V) as (ts' & D' & H). rewrite (T ts' D') in H.
  split; intros N; apply (H src m Em (X N)).
Qed.

(** ** C28: which PCRs are examined *)
Lemma clks_hear : forall ts h p, clks (hear h p ts) = clks h.
Proof. intros. apply app_tabs. auto. Qed.

Lemma examined : forall h p qs v h', step h p qs v h' -> (forall f, v <> Boom f) ->
  exists ts, delivered base_pids (pfo_sid o) stage (tabs h) p ts /\
  (given_up o (hear h p ts) = false -> (p_pid p <> 0 \/ pfo_pre_streaming o = false \/ begun h = true) ->
   clks h' = match service_pcr o (hear h p ts) p with
             | Some c => if begun h || (match event_now o (hear h p ts) with Some _ => true | None => false end) then c :: clks h else clks h
             | None => clks h
             end).
Proof.
  intros h p qs v h' [ts [D [[_ E]|[_ E]]]] N; [inversion E; subst; exfalso; eapply N; eauto|].
  exists ts. split; auto. intros G Np. unfold react in E. rewrite begun_hear in E.
  destruct (begun h) eqn:B.
  - unfold streaming in E. rewrite G in E. unfold service_pcr. cbn [orb].
    assert (Pass : forall g, (qs, v, h') = pass npackets o g p -> clks h' = clks g).
    { intros g Eg. unfold pass in Eg. destruct (pmt_now o g) as [[src m]|]; [|inversion Eg; subst; auto].
      destruct (p_pid p =? pmt_pid o g); [destruct (src =? p_pid p)|destruct (removed o m (p_pid p))]; inversion Eg; subst; auto. }
    destruct (pmt_now o (hear h p ts)) as [[src m]|]; [|inversion E; subst; apply clks_hear].
    destruct (p_pid p =? pmt_pcr_pid m); [|rewrite (Pass _ E); apply clks_hear].
    destruct (p_pcr p) as [c|]; [|inversion E; subst; apply clks_hear].
    destruct (window o (Clk c :: hear h p ts)) as [[ws we]|]; [|inversion E; subst; cbn [clks]; rewrite clks_hear; auto].
    destruct (reached c we); [inversion E; subst|rewrite (Pass _ E)]; cbn [clks]; rewrite clks_hear; auto.
  - unfold waiting in E. rewrite G in E. cbn [orb].
    destruct ((p_pid p =? 0) && pfo_pre_streaming o) eqn:Pp.
    { apply andb_prop in Pp as [P1 P2]. apply Z.eqb_eq in P1. destruct Np as [Np|[Np|Np]]; congruence. }
    set (h1 := if p_pid p =? 0 then PatPkt p :: hear h p ts else hear h p ts) in *.
    assert (C1 : clks h1 = clks h) by (subst h1; destruct (p_pid p =? 0); apply clks_hear).
    destruct (event_now o (hear h p ts)).
    2:{ destruct (service_pcr o (hear h p ts) p); inversion E; subst; auto. }
    destruct (service_pcr o (hear h p ts) p) as [c|]; [|inversion E; subst; auto].
    assert (C2 : clks (Clk c :: h1) = c :: clks h) by (cbn [clks]; rewrite C1; auto).
    destruct (window o (Clk c :: h1)) as [[ws we]|]; [|inversion E; subst; auto].
    destruct (reached c we); [inversion E; subst; auto|].
    destruct (reached c ws); [|inversion E; subst; auto]. unfold begin in E.
    destruct (pmt_now o (Clk c :: h1)) as [[src m]|]; [|inversion E; subst; auto].
    destruct (negb (pfo_pre_streaming o) && _); [inversion E; subst; auto|].
    destruct (src =? pmt_pid o (Clk c :: h1)); inversion E; subst; auto.
Qed.

(** ** C29: survival *)
Section Steady.
Variable mpid : Z.
Hypothesis mpid_free : ~ In mpid base_pids.

Definition listed (h : past) : Prop := exists x t q, In x (tabs h) /\ listing (pfo_sid o) x = Some (t, q).
Definition calm (h : past) : Prop :=
  (forall x t q, In x (tabs h) -> listing (pfo_sid o) x = Some (t, q) -> q = mpid) /\
  (forall src m, pmt_now o h = Some (src, m) -> src = mpid /\ listed h) /\
  (listed h -> begun h = false -> pfo_pre_streaming o = false -> pats h <> []).
Definition steady_packet (p : packet) : Prop := forall t, In t (p_tabs p stage) -> steady o mpid (p_pid p) (tb_body t).

Lemma latest_some : forall A B (f : A -> option B) l v, latest f l = Some v -> exists x, In x l /\ f x = Some v.
Proof.
  induction l as [|x l IH]; cbn; intros v E; [discriminate|]. destruct (f x) eqn:F.
  - exists x. split; auto. congruence.
  - destruct (IH v E) as [y [I1 I2]]. eauto.
Qed.
Lemma latest_none : forall A B (f : A -> option B) l x v, In x l -> f x = Some v -> latest f l <> None.
Proof.
  induction l as [|y l IH]; cbn; intros x v I E; [tauto|]. destruct (f y) eqn:F; [discriminate|].
  destruct I as [->|I]; [congruence|eauto].
Qed.

Lemma pmt_pid_calm : forall h, calm h -> listed h -> pmt_pid o h = mpid.
Proof.
  intros h [C1 _] [x [t [q [I L]]]]. unfold pmt_pid. destruct (latest (listing (pfo_sid o)) (tabs h)) as [[t' q']|] eqn:E.
  - destruct (latest_some _ _ _ _ _ E) as [y [Iy Ly]]. eauto.
  - exfalso. eapply latest_none; eauto.
Qed.

(** After the tables of a packet: as before, save that the PAT packet itself may
    still be missing among those kept. *)
Lemma calm_hear : forall h p ts, calm h -> delivered base_pids (pfo_sid o) stage (tabs h) p ts -> steady_packet p ->
  let g := hear h p ts in
  ~ bad_pat o p ts /\
  (forall x t q, In x (tabs g) -> listing (pfo_sid o) x = Some (t, q) -> q = mpid) /\
  (forall src m, pmt_now o g = Some (src, m) -> src = mpid /\ listed g) /\
  (listed g -> begun g = false -> pfo_pre_streaming o = false -> pats g <> [] \/ p_pid p = 0).
Proof.
  intros h p ts [C1 [C2 C3]] D St. cbv zeta.
  assert (St' : forall t, In t ts -> steady o mpid (p_pid p) (tb_body t)).
  { destruct D as [[_ ->]|[_ ->]]; [exact St|intros t []]. }
  assert (In_hear : forall x, In x (tabs (hear h p ts)) <-> (exists t, In t ts /\ x = (p_pid p, tb_body t)) \/ In x (tabs h)).
  { intros x. rewrite tabs_hear, in_app_iff, <- in_rev, in_map_iff. split; intros [[t [A B]]|A]; eauto. }
  assert (Mono : listed h -> listed (hear h p ts)).
  { intros [x [t [q [I L]]]]. exists x, t, q. split; auto. apply In_hear. auto. }
  split; [|split; [|split]].
  - intros [t [I M]]. destruct (St' t I) as [S1 _]. congruence.
  - intros x t q I L. apply In_hear in I as [[tb [I ->]]|I]; [|eauto]. destruct (St' tb I) as [_ [S2 _]]. eauto.
  - intros src m E. destruct (latest_some _ _ _ _ _ E) as [x [I F]]. fold (tabs (hear h p ts)) in I.
    apply In_hear in I as [[tb [I ->]]|I].
    + destruct (St' tb I) as [_ [_ S3]]. pose proof (S3 _ _ F) as Q.
      assert (src = p_pid p).
      { unfold service_pmt_from in F. destruct (tb_body tb) as [| |[m'|]| | | | |]; try discriminate. destruct (pmt_sid m' =? pfo_sid o); congruence. }
      split; [congruence|]. apply Mono. destruct D as [[Tu _]|[_ ->]]; [|destruct I].
      rewrite Q in Tu. destruct Tu as [[t L]|[[L _]|[_ [y [t [Iy Ly]]]]]].
      * destruct (latest_some _ _ _ _ _ L) as [y [Iy Ly]]. exists y, t, mpid. auto.
      * contradiction.
      * exists y, t, mpid. auto.
    + destruct (pmt_now o h) as [[src' m']|] eqn:E'; [|exfalso; eapply latest_none; [exact I|exact F|exact E']].
      destruct (C2 _ _ eq_refl) as [_ L]. split; [|auto].
      assert (X : forall l, (forall t, In t l -> steady o mpid (p_pid p) (tb_body t)) ->
        forall hh src m, latest (service_pmt_from o) (map (fun t => (p_pid p, tb_body t)) l ++ hh) = Some (src, m) ->
        src = mpid \/ latest (service_pmt_from o) hh = Some (src, m)).
      { induction l as [|t l IH]; intros Sl hh s0 m0 El; [auto|]. cbn [map app latest] in El.
        destruct (service_pmt_from o (p_pid p, tb_body t)) as [[s1 m1]|] eqn:Ft.
        - destruct (Sl t (or_introl eq_refl)) as [_ [_ S3]]. pose proof (S3 _ _ Ft). left.
          unfold service_pmt_from in Ft. destruct (tb_body t) as [| |[m2|]| | | | |]; try discriminate. destruct (pmt_sid m2 =? pfo_sid o); congruence.
        - apply IH; auto. intros t' I'. apply Sl. right. auto. }
      unfold pmt_now in E. rewrite tabs_hear, <- map_rev in E.
      destruct (X (rev ts) (fun t I' => St' t (proj2 (in_rev ts t) I')) _ _ _ E) as [|E2]; auto.
      unfold pmt_now in E'. rewrite E2 in E'. inversion E'; subst. apply (C2 src' m'). auto.
  - intros [x [t [q [I L]]]] B Np. rewrite begun_hear in B. rewrite pats_hear.
    apply In_hear in I as [[tb [I ->]]|I].
    + right. unfold listing, usable_pat in L. destruct (tb_body tb) as [[t'|]| | | | | | |]; try discriminate.
      destruct (Z.eqb_spec (p_pid p) 0); [auto|discriminate].
    + left. apply C3; auto. exists x, t, q. auto.
Qed.

Lemma calm_step : forall h p qs v h', calm h -> steady_packet p -> step h p qs v h' -> (v = Go -> calm h') /\ forall f, v <> Boom f.
Proof.
  intros h p qs v h' C St [ts [D X]]. destruct (calm_hear h p ts C D St) as [Nb [G1 [G2 G3]]].
  destruct X as [[Bp _]|[_ E]]; [tauto|]. set (g := hear h p ts) in *. clearbody g.
  assert (Ext : forall g', tabs g' = tabs g -> (begun g' = false -> begun g = false /\ (pats g' <> [] \/ pats g' = pats g /\ p_pid p <> 0)) -> calm g').
  { intros g' Et Eb. split; [rewrite Et; auto|]. split.
    - unfold pmt_now, listed. rewrite Et. apply G2.
    - intros L B Np. destruct (Eb B) as [B' [Q|[Q Q']]]; auto. rewrite Q. destruct (G3 ltac:(unfold listed in *; rewrite <- Et; exact L) B' Np); tauto. }
  assert (Same : (begun g = true \/ p_pid p <> 0) -> calm g).
  { intros Q. apply Ext; auto. intros B. split; auto. right. split; auto. destruct Q; congruence. }
  assert (Mp : forall src m, pmt_now o g = Some (src, m) -> src = pmt_pid o g).
  { intros src m E'. destruct (G2 _ _ E') as [-> L]. symmetry. destruct L as [x [t [q [I L]]]].
    unfold pmt_pid. destruct (latest (listing (pfo_sid o)) (tabs g)) as [[t' q']|] eqn:El.
    - destruct (latest_some _ _ _ _ _ El) as [y [Iy Ly]]. eauto.
    - exfalso. eapply latest_none; eauto. }
  unfold react in E. destruct (begun g) eqn:B.
  - assert (CB : forall g', tabs g' = tabs g -> begun g' = true -> calm g') by (intros g' T' B'; apply Ext; auto; congruence).
    assert (Pass : forall g', tabs g' = tabs g -> begun g' = true -> (qs, v, h') = pass npackets o g' p -> (v = Go -> calm h') /\ forall f, v <> Boom f).
    { intros g' T' B' Eg. unfold pass in Eg.
      assert (M' : pmt_now o g' = pmt_now o g) by (unfold pmt_now; rewrite T'; auto).
      assert (P' : pmt_pid o g' = pmt_pid o g) by (unfold pmt_pid; rewrite T'; auto). rewrite M', P' in Eg.
      destruct (pmt_now o g) as [[src m]|] eqn:Em; [|inversion Eg; subst; split; auto; discriminate].
      pose proof (Mp _ _ eq_refl) as Q.
      destruct (Z.eqb_spec (p_pid p) (pmt_pid o g)) as [Q2|Q2].
      - assert (Q3 : src = p_pid p) by congruence. rewrite Q3, Z.eqb_refl in Eg. inversion Eg; subst. split; [|discriminate]. intros _. apply CB; auto.
      - destruct (removed o m (p_pid p)); inversion Eg; subst; split; auto; discriminate. }
    unfold streaming in E. destruct (given_up o g); [inversion E; subst; split; auto; discriminate|].
    destruct (pmt_now o g) as [[src m]|]; [|inversion E; subst; split; auto; discriminate].
    destruct (p_pid p =? pmt_pcr_pid m); [|apply (Pass g); auto].
    destruct (p_pcr p) as [c|]; [|inversion E; subst; split; auto; discriminate].
    destruct (window o (Clk c :: g)) as [[ws we]|]; [|inversion E; subst; split; [intros _; apply CB; auto|discriminate]].
    destruct (reached c we); [inversion E; subst; split; [intros _; apply CB; auto|discriminate]|apply (Pass (Clk c :: g)); auto].
  - unfold waiting in E.
    destruct (given_up o g); [inversion E; subst h' qs v; split; discriminate|].
    destruct ((p_pid p =? 0) && pfo_pre_streaming o) eqn:Pp.
    { apply andb_prop in Pp as [_ P2]. inversion E; subst h' qs v. split; [|discriminate]. intros _.
      split; auto. split; auto. congruence. }
    set (h1 := if p_pid p =? 0 then PatPkt p :: g else g) in *.
    assert (K1 : tabs h1 = tabs g /\ begun h1 = false /\ (pats h1 <> [] \/ pats h1 = pats g /\ p_pid p <> 0)).
    { subst h1. destruct (Z.eqb_spec (p_pid p) 0); auto. split; auto. split; auto. left. cbn [pats].
      destruct (if p_pusi p then [] else pats g); discriminate. }
    destruct K1 as [K1 [K2 K3]].
    assert (CK : forall x, (forall a b, x <> Tab a b) -> (forall q, x <> PatPkt q) -> calm (x :: h1)).
    { intros x N1 N2. apply Ext; [destruct x; auto; exfalso; eapply N1; eauto|]. intros _. split; auto.
      replace (pats (x :: h1)) with (pats h1); auto. destruct x; auto. exfalso. eapply N2. eauto. }
    assert (C1 : calm h1) by (apply Ext; auto).
    destruct (event_now o g); [|inversion E; subst h' qs v; split; auto; discriminate].
    destruct (service_pcr o g p) as [c|] eqn:Es; [|inversion E; subst h' qs v; split; auto; discriminate].
    assert (C2 : calm (Clk c :: h1)) by (apply CK; discriminate).
    destruct (window o (Clk c :: h1)) as [[ws we]|]; [|inversion E; subst h' qs v; split; auto; discriminate].
    destruct (reached c we); [inversion E; subst h' qs v; split; auto; discriminate|].
    destruct (reached c ws); [|inversion E; subst h' qs v; split; auto; discriminate].
    unfold begin in E. change (pats (Clk c :: h1)) with (pats h1) in E.
    assert (M' : pmt_now o (Clk c :: h1) = pmt_now o g) by (unfold pmt_now; cbn [tabs]; rewrite K1; auto).
    assert (P' : pmt_pid o (Clk c :: h1) = pmt_pid o g) by (unfold pmt_pid; cbn [tabs]; rewrite K1; auto). rewrite M', P' in E.
    destruct (pmt_now o g) as [[src m]|] eqn:Em; [|inversion E; subst h' qs v; split; auto; discriminate].
    destruct (G2 _ _ eq_refl) as [_ L]. rewrite <- (Mp _ _ eq_refl), Z.eqb_refl in E.
    destruct (pfo_pre_streaming o) eqn:Pr; cbn [negb andb] in E.
    + inversion E; subst h' qs v. split; [|discriminate]. intros _. apply Ext; [exact K1|discriminate].
    + destruct (pats h1) as [|q0 r0] eqn:Ep.
      * exfalso. destruct K3 as [K3|[K3 K4]]; [congruence|]. destruct (G3 L eq_refl eq_refl); congruence.
      * inversion E; subst h' qs v. split; [|discriminate]. intros _. apply Ext; [exact K1|discriminate].
Qed.

Lemma steady_survives : forall k d ps out e h d', never_fails k -> Forall steady_packet ps ->
  trans step k [] d ps out e h d' -> forall f, e <> TransSpec.Crashed f.
Proof.
  intros k d ps out e h d' K F T. eapply (trans_no_boom step k calm steady_packet K); eauto using calm_step.
  split; [intros x t q []|]. split; [discriminate|]. intros [x [t [q [[] _]]]].
Qed.

End Steady.
(** ** C28: the clock after a reset *)
Lemma clock_since : forall x old, resets o x old = true -> forall new,
  (forall a y b, new = a ++ y :: b -> resets o y (b ++ x :: old) = false) ->
  exists pid pcr time, clock_now o (new ++ x :: old) = (pid, pcr, time) /\ paired new pcr time /\
    exists src t, x = Tab src (TPmt (Some t)) /\ pid = pmt_pcr_pid t.
Proof.
  intros x old R new. unfold resets in R.
  destruct x as [src [| |[t|]| | | | |]| | | |]; try discriminate.
  induction new as [|y new IH]; intros N.
  - cbn [app clock_now]. destruct (clock_now o old) as [[pid pcr] time]. cbn [fst] in R. rewrite R.
    exists (pmt_pcr_pid t), None, None. split; auto. split; [apply (P_wait []); auto|]. eauto.
  - destruct IH as [pid [pcr [time [E [Pr [src' [t' [Q1 Q2]]]]]]]].
    { intros a y0 b ->. apply (N (y :: a) y0 b). reflexivity. }
    specialize (N [] y new eq_refl). cbn [app clock_now] in *. rewrite E. unfold resets in N. rewrite E in N. cbn [fst] in N.
    assert (X : forall pcr2 time2, paired (y :: new) pcr2 time2 ->
       exists pid0 pcr0 time0, (pid, pcr2, time2) = (pid0, pcr0, time0) /\ paired (y :: new) pcr0 time0 /\
         exists src0 t0, Tab src (TPmt (Some t)) = Tab src0 (TPmt (Some t0)) /\ pid0 = pmt_pcr_pid t0).
    { intros. exists pid, pcr2, time2. eauto 6. }
    clear Q1 Q2.
    assert (Mute : is_tot y = false -> clks (y :: new) = clks new -> paired (y :: new) pcr time).
    { intros M1 M2. inversion Pr as [H0 H1 H2|b pd tt a H0 H1 H2 H3]; subst.
      - rewrite <- M2. apply P_wait. cbn. rewrite M1. auto.
      - assert (M3 : clks (y :: b) = clks b) by (destruct y; auto; cbn in M2; exfalso; apply (f_equal (@List.length Z)) in M2; cbn in M2; lia).
        rewrite <- M3. apply (P_set _ (y :: b) pd tt a); auto. }
    destruct y as [ps b|v|q| |]; try (apply X, Mute; reflexivity).
    + destruct b as [bt|bt|bt|bt|[tt|]|bt|bt|]; try (apply X, Mute; reflexivity).
      * destruct bt as [m|]; [|apply X, Mute; reflexivity]. rewrite N. apply X, Mute; reflexivity.
      * apply X. inversion Pr as [H0 H1 H2|b pd tt' a H0 H1 H2 H3]; subst.
        -- replace (hd_error (clks new)) with (match clks new with v :: _ => Some v | [] => hd_error (rev (clks [])) end) by (destruct (clks new); auto).
           apply (P_set _ [] ps tt new); auto.
        -- apply (P_set _ (Tab ps (TTot (Some tt)) :: b) pd tt' a); auto.
    + inversion Pr as [H0 H1 H2|b pd tt a H0 H1 H2 H3]; subst.
      * assert (Y : exists pid0 pcr0 time0, (pid, Some v, @None Z) = (pid0, pcr0, time0) /\ paired (Clk v :: new) pcr0 time0 /\
         exists src0 t0, Tab src (TPmt (Some t)) = Tab src0 (TPmt (Some t0)) /\ pid0 = pmt_pcr_pid t0).
        { apply X. apply (P_wait (Clk v :: new)). auto. }
        destruct (hd_error (clks new)); exact Y.
      * destruct (clks a) as [|v1 r] eqn:Ea.
        -- destruct (rev (clks b)) as [|v2 r2] eqn:Eb; cbn [hd_error]; apply X.
           ++ replace (Some v) with (match clks a with v :: _ => Some v | [] => hd_error (rev (clks (Clk v :: b))) end)
                by (rewrite Ea; cbn [clks rev]; rewrite Eb; auto).
              apply (P_set _ (Clk v :: b) pd tt a); auto.
           ++ replace (Some v2) with (match clks a with v :: _ => Some v | [] => hd_error (rev (clks (Clk v :: b))) end)
                by (rewrite Ea; cbn [clks rev]; rewrite Eb; auto).
              apply (P_set _ (Clk v :: b) pd tt a); auto.
        -- apply X. replace (Some v1) with (match clks a with v :: _ => Some v | [] => hd_error (rev (clks (Clk v :: b))) end) by (rewrite Ea; auto).
           apply (P_set _ (Clk v :: b) pd tt a); auto.
Qed.

End Main.

(** ** C27: the PMT output *)
Lemma mfind_nodup : forall V (l : list (Z * V)) k v, NoDup (map fst l) -> (mfind k l = Some v <-> In (k, v) l).
Proof.
  induction l as [|[k' v'] l IH]; intros k v N; cbn.
  - split; [discriminate|tauto].
  - inversion N as [|? ? N1 N2]; subst. destruct (Z.eqb_spec k k') as [<-|Q].
    + split; [intros E; injection E as ->; auto|]. intros [E|E]; [congruence|]. exfalso. apply N1. apply in_map_iff. exists (k, v). auto.
    + rewrite IH by auto. split; auto. intros [E|E]; [congruence|auto].
Qed.

Lemma msorted_fst : forall V (m : list (Z * V)) lo k, msorted lo m -> In k (map fst m) -> lo < k.
Proof. induction m as [|[k' v] m IH]; cbn; intros lo k H I; [tauto|]. destruct H as [H1 H2]. destruct I as [->|I]; auto. specialize (IH _ _ H2 I). lia. Qed.
Lemma msorted_nodup : forall V (m : list (Z * V)) lo, msorted lo m -> NoDup (map fst m).
Proof. induction m as [|[k v] m IH]; cbn; intros lo H; constructor; destruct H as [H1 H2]; eauto. intros I. apply (msorted_fst _ _ _ _ H2) in I. lia. Qed.

Lemma nodup_filter_fst : forall V (f : Z * V -> bool) m, NoDup (map fst m) -> NoDup (map fst (filter f m)).
Proof.
  induction m as [|x m IH]; intros N; cbn; auto. inversion N; subst. destruct (f x); cbn; auto. constructor; auto.
  intros I. apply in_map_iff in I as [y [E I]]. apply filter_In in I as [I _]. apply H1. apply in_map_iff. eauto.
Qed.

Lemma In_map_of_nodup : forall V (l : list (Z * V)) k v, NoDup (map fst l) -> (In (k, v) (map_of l) <-> In (k, v) l).
Proof.
  intros V l k v N. rewrite In_map_of_mfind, mfind_map_of, mfind_nodup.
  - symmetry. apply in_rev.
  - rewrite map_rev. apply NoDup_rev, N.
Qed.

Lemma tagged_iff : forall tags e, tagged tags e = true <-> exists t, es_tag e = Some t /\ In t tags.
Proof.
  intros tags e. unfold tagged. destruct (es_tag e) as [t|].
  - rewrite existsb_exists. split.
    + intros [x [I Q]]. apply Z.eqb_eq in Q. subst. eauto.
    + intros [x [Q I]]. injection Q as <-. exists t. split; auto. apply Z.eqb_refl.
  - split; [discriminate|]. intros [t [Q _]]. discriminate.
Qed.

Lemma asked_iff : forall tags, asked tags = true <-> tags <> [].
Proof. destruct tags; cbn; split; congruence. Qed.

Lemma unwanted_iff : forall o e, unwanted o e = true <-> excluded o e.
Proof.
  intros o e. unfold unwanted, excluded. rewrite <- !asked_iff, <- !tagged_iff.
  destruct (es_video e), (es_audio e), (asked (pfo_video_tags o)), (asked (pfo_audio_tags o)), (tagged (pfo_video_tags o) e), (tagged (pfo_audio_tags o) e);
    cbn; intuition congruence.
Qed.

Lemma removed_iff : forall o m pid, removed o m pid = true <-> exists e, In (pid, e) (pmt_streams m) /\ excluded o e.
Proof.
  intros o m pid. unfold removed. rewrite existsb_exists. split.
  - intros [[q e] [I E]]. cbn [fst snd] in E. apply andb_prop in E as [E1 E2]. apply Z.eqb_eq in E1. subst.
    exists e. rewrite <- unwanted_iff. auto.
  - intros [e [I E]]. exists (pid, e). split; auto. cbn [fst snd]. rewrite Z.eqb_refl. apply unwanted_iff, E.
Qed.

Lemma reduced_spec : forall o m, let r := reduced o m in
  pmt_sid r = pmt_sid m /\ pmt_version r = pmt_version m /\ pmt_pcr_pid r = pmt_pcr_pid m /\ pmt_ca_pids r = pmt_ca_pids m /\
  forall pid e, In (pid, e) (pmt_streams r) <-> In (pid, e) (pmt_streams m) /\ ~ excluded o e.
Proof.
  intros o m. cbv zeta. unfold reduced. destruct (existsb _ (pmt_streams m)) eqn:E.
  - do 4 (split; [reflexivity|]). intros pid e. unfold pmt_streams at 1. cbn [pmt_entries].
    rewrite In_map_of_nodup.
    + rewrite filter_In. cbn [snd]. rewrite <- unwanted_iff. destruct (unwanted o e); cbn; intuition congruence.
    + apply nodup_filter_fst. destruct (is_map_msorted _ _ (map_of_is_map _ (pmt_entries m))) as [lo Q]. eapply msorted_nodup; eauto.
  - do 4 (split; [reflexivity|]). intros pid e. split; [|tauto]. intros I. split; auto. rewrite <- unwanted_iff. intros U.
    assert (existsb (fun x => unwanted o (snd x)) (pmt_streams m) = true) by (apply existsb_exists; exists (pid, e); auto). congruence.
Qed.

(** ** C29: the program survives *)
Lemma program_survives : forall npackets o stage mpid k ps n d, (forall m, (1 <= npackets m)%nat) -> sane_option o -> ~ In mpid base_pids ->
  never_fails k -> (List.length ps < n)%nat -> Forall (sane_packet stage) ps ->
  (forall p t, In p ps -> In t (p_tabs p stage) -> steady o mpid (p_pid p) (tb_body t)) ->
  exists code s, FeedPackets (list_source packet) (program_filter npackets o k stage) n ps (pf_init o, d) = Some (Ok (code, s)).
Proof.
  intros npackets o stage mpid k ps n d Np So M K Hn Sp St.
  pose proof K as [K1 [K2 [K3 K4]]].
  destruct (K1 d) as [[d1 b] Es]. destruct b.
  - destruct (program_refines npackets o stage Np So k ps n d d1 Sp Hn Es) as [out [e [h [d2 [T E]]]]].
    assert (N : forall f, e <> TransSpec.Crashed f).
    { assert (F : Forall (steady_packet o stage mpid) ps) by (apply Forall_forall; intros p I t It; eauto).
      exact (steady_survives npackets o stage mpid M k d1 ps out e h d2 K F T). }
    cbv zeta in E. destruct (K3 d2) as [d3 Ed]. rewrite Ed in E.
    destruct e; try (exfalso; eapply N; reflexivity);
      (destruct (given_up o h && negb (begun h)); [destruct E as [s E]; eauto|];
       destruct (K4 d3) as [c Ec]; rewrite Ec in E; destruct E as [s E]; eauto).
  - unfold FeedPackets. cbn [sk_start program_filter snd fst]. rewrite Es. cbn [bind].
    eauto.
Qed.
