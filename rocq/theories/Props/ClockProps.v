(** C04, C05, C06, C57: the stream clock. *)
From Coq Require Import ZArith Lia List Bool.
From Verif Require Import Base.Outcome Base.Util Model.Pcr Model.Clock Spec.PcrSpec Spec.ClockSpec Proofs.ClockProofs Proofs.ClockExact.
Import ListNotations.
Open Scope Z_scope.

(** C04 in full has no bound on the time since the last TOT.  What holds: after any history, a PID change and a first PCR, along every
    stream of genuine PCRs (steps below a second), TOTs and up to four glitches
    in a row, the clock is ready and the time is the last TOT plus the elapsed
    ticks in whole milliseconds, up to the second wrap since that TOT. *)
Theorem C04_clock_tracks_partial : forall h pid x0 items t xr local,
  Forall valid_op h -> admissible x0 false 4 items ->
  last_tot x0 items None = Some (t, xr) ->
  pcr_at xr + (ticks_after x0 items - xr) < 2 * pcr_cycle ->
  int64_min <= t <= 2 ^ 62 ->
  exists c, ck_run clock_init (h ++ OpSetPid pid :: OpPcr (pcr_at x0) :: ops_of x0 items) = Ok c /\
    ck_IsReady c = true /\ ck_Now c local = Ok (t + (ticks_after x0 items - xr) / ticks_per_ms).
Proof. exact tracks. Qed.
Print Assumptions C04_clock_tracks_partial.

(** The exact rule: from the second wrap since the last TOT on, each wrap makes the
    clock lose one cycle (26.5 hours). *)
Theorem C04_exact : forall h pid x0 items t xr local,
  Forall valid_op h -> admissible x0 false 4 items ->
  last_tot x0 items None = Some (t, xr) ->
  int64_min <= t <= 2 ^ 62 ->
  let elapsed := ticks_after x0 items - xr in
  let wraps := (pcr_at xr + elapsed) / pcr_cycle in
  exists c, ck_run clock_init (h ++ OpSetPid pid :: OpPcr (pcr_at x0) :: ops_of x0 items) = Ok c /\
    ck_IsReady c = true /\ ck_Now c local = Ok (t + (elapsed - pcr_cycle * Z.max 0 (wraps - 1)) / ticks_per_ms).
Proof. exact tracks_exact. Qed.
Print Assumptions C04_exact.

(** Without a bound C04 is false: after two wraps (26.5 to 53 hours without a
    TOT) the clock is a whole cycle behind.  The witness feeds a TOT and then
    190,900 PCRs one tick less than a second apart, just past the second wrap. *)
Lemma ticks_repeat : forall n x d, ticks_after x (repeat (Tick d) n) = x + Z.of_nat n * d.
Proof. induction n as [|n IH]; intros x d; cbn [repeat ticks_after]; [lia|]. rewrite IH. lia. Qed.
Lemma tot_repeat : forall n x d a, last_tot x (repeat (Tick d) n) a = a.
Proof. induction n as [|n IH]; intros x d a; [reflexivity|]. cbn [repeat last_tot]. apply IH. Qed.
Lemma admissible_repeat : forall n x d s k, 0 <= d < ticks_per_s -> admissible x s k (repeat (Tick d) n).
Proof. induction n as [|n IH]; intros x d s k D; cbn [repeat admissible]; auto. Qed.

Lemma many_ticks : forall n, Z.of_nat n = 190900 -> let items := Tot 0 0 :: repeat (Tick 26999999) n in
  admissible 0 false 4 items /\ last_tot 0 items None = Some (0, 0) /\ ticks_after 0 items = 5154299809100 /\
  now_after (OpSetPid 0x100 :: OpPcr (pcr_at 0) :: ops_of 0 items) 0 = Some 95456275.
Proof.
  intros n Hn items.
  assert (A : admissible 0 false 4 items) by (unfold items; cbn [admissible]; apply admissible_repeat; vm_compute; split; congruence).
  assert (B : last_tot 0 items None = Some (0, 0)) by (unfold items; cbn [last_tot]; apply tot_repeat).
  assert (T : ticks_after 0 items = 5154299809100) by (unfold items; cbn [ticks_after]; rewrite ticks_repeat, Hn; reflexivity).
  clearbody items. split; [exact A|]. split; [exact B|]. split; [exact T|].
  pose proof (C04_exact [] 0x100 0 items 0 0 0 (Forall_nil _) A B ltac:(vm_compute; split; congruence)) as E. cbv zeta in E. rewrite T in E.
  destruct E as [c [R [_ N]]]. unfold now_after. cbn [app] in R. rewrite R, N. reflexivity.
Qed.

Theorem C04_clock_tracks_refuted : exists items t,
  admissible 0 false 4 items /\ last_tot 0 items None = Some (0, 0) /\
  now_after (OpSetPid 0x100 :: OpPcr (pcr_at 0) :: ops_of 0 items) 0 = Some t /\ t <> ticks_after 0 items / ticks_per_ms.
Proof.
  destruct (many_ticks (Z.to_nat 190900) (Z2Nat.id 190900 ltac:(lia))) as [A [B [T N]]]. exists (Tot 0 0 :: repeat (Tick 26999999) (Z.to_nat 190900)), 95456275.
  split; [exact A|]. split; [exact B|]. split; [exact N|]. rewrite T. vm_compute. discriminate.
Qed.
Print Assumptions C04_clock_tracks_refuted.

(** Across a wrap, with a glitch. *)
Example C04_case : let items := [Tot 7000 0; Tick 100; Glitch 500000000; Tick 27000] in
  admissible 2576980377590 false 4 items /\ last_tot 2576980377590 items None = Some (7000, 2576980377590) /\
  pcr_at 2576980377590 + (ticks_after 2576980377590 items - 2576980377590) < 2 * pcr_cycle /\
  now_after (OpSetPid 0x100 :: OpPcr (pcr_at 2576980377590) :: ops_of 2576980377590 items) 0 = Some 7001.
Proof. vm_compute. repeat split; auto; discriminate. Qed.

(** C05: four consecutive glitches are tolerated after a genuine PCR (part of
    [admissible] in C04); the fifth one makes the clock not ready. *)
Theorem C05_fifth_glitch : forall h pid x0 items t xr d gs,
  Forall valid_op h -> admissible x0 false 4 items ->
  last_tot x0 items None = Some (t, xr) ->
  0 <= d < ticks_per_s -> List.length gs = 5%nat ->
  Forall (fun p => 0 <= p < pcr_cycle /\ ticks_per_s <= pcr_ahead (pcr_at (ticks_after x0 items + d)) p) gs ->
  exists c, ck_run clock_init (h ++ OpSetPid pid :: OpPcr (pcr_at x0) ::
      ops_of x0 items ++ OpPcr (pcr_at (ticks_after x0 items + d)) :: map OpPcr gs) = Ok c /\
    ck_IsReady c = false.
Proof. exact fifth_glitch. Qed.
Print Assumptions C05_fifth_glitch.

(** After a loss, only a fresh PCR and a fresh TOT make it ready again. *)
Theorem C05_fresh_pcr_and_tot_needed : forall h pcr more,
  Forall valid_op (h ++ OpPcr pcr :: more) ->
  ready_after h = true -> ready_after (h ++ [OpPcr pcr]) = false ->
  ready_after (h ++ OpPcr pcr :: more) = true ->
  (exists p, In (OpPcr p) more) /\ (exists time local, In (OpTime time local) more).
Proof. exact fresh_needed. Qed.
Print Assumptions C05_fresh_pcr_and_tot_needed.

(** C05 in full says that four glitches are tolerated by every ready clock.
    That is false: the glitch counter survives a loss of synchronisation, so a
    clock that has just become ready again is lost on a single glitch. *)
Definition lost_and_back : list clock_op :=
  [OpPcr 0; OpTime 0 0] ++ map OpPcr (repeat 100000000 5) ++ [OpPcr 0; OpTime 0 0].

Theorem C05_four_glitches_refuted : exists h glitch,
  Forall valid_op (h ++ [OpPcr glitch]) /\
  ready_after h = true /\ (exists h', h = h' ++ [OpPcr 0; OpTime 0 0]) /\
  ready_after (h ++ [OpPcr glitch]) = false.
Proof.
  exists lost_and_back, 100000000. split; [unfold lost_and_back; cbn [app map repeat]; repeat (apply Forall_cons || apply Forall_nil); (exact I || (vm_compute; split; congruence))|].
  split; [vm_compute; reflexivity|]. split; [|vm_compute; reflexivity].
  exists ([OpPcr 0; OpTime 0 0] ++ map OpPcr (repeat 100000000 5)). reflexivity.
Qed.
Print Assumptions C05_four_glitches_refuted.

(** The exact rule: a ready clock is lost exactly on a glitch whose number since
    the latest genuine PCR of a ready clock is above four (modulo 256); other
    glitches do not change the time. *)
Theorem C05_exact : forall h p l n, Forall valid_op (h ++ [OpPcr p]) -> burst h l n -> ready_after h = true ->
  (ready_after (h ++ [OpPcr p]) = false <-> ticks_per_s <= pcr_ahead l p /\ 4 < (n + 1) mod 256) /\
  (ticks_per_s <= pcr_ahead l p -> (n + 1) mod 256 <= 4 -> forall local, now_after (h ++ [OpPcr p]) local = now_after h local).
Proof. exact glitch_exact. Qed.
Print Assumptions C05_exact.
(** Every history has a number of glitches, and one only. *)
Theorem C05_burst : forall h, (exists l n, burst h l n) /\ (forall l n l' n', burst h l n -> burst h l' n' -> l' = l /\ n' = n).
Proof. intros h. split; [apply burst_total|]. intros l n l' n' B. exact (burst_unique h l n B l' n'). Qed.
Print Assumptions C05_burst.

Example C05_case_exact : burst lost_and_back 0 5 /\ ready_after lost_and_back = true /\ Forall valid_op (lost_and_back ++ [OpPcr 100000000]).
Proof.
  split; [|split; [vm_compute; reflexivity|repeat (apply Forall_cons || apply Forall_nil); (exact I || (vm_compute; split; congruence))]].
  assert (B0 : burst [OpPcr 0; OpTime 0 0] 0 0).
  { apply (burst_tot [OpPcr 0]). apply (burst_start [] 0 0 0); [constructor|reflexivity]. }
  assert (B5 : burst ([OpPcr 0; OpTime 0 0] ++ map OpPcr (repeat 100000000 5)) 0 5).
  { cbn [repeat map app].
    apply (burst_glitch [OpPcr 0; OpTime 0 0; OpPcr 100000000; OpPcr 100000000; OpPcr 100000000; OpPcr 100000000] 0 4); [|vm_compute; reflexivity|vm_compute; congruence].
    apply (burst_glitch [OpPcr 0; OpTime 0 0; OpPcr 100000000; OpPcr 100000000; OpPcr 100000000] 0 3); [|vm_compute; reflexivity|vm_compute; congruence].
    apply (burst_glitch [OpPcr 0; OpTime 0 0; OpPcr 100000000; OpPcr 100000000] 0 2); [|vm_compute; reflexivity|vm_compute; congruence].
    apply (burst_glitch [OpPcr 0; OpTime 0 0; OpPcr 100000000] 0 1); [|vm_compute; reflexivity|vm_compute; congruence].
    apply (burst_glitch [OpPcr 0; OpTime 0 0] 0 0); [exact B0|vm_compute; reflexivity|vm_compute; congruence]. }
  unfold lost_and_back. rewrite app_assoc.
  apply (burst_tot (([OpPcr 0; OpTime 0 0] ++ map OpPcr (repeat 100000000 5)) ++ [OpPcr 0])).
  eapply burst_start; [exact B5|vm_compute; reflexivity].
Qed.

Example C05_case : 
  admissible 0 false 4 (Tot 7000 0 :: Tick 100 :: Glitch 500000000 :: Glitch 500000000 :: Tick 27000 :: Glitch 700000000 :: Glitch 700000000 :: Glitch 700000000 :: Glitch 700000000 :: []) /\
  Forall (fun p => 0 <= p < pcr_cycle /\ ticks_per_s <= pcr_ahead (pcr_at 27101) p) [900000000; 0; 5; 900000000; 27100].
Proof. split; [vm_compute; repeat split; auto; discriminate|]. repeat (apply Forall_cons || apply Forall_nil); vm_compute; repeat split; congruence. Qed.

(** C06: ready exactly when a PCR and a TOT were seen since the last PID change
    or loss; no operation with a valid PCR fails an assertion. *)
Theorem C06_readiness : forall h, Forall valid_op h ->
  exists c p t, ck_run clock_init h = Ok c /\ seen h p t /\ ck_IsReady c = p && t.
Proof.
  exact (fun h H => match readiness h H with
    | ex_intro _ c (ex_intro _ p (ex_intro _ t (conj A (conj _ (conj B (conj _ (conj _ C))))))) =>
        ex_intro _ c (ex_intro _ p (ex_intro _ t (conj A (conj B C)))) end).
Qed.
Print Assumptions C06_readiness.

Theorem C06_seen_unique : forall h p t, seen h p t -> forall p' t', seen h p' t' -> p' = p /\ t' = t.
Proof. exact seen_fun. Qed.
Print Assumptions C06_seen_unique.

Example C06_case : ready_after [OpPcr 3; OpTime 5 5] = true /\ ready_after [OpPcr 3; OpTime 5 5; OpSetPid 7] = false
  /\ ready_after [OpTime 5 5; OpSetPid 7; OpPcr 3] = false.
Proof. vm_compute. auto. Qed.

(** C57: while not ready, the time follows the wall clock since the last TOT. *)
Theorem C57_wall_clock : forall h1 T l h2 local,
  Forall valid_op (h1 ++ OpTime T l :: h2) ->
  forallb (fun op => negb (is_time op)) h2 = true ->
  - 2 ^ 61 <= T <= 2 ^ 61 -> - 2 ^ 61 <= l <= 2 ^ 61 -> - 2 ^ 61 <= local <= 2 ^ 61 ->
  exists c, ck_run clock_init (h1 ++ OpTime T l :: h2) = Ok c /\
    (ck_IsReady c = false -> ck_Now c local = Ok (T + (local - l))).
Proof. exact wall_clock. Qed.
Print Assumptions C57_wall_clock.

(** C57: before the first TOT the time is the wall clock itself. *)
Theorem C57_before_tot : forall h local, Forall valid_op h ->
  forallb (fun op => negb (is_time op)) h = true -> - 2 ^ 61 <= local <= 2 ^ 61 ->
  exists c, ck_run clock_init h = Ok c /\ ck_IsReady c = false /\ ck_Now c local = Ok local.
Proof. exact before_tot. Qed.
Print Assumptions C57_before_tot.

Example C57_before_tot_case : now_after [OpSetPid 3; OpPcr 900; OpPcr 1800] 80 = Some 80 /\
  ready_after [OpSetPid 3; OpPcr 900; OpPcr 1800] = false.
Proof. vm_compute. auto. Qed.

Example C57_case : now_after [OpTime 1000 50; OpSetPid 3] 80 = Some 1030 /\
  ready_after [OpTime 1000 50; OpSetPid 3] = false.
Proof. vm_compute. auto. Qed.
