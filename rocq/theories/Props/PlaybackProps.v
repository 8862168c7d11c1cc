(** C104: a program can be read back from the file of record-service. *)
From Coq Require Import ZArith Lia List Bool Sorted.
From Verif Require Import Base.Outcome Base.Util Model.Clock Model.Sink Model.Ts Model.RingFileSink Model.ServiceRecorder
  Spec.ClockSpec Spec.StdoutSpec Spec.FilterSpec Spec.TuneSpec Spec.FileSpec Spec.RecorderSpec Spec.JournalSpec Spec.ScheduleSpec
  Proofs.RecorderMain Proofs.TuneProofs Proofs.ScheduleProofs Proofs.PlaybackProofs Props.RecorderProps Props.ScheduleProps.
From Verif Require Spec.ReadSpec Proofs.ReadProofs Props.ReadProps.
Import ListNotations.
Open Scope Z_scope.

Definition received_in (lo hi : Z) (x : packet * moment) : bool := (lo <=? snd (snd x)) && (snd (snd x) <? hi).

Lemma program_file : forall o local bytes stage ops ps s, runs o local bytes stage ops ps 0 s -> (forall p, zlen (bytes p) = 188) ->
  let cs := rco_chunk_size o in let ring := cs * rco_num_chunks o in
  forall id at_ i j t now log, schedule id at_ ->
  begins (rco_sid o) stage local cs [] 0 [] ps t now log ->
  names id at_ i t -> now < at_ (S i) -> announced id at_ i log j -> Sorted Z.le (map snd log) ->
  (forall m t now, In (Some t, now) log -> names id at_ m t -> at_ m <= now) ->
  forall m, (i < m <= j)%nat ->
  let before time := zlen (filter (fun x : moment => snd x <? time) log) in
  let n1 := before (at_ m) in let n2 := before (at_ (S m)) in
  n1 < n2 < zlen log ->
  let p1 := (rco_start_pos o + 188 * n1) mod ring in let p2 := (rco_start_pos o + 188 * n2) mod ring in
  exists r t1 t2, record (rco_sid o) stage local [] [] ps (Some r) /\ zlen r = zlen log /\
    In (KStart, id m, t1, p1) (marks (messages (rc_trace s))) /\ In (KEnd, id m, t2, p2) (marks (messages (rc_trace s))) /\
    forall f0, f_pos f0 = 0 -> forall tr1 tr2 disk, rc_trace s = tr1 ++ tr2 -> after_crash (replay f0 (ring_calls tr1)) disk ->
    let k := ReadSpec.chunks (messages tr1) in
    188 * n2 <= cs * (k - 1) -> cs * k - ring <= 188 * n1 ->
    ReadSpec.slice disk ring p1 ((p2 - p1) mod ring) =
      concat (map bytes (map fst (filter (received_in (at_ m) (at_ (S m))) (combine r log)))).
Proof.
  intros o local bytes stage ops ps s R L cs ring id at_ i j t now log Sc B N Lt A So Nt m Hm before n1 n2 Hn p1 p2.
  destruct (schedule_run _ _ _ _ _ _ _ R L id at_ i j t now log Sc B N Lt A So) as (l & M & Re).
  destruct (begins_record _ _ _ _ _ _ _ _ _ _ _ B eq_refl) as (r & Rc & Lr).
  destruct (reported_start _ _ _ _ _ _ _ _ Re m Hm) as (t1 & q1 & E1 & I1).
  assert (Late : exists x, In x log /\ at_ (S m) <= snd x).
  { destruct (filter (fun x : moment => negb (snd x <? at_ (S m))) log) as [|x f] eqn:E.
    - exfalso. assert (F : filter (fun x : moment => snd x <? at_ (S m)) log = log).
      { apply filter_all. intros x X. destruct (snd x <? at_ (S m)) eqn:Q; [reflexivity|].
        assert (In x []); [|contradiction]. rewrite <- E. apply filter_In. rewrite Q. auto. }
      unfold n2, before in Hn. rewrite F in Hn. lia.
    - exists x. assert (X : In x (x :: f)) by (left; reflexivity). rewrite <- E in X. apply filter_In in X as [X Y]. split; [exact X|].
      apply negb_true_iff, Z.ltb_ge in Y. exact Y. }
  destruct (reported_end _ _ _ _ _ _ _ _ Re m ltac:(lia) Late) as (t2 & q2 & E2 & I2).
  destruct (edge_on_time _ _ _ _ _ _ _ _ So (Nt m) E1) as (Q1 & _). destruct (edge_on_time _ _ _ _ _ _ _ _ So (Nt (S m)) E2) as (Q2 & _).
  fold cs in Q1, Q2. fold ring in Q1, Q2. fold n1 in Q1. fold n2 in Q2. change (q1 = p1) in Q1. change (q2 = p2) in Q2. subst q1 q2.
  exists r, (stamp t1), (stamp t2). split; [exact Rc|]. split; [exact Lr|].
  split; [rewrite M; right; exact I1|]. split; [rewrite M; right; exact I2|].
  intros f0 F0 tr1 tr2 disk E Cr k Hk Hw.
  assert (P1 : 0 <= n1) by (unfold n1, before; apply zlen_nonneg).
  assert (G : valid_geometry cs (rco_num_chunks o) (rco_start_pos o)) by apply R. destruct G as (G1 & G2 & G3 & G4 & G5).
  assert (K2 : 2 <= k). { destruct (Z.lt_ge_cases k 2); [exfalso|auto]. assert (cs * (k - 1) <= 0) by (apply Z.mul_nonneg_nonpos; lia). lia. }
  destruct (ReadProps.C69_window _ _ _ _ _ _ _ _ R f0 F0 tr1 tr2 disk E Cr K2) as (r' & Rc' & W).
  assert (Er : Some r' = Some r) by (eapply record_det; [exact Rc'|exact Rc]). injection Er as ->. clear Rc'.
  assert (D : (p2 - p1) mod ring = 188 * (n2 - n1)).
  { unfold p1, p2. rewrite <- Zminus_mod. replace (rco_start_pos o + 188 * n2 - (rco_start_pos o + 188 * n1)) with (188 * (n2 - n1)) by lia.
    apply Z.mod_small. clear - Hk Hw Hn G1 K2. unfold ring in *. nia. }
  rewrite D. destruct (ReadProps.read_slice o bytes L r n1 n2 disk p1 ring _ _ ltac:(lia) eq_refl Hk Hw W) as [_ X].
  rewrite X. f_equal. f_equal. apply (sorted_cut r log (at_ m) (at_ (S m)) Lr So). destruct (Sc m). lia.
Qed.
(** In a recording on schedule, with no program announced before it starts: let [n1]
    packets have been received before the program [m] starts, [n2] before it ends.
    The messages name the positions of both in the file; and at any moment, also after
    a crash, once the chunk with the end is complete and as long as the ring has not
    come round to the start, the file holds between these positions the packets
    received while the program was on air: all of them and no others. *)
Theorem C104_program : forall o local bytes stage ops ps s, runs o local bytes stage ops ps 0 s -> (forall p, zlen (bytes p) = 188) ->
  let cs := rco_chunk_size o in let ring := cs * rco_num_chunks o in
  forall id at_ i j t now log, schedule id at_ ->
  begins (rco_sid o) stage local cs [] 0 [] ps t now log ->
  names id at_ i t -> now < at_ (S i) -> announced id at_ i log j -> Sorted Z.le (map snd log) ->
  (forall m t now, In (Some t, now) log -> names id at_ m t -> at_ m <= now) ->
  forall m, (i < m <= j)%nat ->
  let before time := zlen (filter (fun x : moment => snd x <? time) log) in
  let n1 := before (at_ m) in let n2 := before (at_ (S m)) in
  n1 < n2 < zlen log ->
  let p1 := (rco_start_pos o + 188 * n1) mod ring in let p2 := (rco_start_pos o + 188 * n2) mod ring in
  exists r t1 t2, record (rco_sid o) stage local [] [] ps (Some r) /\ zlen r = zlen log /\
    In (KStart, id m, t1, p1) (marks (messages (rc_trace s))) /\ In (KEnd, id m, t2, p2) (marks (messages (rc_trace s))) /\
    forall f0, f_pos f0 = 0 -> forall tr1 tr2 disk, rc_trace s = tr1 ++ tr2 -> after_crash (replay f0 (ring_calls tr1)) disk ->
    let k := ReadSpec.chunks (messages tr1) in
    188 * n2 <= cs * (k - 1) -> cs * k - ring <= 188 * n1 ->
    ReadSpec.slice disk ring p1 ((p2 - p1) mod ring) =
      concat (map bytes (map fst (filter (received_in (at_ m) (at_ (S m))) (combine r log)))).
Proof. exact program_file. Qed.
Print Assumptions C104_program.

(** Programs of two seconds as in C103, each announced late; the second one is complete
    in the file as soon as a chunk is. *)
Definition play_stream : list packet :=
  [ rpkt 0 None [TPat (Some rpat)]; rpkt 0x1F0 None [TPmt (Some rpmt)]; pcr_at 0; rpkt 0x14 None [TTot (Some T0)]; eit_of 0;
    pcr_at 900; pcr_at 1800; pcr_at 2700; eit_of 1; pcr_at 3600; pcr_at 4500; eit_of 2 ] ++ repeat (rpkt 0x101 None []) 40.
Definition play_log : list moment :=
  [ (None, T0 + 900); (None, T0 + 1800); (None, T0 + 2700); (Some (eit2 1), T0 + 2700); (None, T0 + 3600); (None, T0 + 4500);
    (Some (eit2 2), T0 + 4500) ] ++ repeat (None, T0 + 4500) 40.
(** Packets that can be told apart. *)
Definition pbytes (p : packet) : list Z := repeat (match p_pcr p with Some v => v / 2700000 | None => p_pid p mod 256 end) 188.

Example C104_case : exists s, runs ropt (fun _ => 0) pbytes 0 [] play_stream 0 s /\
  marks (messages (rc_trace s)) =
    [ (KStart, 1, stamp T0, 8192);
      (KEnd, 1, stamp (T0 + 2000), 8192 + 188 * 2); (KStart, 2, stamp (T0 + 2000), 8192 + 188 * 2);
      (KEnd, 2, stamp (T0 + 4000), 8192 + 188 * 5); (KStart, 3, stamp (T0 + 4000), 8192 + 188 * 5) ] /\
  ReadSpec.slice (f_synced (replay (mkFile (fun _ => 0) 0 0 (fun _ => 0) (fun _ => false)) (ring_calls (rc_trace s)))) 16384 (8192 + 188 * 2) (188 * 3) =
    repeat 27 188 ++ repeat 0x12 188 ++ repeat 36 188.
Proof.
  eexists. split.
  - split; [unfold valid_geometry; cbn; lia|]. exists 200%nat. eexists. split; [reflexivity|]. vm_compute. reflexivity.
  - split; vm_compute; reflexivity.
Qed.

Example C104_case_conditions :
  schedule id1 at2 /\ begins 101 0 (fun _ => 0) 8192 [] 0 [] play_stream (eit2 0) T0 play_log /\
  names id1 at2 0 (eit2 0) /\ T0 < at2 1 /\ announced id1 at2 0 play_log 2 /\ Sorted Z.le (map snd play_log) /\
  (forall m t now, In (Some t, now) play_log -> names id1 at2 m t -> at2 m <= now).
Proof.
  assert (Nm : forall i, names id1 at2 i (eit2 i)).
  { intros i. exists (mkEvent (id1 i) (at2 i) 2 0). unfold at2. cbn [ev_id ev_start ev_duration present hd_error eit2 eit_events].
    repeat split; lia. }
  split; [intros i; unfold id1, at2; lia|].
  split.
  - pose (base := [0; 0x12; 0x14]).
    assert (U0 : forall pid, In pid base <-> tuned base 101 [] pid) by (intros; symmetry; apply tuned_nil).
    pose proof (tuned_listing base 101 [] (0, TPat (Some rpat)) rpat 0x1F0 base eq_refl U0) as U1. cbn in U1.
    assert (Um : forall h x, (forall pid, In pid (zadd 496 base) <-> tuned base 101 h pid) -> listing 101 x = None ->
      forall pid, In pid (zadd 496 base) <-> tuned base 101 (x :: h) pid).
    { intros h x H L pid. rewrite H. symmetry. apply tuned_mute, L. }
    unfold play_stream, play_log. cbn [app repeat].
    eapply B_wait; [split; [exact (delivered_feed base 101 0 _ base _ U0)|lazy; reflexivity]|intros [_ X]; apply X; reflexivity|].
    eapply B_wait; [split; [exact (delivered_feed base 101 0 _ (zadd 496 base) _ U1)|lazy; reflexivity]|intros [_ X]; apply X; reflexivity|].
    pose proof (Um _ (0x1F0, TPmt (Some rpmt)) U1 eq_refl) as U2.
    eapply B_wait; [split; [exact (delivered_feed base 101 0 _ (zadd 496 base) _ U2)|lazy; reflexivity]|intros [_ X]; apply X; reflexivity|].
    eapply B_wait; [split; [exact (delivered_feed base 101 0 _ (zadd 496 base) _ U2)|lazy; reflexivity]|intros [_ X]; apply X; reflexivity|].
    pose proof (Um _ (0x14, TTot (Some T0)) U2 eq_refl) as U3.
    pose proof (Um _ (0x12, TEit (Some (eit2 0))) U3 eq_refl) as U4.
    pose proof (Um _ (0x12, TEit (Some (eit2 1))) U4 eq_refl) as U5.
    pose proof (Um _ (0x12, TEit (Some (eit2 2))) U5 eq_refl) as U6.
    eapply B_start; [split; [exact (delivered_feed base 101 0 _ (zadd 496 base) _ U3)|lazy; reflexivity]| |reflexivity|eexists; split; [vm_compute; reflexivity|vm_compute; reflexivity]|].
    + exact (seen_tot ([] ++ [OpSetPid 256] ++ [OpPcr 0]) _ _ T0 0
        (seen_pcr ([] ++ [OpSetPid 256]) _ _ 0 (seen_pid [] _ _ 256 seen_nil) ltac:(vm_compute; discriminate))).
    + do 4 next_packet U4. do 3 next_packet U5. do 40 next_packet U6. constructor.
  - split; [apply Nm|]. split; [reflexivity|]. split; [|split].
    + unfold play_log. cbn [app repeat]. do 3 apply A_none. apply A_next; [apply Nm|reflexivity|]. do 2 apply A_none.
      apply A_next; [apply Nm|reflexivity|]. do 40 apply A_none. apply A_end.
    + unfold play_log, T0. cbn [map snd app repeat]. repeat (constructor; try lia).
    + intros m t now I N. assert (Q : (t = eit2 1 /\ now = T0 + 2700) \/ (t = eit2 2 /\ now = T0 + 4500)).
      { unfold play_log in I. apply in_app_or in I as [I|I]; [|apply repeat_spec in I; discriminate].
        cbn [In] in I. repeat (destruct I as [I|I]; [first [discriminate|injection I as <- <-; auto]|]). destruct I. }
      assert (Sc : schedule id1 at2) by (intros i; unfold id1, at2; lia).
      destruct Q as [[-> ->]|[-> ->]]; rewrite (names_inj id1 at2 Sc _ _ _ N (Nm _)); unfold at2; lia.
Qed.
