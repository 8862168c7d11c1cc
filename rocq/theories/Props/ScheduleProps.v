(** C103: record-service and the schedule of the broadcaster. *)
From Coq Require Import ZArith Lia List Bool Sorted.
From Verif Require Import Base.Outcome Base.Util Model.Clock Model.Sink Model.Ts Model.RingFileSink Model.ServiceRecorder Model.ProgramFilter Model.Main
  Spec.ClockSpec Spec.StdoutSpec Spec.FilterSpec Spec.TuneSpec Spec.FileSpec Spec.RecorderSpec Spec.JournalSpec Spec.ScheduleSpec Spec.PipeSpec Spec.MainSpec
  Proofs.RecorderJournal Proofs.TuneProofs Proofs.ScheduleProofs Props.RecorderProps Props.CommandProps.
From Verif Require Spec.ProgramSpec.
Import ListNotations.
Open Scope Z_scope.

(** While the clock does not go back, and the EITs name the programs in turn, the
    recording starts with the present program, and every program that follows
    starts and ends at the packets [edge] says. *)
Lemma schedule_run : forall o local bytes stage ops ps s, runs o local bytes stage ops ps 0 s -> (forall p, zlen (bytes p) = 188) ->
  forall id at_ i j t now log, schedule id at_ ->
  begins (rco_sid o) stage local (rco_chunk_size o) [] 0 [] ps t now log ->
  names id at_ i t -> now < at_ (S i) -> announced id at_ i log j -> Sorted Z.le (map snd log) ->
  exists l, marks (messages (rc_trace s)) = (KStart, id i, stamp now, rco_start_pos o) :: l /\
    reported id at_ (rco_start_pos o) (rco_chunk_size o * rco_num_chunks o) log i j l.
Proof.
  intros o local bytes stage ops ps s R L id at_ i j t now log Sc B N Lt A So.
  destruct (C60_messages _ _ _ _ _ _ _ _ R L) as [(_ & _ & X)|(ms & ok & W & M & C)]; [discriminate|].
  assert (ok = true) by (destruct ok; [reflexivity|discriminate]). subst ok.
  pose proof (begun _ _ _ _ _ _ _ L _ _ _ _ _ _ W eq_refl _ _ _ B) as Mm.
  assert (Ov : over t now = false). { unfold over. rewrite (ends id at_ i t N). apply Z.leb_gt. exact Lt. }
  rewrite Ov in Mm. cbn [negb] in Mm. rewrite (about_marks id at_ KStart i t _ _ N) in Mm by discriminate. cbn [app] in Mm.
  eexists. split.
  - rewrite M. cbn [marks]. rewrite marks_app, Mm. cbn [marks]. rewrite app_nil_r. reflexivity.
  - pose proof (scheduled (rco_start_pos o) (rco_chunk_size o * rco_num_chunks o) id at_ Sc log i j 0 (mkDesk t true (now, rco_start_pos o)) N A) as [X _].
    { apply Sorted_StronglySorted; [intros x y z; lia|exact So]. }
    rewrite Z.add_0_r in X. apply X. reflexivity.
Qed.
Theorem C103_schedule : forall o local bytes stage ops ps s, runs o local bytes stage ops ps 0 s -> (forall p, zlen (bytes p) = 188) ->
  forall id at_ i j t now log, schedule id at_ ->
  begins (rco_sid o) stage local (rco_chunk_size o) [] 0 [] ps t now log ->
  names id at_ i t -> now < at_ (S i) -> announced id at_ i log j -> Sorted Z.le (map snd log) ->
  exists l, marks (messages (rc_trace s)) = (KStart, id i, stamp now, rco_start_pos o) :: l /\
    reported id at_ (rco_start_pos o) (rco_chunk_size o * rco_num_chunks o) log i j l.
Proof. exact schedule_run. Qed.
Print Assumptions C103_schedule.

(** Whenever recording starts, something is heard. *)
Theorem C103_heard : forall o local bytes stage ops ps s, runs o local bytes stage ops ps 0 s -> (forall p, zlen (bytes p) = 188) ->
  messages (rc_trace s) = [MStart; MStop false] \/
  exists t now log, begins (rco_sid o) stage local (rco_chunk_size o) [] 0 [] ps t now log.
Proof.
  intros o local bytes stage ops ps s R L.
  destruct (C60_messages _ _ _ _ _ _ _ _ R L) as [(_ & _ & X)|(ms & ok & W & M & C)]; [discriminate|].
  assert (ok = true) by (destruct ok; [reflexivity|discriminate]). subst ok.
  destruct (heard _ _ _ _ _ _ _ L _ _ _ _ _ _ W eq_refl) as [->|X]; [left; exact M|right; exact X].
Qed.
Print Assumptions C103_heard.

(** If no program is announced before it starts, the boundary is at the first packet
    received at or after the start of the program: what is recorded before it are
    the packets received earlier. *)
Theorem C103_on_time : forall id at_ start ring log i time pos, Sorted Z.le (map snd log) ->
  (forall t now, In (Some t, now) log -> names id at_ i t -> at_ i <= now) ->
  edge id at_ start ring log i time pos ->
  pos = (start + 188 * zlen (filter (fun x : moment => snd x <? at_ i) log)) mod ring /\
  at_ i <= time /\ exists x, In x log /\ time <= snd x.
Proof. exact edge_on_time. Qed.
Print Assumptions C103_on_time.

(** As a command. *)
Theorem C103_main : forall lib sys sid file cs nc start bs n, (forall k, Z.abs (sy_local sys k) < 2 ^ 44) ->
  valid_geometry cs nc (match start with Some p => p | None => 0 end) -> file <> [] -> 0 <= sy_file_fd sys -> has_input sys bs n -> sy_flushes sys = [] ->
  let ps := views (li_packet lib) [] bs in
  (forall p t, In p ps -> In t (p_tabs p 0) -> tame (sid mod 2 ^ 16) None (p_pid p, tb_body t)) ->
  (forall p v, In p ps -> p_pcr p = Some v -> 0 <= v < 2 ^ 33 * 300) ->
  (forall p t, In p ps -> In t (p_tabs p 1) -> ProgramSpec.sane_table (tb_body t)) ->
  (forall p, zlen (li_bytes lib p) = 188) ->
  exists e mid en h, main lib sys (RecordService sid file cs nc start) n = Some (Ok e) /\
    filtered (sid mod 2 ^ 16) None 0 anything [] tt ps mid en h tt /\
    (en_code e = 0 -> forall id at_ i j t now log, schedule id at_ ->
      begins (sid mod 2 ^ 16) 1 (sy_local sys) cs [] 0 [] mid t now log ->
      names id at_ i t -> now < at_ (S i) -> announced id at_ i log j -> Sorted Z.le (map snd log) ->
      exists l, marks (messages (en_trace e)) = (KStart, id i, stamp now, match start with Some p => p | None => 0 end) :: l /\
        reported id at_ (match start with Some p => p | None => 0 end) (cs * nc) log i j l).
Proof.
  intros lib sys sid file cs nc start bs n Lo G Fi Fd I F ps T0 Pc T1 L.
  destruct (C90_record_service lib sys sid file cs nc start bs n Lo G Fi Fd I F T0 Pc T1) as (e & mid & en & h & c & s & M & Fl & R & Tr & C & _).
  exists e, mid, en, h. split; [exact M|]. split; [exact Fl|]. intros E0 id at_ i j t now log Sc B N Lt A So.
  assert (c = 0) by (unfold exit_code in C; destruct en; intuition congruence). subst c.
  rewrite Tr. exact (C103_schedule _ _ _ _ _ _ _ R L id at_ i j t now log Sc B N Lt A So).
Qed.
Print Assumptions C103_main.

(** Programs of two seconds with the event IDs 1, 2, 3 and so on.  Recording starts in
    the first.  The second is announced late, the third too early: the first ends and
    the second starts at the first packet received after 2 s, the third where its EIT
    comes. *)
Definition at2 (i : nat) : Z := T0 + 2000 * Z.of_nat i.
Definition id1 (i : nat) : Z := Z.of_nat i + 1.
Definition pcr_at (ms : Z) : packet := rpkt 0x100 (Some (27000 * ms)) [].
Definition eit2 (i : nat) : eit := mkEit 101 7 4 0 [mkEvent (id1 i) (at2 i) 2 0].
Definition eit_of (i : nat) : packet := rpkt 0x12 None [TEit (Some (eit2 i))].
Definition case_stream : list packet :=
  [ rpkt 0 None [TPat (Some rpat)]; rpkt 0x1F0 None [TPmt (Some rpmt)]; pcr_at 0; rpkt 0x14 None [TTot (Some T0)]; eit_of 0;
    pcr_at 900; pcr_at 1800; pcr_at 2700; pcr_at 3400; eit_of 1; pcr_at 3900; eit_of 2; pcr_at 4700 ].
Definition case_log : list moment :=
  [ (None, T0 + 900); (None, T0 + 1800); (None, T0 + 2700); (None, T0 + 3400); (Some (eit2 1), T0 + 3400); (None, T0 + 3900);
    (Some (eit2 2), T0 + 3900); (None, T0 + 4700) ].

Example C103_case : exists s, runs ropt (fun _ => 0) rbytes 0 [] case_stream 0 s /\
  marks (messages (rc_trace s)) =
    [ (KStart, 1, stamp T0, 8192);
      (KEnd, 1, stamp (T0 + 2000), 8192 + 188 * 2); (KStart, 2, stamp (T0 + 2000), 8192 + 188 * 2);
      (KEnd, 2, stamp (T0 + 3900), 8192 + 188 * 6); (KStart, 3, stamp (T0 + 3900), 8192 + 188 * 6) ].
Proof.
  eexists. split.
  - split; [unfold valid_geometry; cbn; lia|]. exists 200%nat. eexists. split; [reflexivity|]. vm_compute. reflexivity.
  - vm_compute. reflexivity.
Qed.

(** A packet more. *)
Lemma hear_next : forall sid stage local cs demux h n ops w p ps h' n' ops' now log x k w',
  (forall pid, In pid demux <-> tuned [0; 0x12; 0x14] sid h pid) ->
  heed sid local h n (ops ++ clock_packet sid h p) (p_pid p) (demux_feed demux stage p) = (h', n', ops') -> tells ops' (local n') now ->
  news sid p (demux_feed demux stage p) = x -> (if (w + 188) / cs =? w / cs then S n' else S (S n')) = k -> w + 188 = w' ->
  diary sid stage local cs h' k ops' w' ps log -> diary sid stage local cs h n ops w (p :: ps) ((x, now) :: log).
Proof.
  intros sid stage local cs demux h n ops w p ps h' n' ops' now log x k w' U H T <- <- <- D.
  eapply D_packet; [split; [exact (delivered_feed _ _ _ _ _ _ U)|exact H]|exact T|exact D].
Qed.

Example C103_case_conditions :
  schedule id1 at2 /\ begins 101 0 (fun _ => 0) 8192 [] 0 [] case_stream (eit2 0) T0 case_log /\
  names id1 at2 0 (eit2 0) /\ T0 < at2 1 /\ announced id1 at2 0 case_log 2 /\ Sorted Z.le (map snd case_log).
Proof.
  assert (Nm : forall i, names id1 at2 i (eit2 i)).
  { intros i. exists (mkEvent (id1 i) (at2 i) 2 0). unfold at2. cbn [ev_id ev_start ev_duration present hd_error eit2 eit_events].
    repeat split; lia. }
  split; [intros i; unfold id1, at2; lia|].
  split.
  - pose (base := [0; 0x12; 0x14]).
    assert (U0 : forall pid, In pid base <-> tuned base 101 [] pid) by (intros; symmetry; apply tuned_nil).
    pose proof (tuned_listing base 101 [] (0, TPat (Some rpat)) rpat 0x1F0 base eq_refl U0) as U1. cbn in U1.
    assert (Um : forall h x, (forall pid, In pid (zadd 496 base) <-> tuned base 101 h pid) -> listing 101 x = None ->
      forall pid, In pid (zadd 496 base) <-> tuned base 101 (x :: h) pid).
    { intros h x H L pid. rewrite H. symmetry. apply tuned_mute, L. }
    unfold case_stream.
    eapply B_wait; [split; [exact (delivered_feed base 101 0 _ base _ U0)|lazy; reflexivity]|intros [_ X]; apply X; reflexivity|].
    eapply B_wait; [split; [exact (delivered_feed base 101 0 _ (zadd 496 base) _ U1)|lazy; reflexivity]|intros [_ X]; apply X; reflexivity|].
    pose proof (Um _ (0x1F0, TPmt (Some rpmt)) U1 eq_refl) as U2.
    eapply B_wait; [split; [exact (delivered_feed base 101 0 _ (zadd 496 base) _ U2)|lazy; reflexivity]|intros [_ X]; apply X; reflexivity|].
    eapply B_wait; [split; [exact (delivered_feed base 101 0 _ (zadd 496 base) _ U2)|lazy; reflexivity]|intros [_ X]; apply X; reflexivity|].
    pose proof (Um _ (0x14, TTot (Some T0)) U2 eq_refl) as U3.
    pose proof (Um _ (0x12, TEit (Some (eit2 0))) U3 eq_refl) as U4.
    pose proof (Um _ (0x12, TEit (Some (eit2 1))) U4 eq_refl) as U5.
    pose proof (Um _ (0x12, TEit (Some (eit2 2))) U5 eq_refl) as U6.
    eapply B_start; [split; [exact (delivered_feed base 101 0 _ (zadd 496 base) _ U3)|lazy; reflexivity]| |reflexivity|eexists; split; [vm_compute; reflexivity|vm_compute; reflexivity]|].
    + exact (seen_tot ([] ++ [OpSetPid 256] ++ [OpPcr 0]) _ _ T0 0
        (seen_pcr ([] ++ [OpSetPid 256]) _ _ 0 (seen_pid [] _ _ 256 seen_nil) ltac:(vm_compute; discriminate))).
    + unfold case_log.
      Ltac next_packet U := eapply (hear_next 101 0 (fun _ => 0) 8192);
        [exact U|lazy; reflexivity|eexists; split; [vm_compute; reflexivity|vm_compute; reflexivity]|reflexivity|vm_compute; reflexivity|vm_compute; reflexivity|].
      next_packet U4. next_packet U4. next_packet U4. next_packet U4. next_packet U4. next_packet U5. next_packet U5. next_packet U6. constructor.
  - split; [apply Nm|]. split; [reflexivity|]. split.
    + unfold case_log. do 4 apply A_none. apply A_next; [apply Nm|reflexivity|]. apply A_none. apply A_next; [apply Nm|reflexivity|].
      apply A_none. apply A_end.
    + unfold case_log, T0. cbn [map snd]. repeat (constructor; try lia).
Qed.
