(** C33 - C36, C60: record-service. *)
From Coq Require Import ZArith Lia List Bool.
From Verif Require Import Base.Outcome Base.Util Model.Clock Model.Sink Model.Ts Model.RingFileSink Model.ServiceRecorder
  Spec.ClockSpec Spec.StdoutSpec Spec.FilterSpec Spec.TuneSpec Spec.FileSpec Spec.RecorderSpec Spec.JournalSpec Proofs.RingMain Proofs.RecorderProofs Proofs.RecorderMain
  Proofs.RecorderSafe Proofs.RecorderJournal.
Import ListNotations.
Open Scope Z_scope.

(** A run of record-service with options [o] on the packets [ps]: [ops] are the
    results of the file operations, [local] the readings of the wall clock,
    [bytes] the contents of packets. *)
Definition runs (o : recorder_option) (local : nat -> Z) (bytes : packet -> list Z) (stage : nat) (ops : list Z) (ps : list packet)
    (code : Z) (s : rec_state) : Prop :=
  valid_geometry (rco_chunk_size o) (rco_num_chunks o) (rco_start_pos o) /\
  exists n s0, rc_new o ops = Ok s0 /\ FeedPackets (list_source packet) (recorder o local bytes stage) n ps s0 = Some (Ok (code, s)).

Lemma runs_all : forall o local bytes stage ops ps code s, runs o local bytes stage ops ps code s ->
  (rco_start_pos o <> 0 /\ messages (rc_trace s) = [] /\ code = 1 /\ rc_trace s = [Ring EvSeekFail]) \/
  exists r ok, record (rco_sid o) stage local [] [] ps r /\
    rg_session (rco_chunk_size o) (rco_num_chunks o) (rco_start_pos o) ops (map bytes (recorded r)) = Ok (rc_ring s, ring_calls (rc_trace s), ok) /\
    code = (if ok then 0 else 1) /\
    parse (messages (rc_trace s)) = Some Stopped /\ contiguous (messages (rc_trace s)) /\
    answered (rco_chunk_size o * rco_num_chunks o) (rc_trace s) /\
    chunk_positions (messages (rc_trace s)) = match r with
      | Some _ => rco_start_pos o :: map (wrap (rco_chunk_size o * rco_num_chunks o)) (announced (ring_calls (rc_trace s)))
      | None => [] end /\
    stops s (negb ok) /\ (r = None -> messages (rc_trace s) = [MStart; MStop false] /\ ok = true).
Proof. intros o local bytes stage ops ps code s [G [n [s0 [N F]]]]. exact (recorder_run o local bytes stage ops ps n s0 code s G N F). Qed.

(** C33: the messages are in the order [parse] says, from start to stop; unless
    the seek to the start position fails, in which case there is none. *)
Lemma grammar : forall o local bytes stage ops ps code s, runs o local bytes stage ops ps code s ->
  (rco_start_pos o <> 0 /\ messages (rc_trace s) = [] /\ code = 1 /\ ring_calls (rc_trace s) = [EvSeekFail]) \/
  (parse (messages (rc_trace s)) = Some Stopped /\
   exists ms, messages (rc_trace s) = ms ++ [MStop (negb (code =? 0))] /\ (code = 0 \/ code = 1)).
Proof.
  intros o local bytes stage ops ps code s R. destruct (runs_all _ _ _ _ _ _ _ _ R) as [[A [B [C D]]]|[r [ok [_ [_ [C [P [_ [_ [_ [[ms M] _]]]]]]]]]]].
  - left. rewrite D. auto.
  - right. split; [exact P|]. exists ms. split; [unfold msgs in M; rewrite M; subst code; destruct ok; reflexivity|subst code; destruct ok; auto].
Qed.
Theorem C33_grammar : forall o local bytes stage ops ps code s, runs o local bytes stage ops ps code s ->
  (rco_start_pos o <> 0 /\ messages (rc_trace s) = [] /\ code = 1 /\ ring_calls (rc_trace s) = [EvSeekFail]) \/
  (parse (messages (rc_trace s)) = Some Stopped /\
   exists ms, messages (rc_trace s) = ms ++ [MStop (negb (code =? 0))] /\ (code = 0 \/ code = 1)).
Proof. exact grammar. Qed.
Print Assumptions C33_grammar.

(** What the order means for event messages: a start comes when no event runs,
    an end or update for the event that runs. *)
Lemma parse_app_some : forall a b q, parse (a ++ b) = Some q -> exists q', parse a = Some q'.
Proof.
  intros a b q. unfold parse. rewrite fold_left_app. destruct (fold_left _ a (Some Fresh)) as [q'|]; [eauto|].
  intros H. exfalso. revert H. induction b as [|m b IH]; [discriminate|auto].
Qed.
Lemma event_order : forall ms, parse ms = Some Stopped -> forall a k x y z e t p b, ms = a ++ MEvent k x y z e t p :: b ->
  parse a = Some (match k with KStart => Quiet | _ => During (ev_id e) end).
Proof.
  intros ms P a k x y z e t p b ->. change (a ++ MEvent k x y z e t p :: b) with (a ++ [MEvent k x y z e t p] ++ b) in P.
  rewrite app_assoc in P. apply parse_app_some in P as [q P]. rewrite parse_snoc in P. destruct (parse a) as [[| | |id|]|]; try discriminate.
  - destruct k; [reflexivity|discriminate|discriminate].
  - cbn [next] in P. destruct k; [discriminate|destruct (Z.eqb_spec (ev_id e) id); [congruence|discriminate]..].
Qed.
Theorem C33_event_order : forall ms, parse ms = Some Stopped -> forall a k x y z e t p b, ms = a ++ MEvent k x y z e t p :: b ->
  parse a = Some (match k with KStart => Quiet | _ => During (ev_id e) end).
Proof. exact event_order. Qed.
Print Assumptions C33_event_order.

(** C34: the positions of the chunk messages. *)
Lemma positions : forall o local bytes stage ops ps code s, runs o local bytes stage ops ps code s ->
  (forall k q, znth k (chunk_positions (messages (rc_trace s))) = Some q ->
     q = (rco_start_pos o + k * rco_chunk_size o) mod (rco_chunk_size o * rco_num_chunks o)) /\
  answered (rco_chunk_size o * rco_num_chunks o) (rc_trace s).
Proof.
  intros o local bytes stage ops ps code s R. destruct (runs_all _ _ _ _ _ _ _ _ R) as [[A [B [C D]]]|[r [ok [_ [S [C [P [_ [An [Ch _]]]]]]]]]].
  - split; [rewrite B; cbn; intros k q H; destruct (znth_range _ _ _ _ H) as [? L]; change (zlen (@nil Z)) with 0 in L; lia|].
    rewrite D. intros a p b X. destruct a as [|? [|? ?]]; discriminate.
  - split; [|exact An]. rewrite Ch. destruct r; [exact (positions_walk o _ _ _ _ _ (proj1 R) S)|].
    intros k q H; destruct (znth_range _ _ _ _ H) as [? L]; change (zlen (@nil Z)) with 0 in L; lia.
Qed.
Theorem C34_positions : forall o local bytes stage ops ps code s, runs o local bytes stage ops ps code s ->
  (forall k q, znth k (chunk_positions (messages (rc_trace s))) = Some q ->
     q = (rco_start_pos o + k * rco_chunk_size o) mod (rco_chunk_size o * rco_num_chunks o)) /\
  answered (rco_chunk_size o * rco_num_chunks o) (rc_trace s).
Proof. exact positions. Qed.
Print Assumptions C34_positions.

(** How many there are: one at the beginning of recording, and one for each
    chunk reported by the ring; these are all the chunks completely received, if
    no file operation fails. *)
Lemma count : forall o local bytes stage ops ps code s, runs o local bytes stage ops ps code s ->
  forall r, record (rco_sid o) stage local [] [] ps (Some r) -> Forall is_packet (map bytes r) -> code = 0 ->
  zlen (chunk_positions (messages (rc_trace s))) = 1 + 188 * zlen r / rco_chunk_size o.
Proof.
  intros o local bytes stage ops ps code s R r Rc Pk C0. destruct (runs_all _ _ _ _ _ _ _ _ R) as [[A [B [C D]]]|[r' [ok [Rc' [S [C [P [_ [An [Ch _]]]]]]]]]]; [congruence|].
  rewrite (record_det _ _ _ _ _ _ _ Rc' _ Rc) in *. rewrite Ch, zlen_cons. destruct ok; [|congruence].
  destruct (session_accepted _ _ _ _ _ _ _ (proj1 R) Pk S) as [_ [E _]].
  assert (L : zlen (map bytes r) = zlen r) by (unfold zlen; rewrite map_length; auto). rewrite L in E. rewrite <- E. unfold zlen. rewrite map_length. lia.
Qed.
Theorem C34_count : forall o local bytes stage ops ps code s, runs o local bytes stage ops ps code s ->
  forall r, record (rco_sid o) stage local [] [] ps (Some r) -> Forall is_packet (map bytes r) -> code = 0 ->
  zlen (chunk_positions (messages (rc_trace s))) = 1 + 188 * zlen r / rco_chunk_size o.
Proof. exact count. Qed.
Print Assumptions C34_count.

(** C35 *)
Lemma contig : forall o local bytes stage ops ps code s, runs o local bytes stage ops ps code s -> contiguous (messages (rc_trace s)).
Proof.
  intros o local bytes stage ops ps code s R. destruct (runs_all _ _ _ _ _ _ _ _ R) as [[A [B [C D]]]|[r' [ok [Rc' [S [C [P [Co _]]]]]]]]; [|auto].
  rewrite B. intros a x y z e t p b X. destruct a; discriminate.
Qed.
Theorem C35_contiguous : forall o local bytes stage ops ps code s, runs o local bytes stage ops ps code s -> contiguous (messages (rc_trace s)).
Proof. exact contig. Qed.
Print Assumptions C35_contiguous.

(** C36: the ring gets exactly the packets that [record] names, until it refuses
    one. *)
Lemma records : forall o local bytes stage ops ps code s, runs o local bytes stage ops ps code s ->
  (rco_start_pos o <> 0 /\ ring_calls (rc_trace s) = [EvSeekFail]) \/
  exists r, record (rco_sid o) stage local [] [] ps r /\
    rg_session (rco_chunk_size o) (rco_num_chunks o) (rco_start_pos o) ops (map bytes (match r with Some l => l | None => [] end))
      = Ok (rc_ring s, ring_calls (rc_trace s), code =? 0) /\
    (r = None -> messages (rc_trace s) = [MStart; MStop false] /\ code = 0).
Proof.
  intros o local bytes stage ops ps code s R. destruct (runs_all _ _ _ _ _ _ _ _ R) as [[A [B [C D]]]|[r [ok [Rc [S [C [_ [_ [_ [_ [_ N]]]]]]]]]]].
  - left. rewrite D. auto.
  - right. exists r. split; [exact Rc|]. assert (X : (code =? 0) = ok) by (subst code; destruct ok; reflexivity). rewrite X.
    split; [exact S|]. intros E. destruct (N E) as [N1 ->]. auto.
Qed.
Theorem C36_records : forall o local bytes stage ops ps code s, runs o local bytes stage ops ps code s ->
  (rco_start_pos o <> 0 /\ ring_calls (rc_trace s) = [EvSeekFail]) \/
  exists r, record (rco_sid o) stage local [] [] ps r /\
    rg_session (rco_chunk_size o) (rco_num_chunks o) (rco_start_pos o) ops (map bytes (match r with Some l => l | None => [] end))
      = Ok (rc_ring s, ring_calls (rc_trace s), code =? 0) /\
    (r = None -> messages (rc_trace s) = [MStart; MStop false] /\ code = 0).
Proof. exact records. Qed.
Print Assumptions C36_records.

Theorem C36_spec_deterministic : forall o local stage h ops ps r, record (rco_sid o) stage local h ops ps r ->
  forall r', record (rco_sid o) stage local h ops ps r' -> r = r'.
Proof. exact record_det. Qed.
Print Assumptions C36_spec_deterministic.

(** On sound input every run comes to its end, whatever the file operations
    return. *)
Theorem C36_no_abort : forall o local bytes stage, (forall n, Z.abs (local n) < 2 ^ 44) ->
  valid_geometry (rco_chunk_size o) (rco_num_chunks o) (rco_start_pos o) ->
  forall ops ps n, Forall (sound_packet (rco_sid o) stage) ps -> (List.length ps < n)%nat ->
  exists s0 code s, rc_new o ops = Ok s0 /\
    FeedPackets (list_source packet) (recorder o local bytes stage) n ps s0 = Some (Ok (code, s)).
Proof. exact run_safe. Qed.
Print Assumptions C36_no_abort.

(** A recording: two chunks of 8192 bytes, starting at the second one; an event
    ends, another follows.  44 packets fill a chunk. *)
Definition rpkt (pid : Z) (pcr : option Z) (ts : list body) : packet :=
  mkPacket (Raw 0) pid false pcr None None (fun _ => map (fun b => mkTable b 0) ts) (fun _ => 1%nat).
Definition rpat := mkPat 7 0 [(101, 0x1F0)].
Definition rpmt := mkPmt 101 0 0x100 [] [(0x100, mkStream true false 2 false None)].
Definition reit (id st : Z) := mkEit 101 7 4 0 [mkEvent id st 10 0].
Definition T0 : Z := 5000000000000.
Definition ropt := mkRcOption 101 8192 2 8192.
Definition rbytes (p : packet) : list Z := repeat 0 188.
Definition rstream : list packet :=
  [ rpkt 0 None [TPat (Some rpat)]; rpkt 0x1F0 None [TPmt (Some rpmt)]; rpkt 0x100 (Some 0) []; rpkt 0x14 None [TTot (Some T0)];
    rpkt 0x12 None [TEit (Some (reit 1 T0))] ] ++ repeat (rpkt 0x100 None []) 44 ++
  map (fun n => rpkt 0x100 (Some (Z.of_nat n * 26000000)) []) (seq 1 11) ++
  [ rpkt 0x12 None [TEit (Some (reit 2 (T0 + 10000)))] ] ++ repeat (rpkt 0x100 None []) 40.

Example C33_case : exists s, runs ropt (fun _ => 0) rbytes 0 [] rstream 0 s /\
  map (fun m => match m with MEvent _ _ _ _ e _ _ => ev_id e | _ => 0 end) (messages (rc_trace s)) = [0; 0; 1; 1; 0; 1; 2; 2; 0; 0] /\
  chunk_positions (messages (rc_trace s)) = [8192; 0; 8192] /\
  exists t, boundary (messages (rc_trace s)) = Some (t, 1960).
Proof.
  eexists. split.
  - split; [unfold valid_geometry; cbn; lia|]. exists 200%nat. eexists. split; [reflexivity|]. vm_compute. reflexivity.
  - vm_compute. repeat split. eexists. reflexivity.
Qed.

Example C36_case_sound : Forall (sound_packet 101 0) rstream.
Proof.
  assert (Q : forall pid pcr ts, (forall v, pcr = Some v -> 0 <= v < 2 ^ 33 * 300) -> (forall b, In b ts -> sound_table 101 pid b) ->
            sound_packet 101 0 (rpkt pid pcr ts)).
  { intros pid pcr ts V H. split; [exact V|]. intros t I. apply in_map_iff in I as [b [<- I]]. apply H, I. }
  assert (D : sound_packet 101 0 (rpkt 0x100 None [])) by (apply Q; [discriminate|intros b []]).
  assert (W : forall n, 0 <= n < 100 -> sound_packet 101 0 (rpkt 0x100 (Some (n * 26000000)) [])).
  { intros n N. apply Q; [|intros b []]. intros v X. injection X as <-. lia. }
  assert (E : forall id st, 0 <= st < 2 ^ 44 -> sound_packet 101 0 (rpkt 0x12 None [TEit (Some (reit id st))])).
  { intros id st S. apply Q; [discriminate|]. intros b [<-|[]]. split; [reflexivity|]. cbn. repeat constructor; cbn; lia. }
  assert (Rp : forall n, Forall (sound_packet 101 0) (repeat (rpkt 0x100 None []) n)).
  { intros n. apply Forall_forall. intros p I. apply repeat_spec in I. subst. exact D. }
  unfold rstream. apply Forall_app; split; [|apply Forall_app; split; [|apply Forall_app; split; [|apply Forall_app; split]]]; auto.
  - constructor; [apply Q; [discriminate|]; intros b [<-|[]]; repeat split|].
    constructor; [apply Q; [discriminate|]; intros b [<-|[]]; repeat split|].
    constructor; [apply (W 0); lia|].
    constructor; [apply Q; [discriminate|]; intros b [<-|[]]; split; [reflexivity|cbn; unfold T0; lia]|].
    constructor; [apply E; unfold T0; lia|constructor].
  - apply Forall_forall. intros p I. apply in_map_iff in I as [n [<- I]]. apply in_seq in I. apply W. lia.
  - constructor; [apply E; unfold T0; lia|constructor].
Qed.

(** C60: the messages, one by one. *)
Lemma journal : forall o local bytes stage ops ps code s, runs o local bytes stage ops ps code s -> (forall p, zlen (bytes p) = 188) ->
  (rco_start_pos o <> 0 /\ messages (rc_trace s) = [] /\ code = 1) \/
  exists ms ok, waiting (rco_sid o) stage local bytes (rco_chunk_size o) (rco_chunk_size o * rco_num_chunks o) (rco_start_pos o) [] 0 [] ps ms ok /\
    messages (rc_trace s) = MStart :: ms ++ [MStop (negb ok)] /\ code = (if ok then 0 else 1).
Proof. intros o local bytes stage ops ps code s [Geo [n [s0 [N F]]]] L. eapply journal_run; eauto. Qed.
Theorem C60_messages : forall o local bytes stage ops ps code s, runs o local bytes stage ops ps code s -> (forall p, zlen (bytes p) = 188) ->
  (rco_start_pos o <> 0 /\ messages (rc_trace s) = [] /\ code = 1) \/
  exists ms ok, waiting (rco_sid o) stage local bytes (rco_chunk_size o) (rco_chunk_size o * rco_num_chunks o) (rco_start_pos o) [] 0 [] ps ms ok /\
    messages (rc_trace s) = MStart :: ms ++ [MStop (negb ok)] /\ code = (if ok then 0 else 1).
Proof. exact journal. Qed.
Print Assumptions C60_messages.

(** Unless the file fails, the input determines them. *)
Lemma journal_det : forall sid stage local bytes cs ring start h n ops ps ms ms',
  waiting sid stage local bytes cs ring start h n ops ps ms true -> waiting sid stage local bytes cs ring start h n ops ps ms' true -> ms = ms'.
Proof. intros. eapply waiting_det; eauto. Qed.
Theorem C60_spec_deterministic : forall sid stage local bytes cs ring start h n ops ps ms ms',
  waiting sid stage local bytes cs ring start h n ops ps ms true -> waiting sid stage local bytes cs ring start h n ops ps ms' true -> ms = ms'.
Proof. exact journal_det. Qed.
Print Assumptions C60_spec_deterministic.

(** The recording above, message by message: the first event ends when its ten
    seconds are over, found out at 1960 bytes into the second chunk; the next
    starts there, though it was announced later. *)
Example C60_case : exists s, runs ropt (fun _ => 0) rbytes 0 [] rstream 0 s /\
  messages (rc_trace s) =
   (let e1 := mkEvent 1 T0 10 0 in let e2 := mkEvent 2 (T0 + 10000) 10 0 in let U := T0 - 40587 * 86400000 - 32400000 in
    [ MStart; MChunk U 8192; MEvent KStart 4 7 101 e1 U 8192;
      MEvent KUpdate 4 7 101 e1 U 0; MChunk U 0;
      MEvent KEnd 4 7 101 e1 (U + 10000) 1960; MEvent KStart 4 7 101 e2 (U + 10000) 1960;
      MEvent KUpdate 4 7 101 e2 (U + 10592) 8192; MChunk (U + 10592) 8192; MStop false ]).
Proof.
  eexists. split.
  - split; [unfold valid_geometry; cbn; lia|]. exists 200%nat. eexists. split; [reflexivity|]. vm_compute. reflexivity.
  - vm_compute. reflexivity.
Qed.
