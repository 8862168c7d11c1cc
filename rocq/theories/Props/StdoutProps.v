(** C12 - C14: standard output. *)
From Coq Require Import ZArith Lia List Bool.
From Verif Require Import Base.Outcome Base.Util Model.Sink Model.FileSource Model.StdoutSink Spec.SourceSpec Spec.StdoutSpec Proofs.SourceProofs Proofs.StdoutProofs Proofs.StdoutExact.
Import ListNotations.
Open Scope Z_scope.

(** C12 *)
Theorem C12_stdout_exact : forall ps writes n,
  (List.length ps < n)%nat -> Forall is_packet ps -> Forall no_error writes ->
  exists s, FeedPackets (list_source (list Z)) stdout_sink n ps (so_init writes) = Some (Ok (0, s)) /\
    so_out s = concat ps.
Proof. exact stdout_exact. Qed.
Print Assumptions C12_stdout_exact.

Definition many (n : nat) : list (list Z) := map (fun k => repeat (Z.of_nat k) 188) (seq 0 n).

Example C12_case : Forall is_packet (many 90) /\ Forall no_error [Wrote 5; Wrote 0; Wrote 10000] /\
  (exists s, FeedPackets (list_source (list Z)) stdout_sink 91 (many 90) (so_init [Wrote 5; Wrote 0; Wrote 10000]) = Some (Ok (0, s)) /\
    so_out s = concat (many 90)).
Proof.
  assert (A : Forall is_packet (many 90)) by (repeat constructor).
  assert (B : Forall no_error [Wrote 5; Wrote 0; Wrote 10000]) by (repeat constructor; try discriminate).
  split; [exact A|]. split; [exact B|].
  apply C12_stdout_exact; auto.
Qed.

(** From a file to standard output: an aligned input is copied, up to a trailing
    fragment of a packet, however reads and writes are split. *)
Theorem C12_copy : forall reads ps tail writes n,
  Forall read_ok reads -> bytes_of reads = concat ps ++ tail ->
  Forall (fun p => zlen p = 188 /\ sync_at p 0) ps -> zlen tail < 188 -> Forall no_error writes ->
  (List.length (bytes_of reads) < n)%nat ->
  exists s, FeedPackets file_source stdout_sink n (fs_init reads) (so_init writes) = Some (Ok (0, s)) /\
    so_out s = concat ps.
Proof. exact file_copy. Qed.
Print Assumptions C12_copy.

(** C13 in full (at every moment, whatever writes fail, the bytes that reached
    standard output are a prefix of the stream) is false: after a partial write
    followed by an error, End writes the whole buffer again. *)
Definition spoiled : stdout_state :=
  match FeedPackets (list_source (list Z)) stdout_sink 100 (many 90) (so_init [Wrote 100; WriteError]) with
  | Some (Ok (_, s)) => s
  | _ => so_init []
  end.

Theorem C13_no_corruption_refuted : exists ps writes s,
  Forall is_packet ps /\ Forall write_ok writes /\
  FeedPackets (list_source (list Z)) stdout_sink 100 ps (so_init writes) = Some (Ok (0, s)) /\
  ~ is_prefix (so_out s) (concat ps).
Proof.
  exists (many 90), [Wrote 100; WriteError], spoiled.
  assert (E : FeedPackets (list_source (list Z)) stdout_sink 100 (many 90) (so_init [Wrote 100; WriteError]) = Some (Ok (0, spoiled)))
    by (vm_compute; reflexivity).
  assert (H1 : znth 200 (so_out spoiled) = Some 0) by (vm_compute; reflexivity).
  assert (H2 : znth 200 (concat (many 90)) = Some 1) by (vm_compute; reflexivity).
  split; [repeat constructor|]. split; [repeat constructor; try discriminate|]. split; [exact E|].
  intros [c Hc]. rewrite Hc in H2. rewrite znth_app_l in H2 by (apply znth_range in H1; lia). congruence.
Qed.
Print Assumptions C13_no_corruption_refuted.

(** What holds: before End the output is always a prefix ... *)
Theorem C13_prefix_before_end_partial : forall ps writes s ok, Forall is_packet ps ->
  so_run (so_init writes) ps = Ok (s, ok) -> is_prefix (so_out s) (concat ps).
Proof. exact before_end_prefix. Qed.
Print Assumptions C13_prefix_before_end_partial.

(** ... and after End it is a prefix followed by a repetition of at most the
    last 16 KiB buffer. *)
Theorem C13_after_end_partial : forall ps writes n code s, (List.length ps < n)%nat -> Forall is_packet ps ->
  FeedPackets (list_source (list Z)) stdout_sink n ps (so_init writes) = Some (Ok (code, s)) ->
  code = 0 /\ exists base q r buf, so_out s = base ++ q ++ r /\ is_prefix q buf /\ is_prefix r buf /\
    zlen buf <= 16384 /\ is_prefix (base ++ buf) (concat ps).
Proof. exact end_shape. Qed.
Print Assumptions C13_after_end_partial.

(** With writes that take everything or fail, the output is a prefix also after
    End. *)
Theorem C13_atomic_writes_partial : forall ps writes n code s, (List.length ps < n)%nat -> Forall is_packet ps ->
  Forall all_or_nothing writes ->
  FeedPackets (list_source (list Z)) stdout_sink n ps (so_init writes) = Some (Ok (code, s)) ->
  is_prefix (so_out s) (concat ps).
Proof. exact atomic_prefix. Qed.
Print Assumptions C13_atomic_writes_partial.

Example C13_case : Forall all_or_nothing [Wrote 16384; WriteError; Wrote 20000].
Proof. repeat constructor; discriminate. Qed.

(** The exact rule, for any results of the writes: the packets are written in
    blocks of 16 KiB, and a block that fails is written once more from its start. *)
Theorem C13_exact : forall ps writes n, (List.length ps < n)%nat -> Forall is_packet ps ->
  exists s, FeedPackets (list_source (list Z)) stdout_sink n ps (so_init writes) = Some (Ok (0, s)) /\ copies writes (concat ps) (so_out s).
Proof. exact stdout_copies. Qed.
Print Assumptions C13_exact.
Theorem C13_exact_deterministic : forall w bs o, copies w bs o -> forall o', copies w bs o' -> o' = o.
Proof. exact copies_det. Qed.
Print Assumptions C13_exact_deterministic.

Example C13_case_exact : forall o, copies [Wrote 100; WriteError; Wrote 5; WriteError] (concat (many 90)) o ->
  o = repeat 0 100 ++ repeat 0 5.
Proof.
  intros o C. refine (C13_exact_deterministic _ _ _ _ _ C). eapply copies_failed; [vm_compute; discriminate| |].
  - replace (repeat 0 100) with (ztake 100 (ztake 16384 (concat (many 90))) ++ []) by (vm_compute; reflexivity).
    apply puts_some; [vm_compute; discriminate|]. constructor. vm_compute. discriminate.
  - replace (repeat 0 5) with (ztake 5 (ztake 16384 (concat (many 90))) ++ []) by (vm_compute; reflexivity).
    apply puts_some; [vm_compute; discriminate|]. constructor. vm_compute. discriminate.
Qed.

(** C14 is false: the exit code is 0 whatever happens to the writes. *)
Theorem C14_failure_reported_refuted : exists ps writes s,
  Forall is_packet ps /\ Forall write_ok writes /\
  FeedPackets (list_source (list Z)) stdout_sink 100 ps (so_init writes) = Some (Ok (0, s)) /\
  so_out s <> concat ps.
Proof.
  exists (many 1), [WriteError], (mkStdout (repeat 0 188) [] []).
  split; [repeat constructor|]. split; [repeat constructor|]. split; [vm_compute; reflexivity|]. discriminate.
Qed.
Print Assumptions C14_failure_reported_refuted.

(** What holds: the first write that fails while packets are handled makes the
    sink refuse the packet at hand, and a packet is refused only then; feeding
    stops there.  (The exit code does not show it, and a failing write of End
    has no effect at all.) *)
Theorem C14_stops_partial : forall ps writes s ok, so_run (so_init writes) ps = Ok (s, ok) ->
  consumed writes (so_writes s) ok /\
  (ok = false -> exists before p after s0, ps = before ++ p :: after /\
     so_run (so_init writes) before = Ok (s0, true) /\ so_HandlePacket s0 p = Ok (s, false)).
Proof. exact (fun ps writes s ok => run_stops ps (so_init writes) s ok). Qed.
Print Assumptions C14_stops_partial.

Example C14_case : exists s, so_run (so_init [Wrote 100; WriteError; Wrote 5]) (many 90) = Ok (s, false) /\
  so_writes s = [Wrote 5] /\ zlen (so_out s) = 100.
Proof. eexists. split; [vm_compute; reflexivity|]. split; vm_compute; reflexivity. Qed.

(** The exact rule: whatever the writes do, the exit code is 0, and what C13 says
    got out; all of it, unless a write failed. *)
Theorem C14_exact : forall ps writes n, (List.length ps < n)%nat -> Forall is_packet ps ->
  exists s, FeedPackets (list_source (list Z)) stdout_sink n ps (so_init writes) = Some (Ok (0, s)) /\ copies writes (concat ps) (so_out s) /\
    (so_out s = concat ps \/ In WriteError writes).
Proof.
  intros ps writes n Hn Hp. destruct (stdout_copies ps writes n Hn Hp) as [s [F C]]. exists s. split; [exact F|]. split; [exact C|].
  exact (copies_complete _ _ _ C).
Qed.
Print Assumptions C14_exact.
