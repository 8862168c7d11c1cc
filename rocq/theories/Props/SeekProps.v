(** C30 - C32: seek-start. *)
From Coq Require Import ZArith Lia List Bool.
From Verif Require Import Base.Outcome Base.Util Model.Pcr Model.Sink Model.Ts Model.StartSeeker Spec.PcrSpec Spec.FilterSpec Spec.TransSpec
  Spec.ProgramSpec Spec.SeekSpec Proofs.TuneProofs Proofs.SeekProofs Proofs.SeekAny Props.FilterProps.
Import ListNotations.
Open Scope Z_scope.

(** C30: on orderly input and in front of a sink that takes everything,
    seek-start outputs what [seek] says: the whole input, or one packet and then
    the input from another one. *)
Theorem C30_output_partial : forall o stage k ps n d d1, sk_start k d = Ok (d1, true) -> willing k d1 -> orderly o stage ps -> sane_seek o ->
  (List.length ps < n)%nat ->
  exists r s d2 d3 c, seek o stage [] None 0 ps r /\ hand k d1 (seek_output ps r) = (seek_output ps r, Ok (d2, true)) /\
    sk_end k d2 = Ok d3 /\ sk_exit k d3 = Ok c /\
    FeedPackets (list_source packet) (start_seeker o k stage) n ps (ss_init, d) = Some (Ok (c, (s, d3))).
Proof. exact seek_run_all. Qed.
Print Assumptions C30_output_partial.

(** The same if PATs without the service come only where they are not heard. *)
Theorem C30_output_lossless : forall o stage k ps n d d1, sk_start k d = Ok (d1, true) -> willing k d1 -> ordered o stage ps -> sane_seek o ->
  (List.length ps < n)%nat -> ~ loses o stage [] ps ->
  exists r s d2 d3 c, seek o stage [] None 0 ps r /\ hand k d1 (seek_output ps r) = (seek_output ps r, Ok (d2, true)) /\
    sk_end k d2 = Ok d3 /\ sk_exit k d3 = Ok c /\
    FeedPackets (list_source packet) (start_seeker o k stage) n ps (ss_init, d) = Some (Ok (c, (s, d3))).
Proof. exact seek_output_ordered. Qed.
Print Assumptions C30_output_lossless.

(** If the output is cut, then it starts with a packet of PID 0 and goes on from
    the packet [j] where the first PMT with other streams starts: there was no
    such PMT before, and there is one once the last of the packets held back has
    been heard. *)
Theorem C30_cut : forall o stage ps i j m, orderly o stage ps -> seek o stage [] None 0 ps (Cut i j m) ->
  exists p ts ha, znth (m - 1) ps = Some p /\ hears o stage ha p ts /\ (forall j, ~ transition o ha j) /\ transition o (add ha p ts) j /\
    0 < j < m /\ 0 <= i < m /\
    exists q, znth j ps = Some q /\ (p_pid q <> 0 -> exists a, znth i ps = Some a /\ p_pid a = 0).
Proof. exact seek_shape. Qed.
Print Assumptions C30_cut.

(** The specification leaves no choice. *)
Theorem C30_spec_deterministic : forall o stage h base n ps r, seek o stage h base n ps r ->
  forall r', seek o stage h base n ps r' -> r = r'.
Proof. exact seek_det. Qed.
Print Assumptions C30_spec_deterministic.

(** Once streaming, every packet is handed on, in front of any sink. *)
Theorem C30_streaming_hands_all : forall o stage k ps s d out s' d' b, ss_streaming s = true ->
  hand (start_seeker o k stage) (s, d) ps = (out, Ok ((s', d'), b)) ->
  hand k d ps = (out, Ok (d', b)) /\ ss_packets s' = ss_packets s /\ ss_streaming s' = true.
Proof. exact streaming_hands. Qed.
Print Assumptions C30_streaming_hands_all.

(** Packets with tables that start at the given packets. *)
Definition spkt (id pid : Z) (pcr : option Z) (ts : list (body * Z)) : packet :=
  mkPacket (Raw id) pid false pcr None None (fun _ => map (fun x => mkTable (fst x) (snd x)) ts) (fun _ => 1%nat).
Definition pat_s := mkPat 7 0 [(101, 0x1F0)].
Definition pmt_a := mkPmt 101 0 0x100 [] [(0x100, mkStream true false 2 false None)].
Definition pmt_b := mkPmt 101 1 0x100 [] [(0x120, mkStream true false 2 false None)].
Definition stream_s : list packet :=
  [ spkt 0 0x100 None []; spkt 1 0 None [(TPat (Some pat_s), 1)]; spkt 2 0x1F0 None [(TPmt (Some pmt_a), 2)];
    spkt 3 0x100 (Some 0) []; spkt 4 0x1F0 None []; spkt 5 0x120 None [];
    spkt 6 0x1F0 None [(TPmt (Some pmt_b), 4)]; spkt 7 0x120 None []; spkt 8 0x100 (Some 3) [] ].
Definition opt_s := mkSsOption 101 1000 100.

Lemma orderly_s : orderly opt_s 0 stream_s.
Proof.
  intros n p E. destruct (znth_range _ _ _ _ E) as [L1 L2]. change (zlen stream_s) with 9 in L2.
  assert (C : n = 0 \/ n = 1 \/ n = 2 \/ n = 3 \/ n = 4 \/ n = 5 \/ n = 6 \/ n = 7 \/ n = 8) by lia.
  repeat (destruct C as [->|C]); try subst n; injection E as <-; (split;
    [intros v Ev; cbn in Ev; first [discriminate Ev|injection Ev as <-; split; [lia|reflexivity]]
    |intros t It; cbn in It; try contradiction; destruct It as [<-|[]]; cbn; repeat split; auto; try lia; try discriminate; eexists; split; reflexivity]).
Qed.

(** The change is found at packet 6; it started at packet 4.  The PAT is packet
    1. *)
Example C30_case : exists s, FeedPackets (list_source packet) (start_seeker opt_s keep 0) 20 stream_s (ss_init, [])
  = Some (Ok (0, (s, seek_output stream_s (Cut 1 4 7)))).
Proof. eexists. vm_compute. reflexivity. Qed.

Lemma keep_willing : forall d, willing keep d.
Proof.
  assert (H : forall qs d, hand keep d qs = (qs, Ok (d ++ qs, true))).
  { induction qs as [|q qs IH]; intros d; cbn [hand]; [rewrite app_nil_r; reflexivity|].
    change (sk_handle keep d q) with (Ok ((d : list packet) ++ [q], true)). cbv iota.
    rewrite (IH ((d : list packet) ++ [q])), <- app_assoc. reflexivity. }
  intros d qs. rewrite H. do 3 eexists. split; [reflexivity|]. split; reflexivity.
Qed.

Example C30_case_conditions : willing keep [] /\ orderly opt_s 0 stream_s /\ sane_seek opt_s /\
  exists p ts ha, znth 6 stream_s = Some p /\ hears opt_s 0 ha p ts /\ transition opt_s (add ha p ts) 4.
Proof.
  split; [apply keep_willing|]. split; [exact orderly_s|]. split; [split; cbn; lia|].
  exists (spkt 6 0x1F0 None [(TPmt (Some pmt_b), 4)]), [mkTable (TPmt (Some pmt_b)) 4], [(0x1F0, mkTable (TPmt (Some pmt_a)) 2); (0, mkTable (TPat (Some pat_s)) 1)].
  split; [reflexivity|]. split.
  - left. split; [|reflexivity]. left. eexists. reflexivity.
  - apply T_here. exists pmt_a, pmt_b. split; [reflexivity|]. split; [reflexivity|]. exists es_video. split; auto. split.
    + exists 0x100. exists (mkStream true false 2 false None). split; [left; reflexivity|reflexivity].
    + intros A. destruct (proj1 (A 0x100)) as [e [[I|[]] _]]; [|discriminate].
      exists (mkStream true false 2 false None). split; [left; reflexivity|reflexivity].
Qed.

(** A sink may refuse a packet.  Then the claim is false: the refusal is ignored,
    the packets held back are lost and later ones are handed on. *)
Definition fussy : sink packet :=
  mkSink (list packet * bool) (fun s => Ok (s, true))
    (fun s p => if snd s then Ok ((fst s ++ [p], true), true) else Ok ((fst s, true), false)) Ok (fun _ => Ok 0).
Theorem C30_refusing_sink_refuted : exists o ps s out, orderly o 0 ps /\ sane_seek o /\
  FeedPackets (list_source packet) (start_seeker o fussy 0) 20 ps (ss_init, ([], false)) = Some (Ok (0, (s, (out, true)))) /\
  out = zdrop 2 ps /\ out <> [].
Proof.
  exists (mkSsOption 101 0 2), [spkt 0 0x100 None []; spkt 1 0x100 None []; spkt 2 0x100 None []; spkt 3 0x100 None []]. do 2 eexists.
  split; [|split; [split; cbn; lia|split; [reflexivity|split; [reflexivity|discriminate]]]].
  intros n p E. destruct (znth_range _ _ _ _ E) as [L1 L2]. change (zlen _) with 4 in L2.
  assert (C : n = 0 \/ n = 1 \/ n = 2 \/ n = 3) by lia.
  repeat (destruct C as [->|C]); try subst n; injection E as <-; (split; [discriminate|intros t []]).
Qed.
Print Assumptions C30_refusing_sink_refuted.

(** The exact rule for any sink, whether it refuses or fails: it gets the packets
    in [batches], each until it refuses. *)
Theorem C30_exact : forall o stage k ps n d d1, sk_start k d = Ok (d1, true) -> orderly o stage ps -> sane_seek o -> (List.length ps < n)%nat ->
  exists r s, seek o stage [] None 0 ps r /\
    FeedPackets (list_source packet) (start_seeker o k stage) n ps (ss_init, d) =
    Some (let* d2 := snd (hand_batches k d1 (batches ps r)) in
          let* d3 := sk_end k d2 in let* c := sk_exit k d3 in Ok (c, (s, d3))).
Proof. exact seek_any. Qed.
Print Assumptions C30_exact.

(** The PAT packet is refused; the packets from the change on are handed over. *)
Example C30_case_exact : orderly opt_s 0 stream_s /\
  snd (hand_batches fussy ([], false) (batches stream_s (Cut 1 4 7))) = Ok (zdrop 4 stream_s, true) /\
  exists s, FeedPackets (list_source packet) (start_seeker opt_s fussy 0) 20 stream_s (ss_init, ([], false)) = Some (Ok (0, (s, (zdrop 4 stream_s, true)))).
Proof. split; [exact orderly_s|]. split; [reflexivity|]. eexists. vm_compute. reflexivity. Qed.

(** C31: fewer than max-packets packets are held back between packets, and none
    any more after that many, in front of any sink and on any input. *)
Theorem C31_limit : forall sid dur n o stage k ps d out s d' b, ss_LoadOption sid dur (Some n) = Some o -> 0 < n < 2 ^ 32 ->
  hand (start_seeker o k stage) (ss_init, d) ps = (out, Ok ((s, d'), b)) ->
  zlen (ss_packets s) < n /\ (n <= zlen ps -> ss_streaming s = true /\ ss_packets s = []).
Proof. exact limit_held. Qed.
Print Assumptions C31_limit.

Example C31_case : exists o out s d, ss_LoadOption 101 None (Some 4) = Some o /\
  hand (start_seeker o keep 0) (ss_init, []) (ztake 3 stream_s) = (out, Ok ((s, d), true)) /\ zlen (ss_packets s) = 3 /\
  exists s2 d2, hand (start_seeker o keep 0) (s, d) [spkt 3 0x100 None []] = ([spkt 3 0x100 None []], Ok ((s2, d2), true)) /\ zlen d2 = 4.
Proof. do 4 eexists. split; [reflexivity|]. split; [reflexivity|]. split; [reflexivity|]. do 2 eexists. split; reflexivity. Qed.

(** The second part of the claim is false: with --max-packets alone the search
    ends at the second PCR, long before that many packets; with a duration as
    well the same input is cut at the transition. *)
Definition stream_u : list packet :=
  [ spkt 0 0 None [(TPat (Some pat_s), 0)]; spkt 1 0x1F0 None [(TPmt (Some pmt_a), 1)]; spkt 2 0x100 (Some 0) [];
    spkt 3 0x100 (Some 1) []; spkt 4 0x1F0 None [(TPmt (Some pmt_b), 4)]; spkt 5 0x120 None [] ].
Theorem C31_packets_only_refuted : exists o s, ss_LoadOption 101 None (Some 1000) = Some o /\
  FeedPackets (list_source packet) (start_seeker o keep 0) 20 stream_u (ss_init, []) = Some (Ok (0, (s, stream_u))) /\
  exists o' s', ss_LoadOption 101 (Some 60000) (Some 1000) = Some o' /\
  FeedPackets (list_source packet) (start_seeker o' keep 0) 20 stream_u (ss_init, []) = Some (Ok (0, (s', seek_output stream_u (Cut 0 4 7)))).
Proof. do 2 eexists. split; [reflexivity|]. split; [reflexivity|]. do 2 eexists. split; reflexivity. Qed.
Print Assumptions C31_packets_only_refuted.

(** The exact rule with only --max-packets, besides [seek]: the search ends at the
    end of the input, after that many packets, or already at a second PCR of the
    service that is not before the first one. *)
Theorem C31_exact : forall sid n o stage ps m, ss_LoadOption sid None (Some n) = Some o -> 0 < n < 2 ^ 32 -> orderly o stage ps ->
  seek o stage [] None 0 ps (Whole m) ->
  m = zlen ps \/ m = n \/ exists i q b p v, 0 <= i < m - 1 /\ znth i ps = Some q /\ p_pcr q = Some b /\ znth (m - 1) ps = Some p /\ p_pcr p = Some v /\
       reached v b = true.
Proof. exact seek_only. Qed.
Print Assumptions C31_exact.
(** The same for any limits. *)
Theorem C31_search_end : forall o stage ps r, sane_seek o -> seek o stage [] None 0 ps r ->
  0 <= held_of r <= zlen ps /\ (sso_max_packets o = 0 \/ held_of r <= sso_max_packets o) /\
  (forall m, r = Whole m -> m = zlen ps \/ (sso_max_packets o <> 0 /\ m = sso_max_packets o) \/
     exists i q b p v, 0 <= i < m - 1 /\ znth i ps = Some q /\ p_pcr q = Some b /\ znth (m - 1) ps = Some p /\ p_pcr p = Some v /\
       reached v ((b + ticks_per_ms * sso_max_duration o) mod pcr_cycle) = true).
Proof. exact seek_when. Qed.
Print Assumptions C31_search_end.

(** Two packets with PCRs: the second one ends the search. *)
Example C31_case_exact : exists o, ss_LoadOption 101 None (Some 1000) = Some o /\
  seek o 0 [(0x1F0, mkTable (TPmt (Some pmt_a)) 2)] (Some 5) 3 [spkt 3 0x100 (Some 5) []; spkt 4 0x100 None []] (Whole 4) /\ reached 5 5 = true.
Proof.
  eexists. split; [reflexivity|]. split; [|reflexivity].
  change 4 with (3 + 1) at 2. eapply (K_duration _ _ _ _ _ _ _ []); [right; split; [|reflexivity]|intros j T|discriminate|reflexivity|reflexivity].
  - intros T. apply TuneProofs.tuned_mute in T; [|reflexivity]. apply tuned_nil in T. destruct T as [T|[]]. discriminate.
  - cbn [add rev map app] in T. inversion T as [x r C|x r j' C T']; subst; [|inversion T'].
    destruct C as [m0 [m [E _]]]. discriminate E.
Qed.

(** C32: a PAT without the service aborts the program, even while streaming. *)
Theorem C32_refuted : exists o ps, sane_seek o /\
  FeedPackets (list_source packet) (start_seeker o keep 0) 20 ps (ss_init, []) = Some (Fail AssertFail).
Proof.
  exists (mkSsOption 101 0 1), [spkt 0 0x100 None []; spkt 1 0x100 None []; spkt 2 0 None [(TPat (Some (mkPat 7 0 [(102, 0x1F1)])), 2)]].
  split; [split; cbn; lia|reflexivity].
Qed.
Print Assumptions C32_refuted.

(** On orderly input it survives (what is missing: PATs without the service, PCRs
    out of range). *)
Theorem C32_survives_partial : forall o stage k ps n d d1, sk_start k d = Ok (d1, true) -> willing k d1 -> orderly o stage ps -> sane_seek o ->
  (List.length ps < n)%nat ->
  exists c x, FeedPackets (list_source packet) (start_seeker o k stage) n ps (ss_init, d) = Some (Ok (c, x)).
Proof. exact seek_survives. Qed.
Print Assumptions C32_survives_partial.

(** The exact rule: it fails if and only if a PAT without the service is heard
    while there is no change. *)
Theorem C32_exact : forall o stage k ps n d d1, sk_start k d = Ok (d1, true) -> willing k d1 -> ordered o stage ps -> sane_seek o ->
  (List.length ps < n)%nat ->
  (exists f, FeedPackets (list_source packet) (start_seeker o k stage) n ps (ss_init, d) = Some (Fail f)) <-> loses o stage [] ps.
Proof. exact seek_fails_iff. Qed.
Print Assumptions C32_exact.

(** [stream_s] and then a PAT without the service: nobody listens any more.  At
    the beginning it is heard. *)
Definition stream_t : list packet := stream_s ++ [spkt 9 0 None [(TPat (Some (mkPat 7 0 [(102, 0x1F1)])), 9)]].
Lemma ordered_t : ordered opt_s 0 stream_t.
Proof.
  intros n p E. destruct (znth_range _ _ _ _ E) as [L1 L2]. change (zlen stream_t) with 10 in L2.
  assert (C : n = 0 \/ n = 1 \/ n = 2 \/ n = 3 \/ n = 4 \/ n = 5 \/ n = 6 \/ n = 7 \/ n = 8 \/ n = 9) by lia.
  repeat (destruct C as [->|C]); try subst n; injection E as <-; (split;
    [intros v Ev; cbn in Ev; first [discriminate Ev|injection Ev as <-; split; [lia|reflexivity]]
    |intros t It; cbn in It; try contradiction; destruct It as [<-|[]]; cbn; repeat split; auto; try lia; try discriminate; try (exfalso; auto; fail);
     eexists; split; reflexivity]).
Qed.
Example C32_case_exact : ordered opt_s 0 stream_t /\ ~ loses opt_s 0 [] stream_t /\ loses opt_s 0 [] (skipn 9 stream_t).
Proof.
  split; [exact ordered_t|]. split.
  - intros L. apply (C32_exact opt_s 0 keep stream_t 20 [] [] eq_refl (keep_willing []) ordered_t) in L; [|split; cbn; lia|cbn; lia].
    destruct L as [f L]. vm_compute in L. discriminate L.
  - eapply L_here; [left; split; [|reflexivity]|left; reflexivity|reflexivity]. apply tuned_nil. left. reflexivity.
Qed.
