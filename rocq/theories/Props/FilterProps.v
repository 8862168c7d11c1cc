(** C20 - C23: filter-service. *)
From Coq Require Import ZArith Lia List Bool.
From Verif Require Import Base.Outcome Base.Util Model.Sink Model.Ts Model.ServiceFilter Spec.FeedSpec Spec.FilterSpec
  Proofs.FeedProofs Proofs.FilterProofs Proofs.FilterMain.
Import ListNotations.
Open Scope Z_scope.

(** C20: in front of any sink, the filter does what [filtered] says: it forwards
    the wanted packets, in terms of the tables heard so far. *)
Theorem C20_forwards_exactly : forall stage opt k ps n d d1,
  (List.length ps < n)%nat -> sk_start k d = Ok (d1, true) ->
  exists out e h d2, filtered (sfo_sid opt) (sfo_time_limit opt) stage k [] d1 ps out e h d2 /\
  match e with
  | Crashed f => FeedPackets (list_source packet) (service_filter stage opt k) n ps (sf_init opt, d) = Some (Fail f)
  | _ =>
      match sk_end k d2 with
      | Fail f => FeedPackets (list_source packet) (service_filter stage opt k) n ps (sf_init opt, d) = Some (Fail f)
      | Ok d3 =>
          match sk_exit k d3 with
          | Fail f => FeedPackets (list_source packet) (service_filter stage opt k) n ps (sf_init opt, d) = Some (Fail f)
          | Ok c => exists s code, exit_code (sfo_sid opt) h c code /\
              FeedPackets (list_source packet) (service_filter stage opt k) n ps (sf_init opt, d) = Some (Ok (code, (s, d3)))
          end
      end
  end.
Proof. exact filter_refines. Qed.
Print Assumptions C20_forwards_exactly.

(** The specification leaves no choice. *)
Theorem C20_spec_deterministic : forall sid limit stage k h d ps o1 e1 h1 d1 o2 e2 h2 d2,
  filtered sid limit stage k h d ps o1 e1 h1 d1 -> filtered sid limit stage k h d ps o2 e2 h2 d2 ->
  o1 = o2 /\ e1 = e2 /\ h1 = h2 /\ d1 = d2.
Proof. exact filtered_det. Qed.
Print Assumptions C20_spec_deterministic.

(** A sink that keeps what it gets and never refuses. *)
Definition keep : sink packet :=
  mkSink (list packet) (fun s => Ok (s, true)) (fun s p => Ok (s ++ [p], true)) Ok (fun _ => Ok 0).

Definition pkt (id pid : Z) (ts : list body) : packet :=
  mkPacket (Raw id) pid false None None None (fun _ => map (fun b => mkTable b 0) ts) (fun _ => 1%nat).
Definition pat1 := mkPat 7 0 [(0, 0x10); (101, 0x1F0); (102, 0x1F1)].
Definition pmt1 := mkPmt 101 0 0x100 [0x700] [(0x100, mkStream true false 2 false None); (0x110, mkStream false true 15 false None)].
Definition cat1 := mkCat 0 [0x900].
Definition stream1 : list packet :=
  [ pkt 0 0x100 []; pkt 1 0 [TPat (Some pat1)]; pkt 2 0x1F1 [TPmt (Some (mkPmt 102 0 0x200 [] []))];
    pkt 3 0x1F0 [TPmt (Some pmt1)]; pkt 4 0x100 []; pkt 5 0x200 []; pkt 6 0x700 []; pkt 7 0x900 [];
    pkt 8 1 [TCat (Some cat1)]; pkt 9 0x900 []; pkt 10 0x14 [TTot (Some 50)]; pkt 11 0x1FFF [] ].
Definition opt1 := mkSfOption 101 None.

(** The PAT is rewritten; the packets of the other service, of unknown PIDs and
    the null packet are dropped. *)
Example C20_case : exists s, FeedPackets (list_source packet) (service_filter 0 opt1 keep) 20 stream1 (sf_init opt1, [])
  = Some (Ok (0, (s,
     [ gen_pat (pkt 1 0 [TPat (Some pat1)]) (mkPat 7 0 [(0, 0x10); (101, 0x1F0)]);
       pkt 3 0x1F0 [TPmt (Some pmt1)]; pkt 4 0x100 []; pkt 6 0x700 []; pkt 8 1 [TCat (Some cat1)];
       pkt 9 0x900 []; pkt 10 0x14 [TTot (Some 50)] ]))).
Proof. eexists. reflexivity. Qed.

(** C21: the packets received by the sink, in order, are input packets; only PAT
    packets are replaced. *)
Theorem C21_rewrites_only_pat : forall stage opt k ps n d code s d' log, (List.length ps < n)%nat ->
  FeedPackets (list_source packet) (service_filter stage opt (logged k)) n ps (sf_init opt, (d, [])) = Some (Ok (code, (s, (d', log)))) ->
  thinned (sfo_sid opt) ps (sent log).
Proof. exact filter_thinned. Qed.
Print Assumptions C21_rewrites_only_pat.

Example C21_case : exists code s log,
  FeedPackets (list_source packet) (service_filter 0 opt1 (logged keep)) 20 stream1 (sf_init opt1, ([], [])) = Some (Ok (code, (s, log)))
  /\ List.length (sent (snd log)) = 7%nat.
Proof. do 3 eexists. split; reflexivity. Qed.

(** C22: the run ends before the input does, other than by refusal of the sink,
    exactly when a PAT without the service or a TOT at the limit was heard ... *)
Theorem C22_stops_exactly : forall sid limit stage k d ps out e h d',
  filtered sid limit stage k [] d ps out e h d' -> (forall f, e <> Crashed f) ->
  (e = Stopped <-> over sid limit h).
Proof. exact filter_stop_iff. Qed.
Print Assumptions C22_stops_exactly.

(** ... and then the rest of the input has no effect. *)
Theorem C22_nothing_after : forall stage opt k ps more n m d code s d1 d',
  (List.length ps < n)%nat -> (List.length (ps ++ more) < m)%nat ->
  sk_start k d = Ok (d1, true) ->
  FeedPackets (list_source packet) (service_filter stage opt k) n ps (sf_init opt, d) = Some (Ok (code, (s, d'))) ->
  (exists out e h d2, filtered (sfo_sid opt) (sfo_time_limit opt) stage k [] d1 ps out e h d2 /\ e <> Exhausted) ->
  exists s', FeedPackets (list_source packet) (service_filter stage opt k) m (ps ++ more) (sf_init opt, d) = Some (Ok (code, (s', d'))).
Proof. exact filter_nothing_after. Qed.
Print Assumptions C22_nothing_after.

Definition opt_limit := mkSfOption 101 (Some 100).
Definition stream2 : list packet :=
  [ pkt 1 0 [TPat (Some pat1)]; pkt 2 0x14 [TTot (Some 99)]; pkt 3 0x14 [TTot (Some 100)]; pkt 4 0x10 [] ].
Example C22_case_limit : exists s, FeedPackets (list_source packet) (service_filter 0 opt_limit keep) 20 stream2 (sf_init opt_limit, [])
  = Some (Ok (0, (s, [ gen_pat (pkt 1 0 [TPat (Some pat1)]) (mkPat 7 0 [(0, 0x10); (101, 0x1F0)]); pkt 2 0x14 [TTot (Some 99)] ]))).
Proof. eexists. reflexivity. Qed.
Definition opt_absent := mkSfOption 103 None.
Example C22_case_absent : exists s, FeedPackets (list_source packet) (service_filter 0 opt_absent keep) 20 stream1 (sf_init opt_absent, [])
  = Some (Ok (1, (s, []))).
Proof. eexists. reflexivity. Qed.

(** C23 in full (no stream makes the filter abort or throw) is false.  A PMT
    without PCR (PCR PID 0x1FFF, which the standard allows) followed by a null
    packet fails an assertion ... *)
Theorem C23_survives_refuted : exists opt ps, exists f,
  FeedPackets (list_source packet) (service_filter 0 opt keep) 20 ps (sf_init opt, []) = Some (Fail f).
Proof.
  exists opt1, [pkt 1 0 [TPat (Some pat1)]; pkt 2 0x1F0 [TPmt (Some (mkPmt 101 0 0x1FFF [] []))]; pkt 3 0x1FFF []], AssertFail.
  reflexivity.
Qed.
Print Assumptions C23_survives_refuted.

(** ... a CAT that names PID 0 as EMM PID does so at the first packet of PID 0
    that completes no PAT ... *)
Theorem C23_emm_pid_zero_refuted : exists ps,
  FeedPackets (list_source packet) (service_filter 0 opt1 keep) 20 ps (sf_init opt1, []) = Some (Fail AssertFail).
Proof. exists [pkt 1 1 [TCat (Some (mkCat 0 [0]))]; pkt 2 0 []]. reflexivity. Qed.
Print Assumptions C23_emm_pid_zero_refuted.

(** ... and without a time limit a TOT on the PID of the PAT, the CAT or the PMT
    ends in an exception. *)
Theorem C23_stray_tot_refuted : exists ps,
  FeedPackets (list_source packet) (service_filter 0 opt1 keep) 20 ps (sf_init opt1, []) = Some (Fail Uncaught).
Proof. exists [pkt 1 1 [TTot (Some 5)]]. reflexivity. Qed.
Print Assumptions C23_stray_tot_refuted.

(** What holds: it survives all streams whose tables are [tame]. *)
Theorem C23_survives_partial : forall stage opt k ps n d, (List.length ps < n)%nat -> never_fails k ->
  (forall p t, In p ps -> In t (p_tabs p stage) -> tame (sfo_sid opt) (sfo_time_limit opt) (p_pid p, tb_body t)) ->
  exists code s, FeedPackets (list_source packet) (service_filter stage opt k) n ps (sf_init opt, d) = Some (Ok (code, s)).
Proof. exact filter_survives. Qed.
Print Assumptions C23_survives_partial.

(** The exact rule, for a sink that takes everything: the filter fails if and only
    if some packet upsets it before the filter has a reason to stop. *)
Theorem C23_exact : forall stage opt k ps n d, (List.length ps < n)%nat -> never_fails k -> never_refuses k ->
  (exists f, FeedPackets (list_source packet) (service_filter stage opt k) n ps (sf_init opt, d) = Some (Fail f)) <->
  exists pre p post h1 h2, ps = pre ++ p :: post /\
    listened (sfo_sid opt) (sfo_time_limit opt) stage [] pre h1 /\ ~ over (sfo_sid opt) (sfo_time_limit opt) h1 /\
    heard (sfo_sid opt) (sfo_time_limit opt) stage h1 p h2 /\ upset (sfo_sid opt) (sfo_time_limit opt) h2 p.
Proof. exact filter_fails_iff. Qed.
Print Assumptions C23_exact.

Example C23_case_exact : never_fails keep /\ never_refuses keep /\
  let p := pkt 1 1 [TTot (Some 5)] in
  heard 101 None 0 [] p [(1, TTot (Some 5))] /\ upset 101 None [(1, TTot (Some 5))] p /\
  ~ upset 101 (Some 9) [(1, TTot (Some 5))] p.
Proof.
  split; [repeat split; cbn; eauto|]. split; [split; cbn; congruence|]. cbn zeta. split; [|split].
  - left. split; [|reflexivity]. right. left. split; [cbn; auto|]. intros [x [t [[] _]]].
  - left. split; auto. exists (1, TTot (Some 5)), 5. split; [left|]; reflexivity.
  - intros [[H _]|[_ [_ [H|[H _]]]]]; cbn in H; discriminate.
Qed.

Example C23_case : never_fails keep /\
  forall p t, In p stream1 -> In t (p_tabs p 0) -> tame 101 None (p_pid p, tb_body t).
Proof.
  split; [repeat split; cbn; eauto|]. intros p t Hp Ht. cbn in Hp.
  repeat (destruct Hp as [<-|Hp]; [cbn in Ht; repeat (destruct Ht as [<-|Ht]; [cbn|]); try contradiction|]); try contradiction.
  - intros pid H. vm_compute in H. injection H as <-. lia.
  - intros pid [->|[[]|[]]]. vm_compute. split; discriminate.
  - intros pid H. unfold tame in H. cbn in H. intuition (subst; vm_compute; try split; discriminate).
  - intros pid [<-|[]]. split; discriminate.
  - right. reflexivity.
Qed.
