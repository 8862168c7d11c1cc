(** C72: what filter-program outputs of a program that is on air. *)
From Coq Require Import ZArith Lia List Bool.
From Verif Require Import Base.Outcome Base.Util Model.Sink Model.Ts Model.ProgramFilter Spec.PcrSpec Spec.FilterSpec Spec.TuneSpec
  Spec.TransSpec Spec.ProgramSpec Spec.SeekSpec Spec.OnAirSpec Proofs.OnAirProofs.
From Verif Require Props.FilterProps Props.ProgramProps.
Import ListNotations.
Open Scope Z_scope.

(** If the broadcast is normal and the clock is right (however old it is), then the
    output is the PAT, the PMT and every packet from the first PCR at or after the
    start time to the first PCR at or after the end time, less the streams that are
    not wanted; the exit status is that of the sink. *)
Theorem C72_window : forall npackets o stage mpid m e K k d d1 pre x mid post n,
  (forall t, (1 <= npackets t)%nat) -> sane_option o -> on_air o stage mpid m e K pre x mid post ->
  let ps := map fst (pre ++ x :: mid ++ post) in
  Forall (sane_packet stage) ps -> (length ps < n)%nat -> sk_start k d = Ok (d1, true) -> willing k d1 ->
  let out := programme npackets o stage mpid m pre x mid in
  exists s d2 d3 c, hand k d1 out = (out, Ok (d2, true)) /\ sk_end k d2 = Ok d3 /\ sk_exit k d3 = Ok c /\
    FeedPackets (list_source packet) (program_filter npackets o k stage) n ps (pf_init o, d) = Some (Ok (c, (s, d3))).
Proof. exact run_on_air. Qed.
Print Assumptions C72_window.

(** A program that starts 27.8 hours after the clock was taken (the PCR has wrapped
    round since) and takes 2 s. *)
Definition pkt := ProgramProps.pkt.
Definition pcrp := ProgramProps.pcrp.
Definition pmt101 := ProgramProps.pmt101.
Definition e5 := mkEvent 5 100000000 2 0.
Definition opt := mkPfOption 101 5 0x100 5 0 [0x10] [] 0 0 None false.
Definition begin_tick : Z := 2700000000000.
Definition at_tick (id t : Z) : packet * Z := (pcrp id 0x100 ((5 + t) mod pcr_cycle), t).
Definition pre : list (packet * Z) :=
  [ (pkt 1 0 [TPat (Some ProgramProps.pat101)], 0); (pkt 2 0x1F0 [TPmt (Some pmt101)], 0);
    (pkt 3 0x12 [TEit (Some (mkEit 101 7 4 0 [e5]))], 0); at_tick 4 (begin_tick - 1); (pkt 5 0x110 [], 0) ].
Definition x : packet * Z := at_tick 6 begin_tick.
Definition mid : list (packet * Z) :=
  [ (pkt 7 0x110 [], 0); (pkt 8 0x111 [], 0); (pkt 9 0x1F0 [], 0); at_tick 10 (begin_tick + 53999999); (pkt 11 0x12 [], 0) ].
Definition post : list (packet * Z) := [ at_tick 12 (begin_tick + 54000000); (pkt 13 0x110 [], 0) ].

Ltac each := repeat match goal with H : In _ (_ :: _) |- _ => destruct H as [<-|H] | H : In _ [] |- _ => destruct H
  | H : _ = _ \/ _ |- _ => destruct H as [<-|H] | H : False |- _ => destruct H end.

Example C72_hypotheses : sane_option opt /\ on_air opt 0 0x1F0 pmt101 e5 5 pre x mid post /\
  Forall (sane_packet 0) (map fst (pre ++ x :: mid ++ post)) /\ willing FilterProps.keep [].
Proof.
  assert (S1 : start_tick opt e5 = begin_tick) by reflexivity.
  assert (S2 : end_tick opt e5 = begin_tick + 54000000) by reflexivity.
  split; [vm_compute; intuition discriminate|]. split; [constructor|split].
  - vm_compute. intuition discriminate.
  - reflexivity.
  - discriminate.
  - reflexivity.
  - apply Forall_forall. intros y I. unfold pre, x, mid, post in I; cbn [app firstn] in I. each; intros Q v E; vm_compute in Q, E; try discriminate; injection E as <-; reflexivity.
  - intros y I (Q & E). rewrite S1, S2. unfold pre, x, mid, post in I; cbn [app firstn] in I. each; vm_compute in Q, E; try congruence; split; reflexivity.
  - reflexivity.
  - intros y I (Q & E). rewrite S1. unfold pre in I. each; vm_compute in Q, E; try congruence; reflexivity.
  - rewrite S1. split; [split; [reflexivity|vm_compute; discriminate]|]. split; [vm_compute; discriminate|reflexivity].
  - intros y I (Q & E). rewrite S2. unfold x, mid in I. each; vm_compute in Q, E; try congruence; reflexivity.
  - intros y r [= <- <-]. rewrite S2. split; [split; [reflexivity|vm_compute; discriminate]|]. split; [vm_compute; discriminate|reflexivity].
  - split; apply Forall_forall; intros p I; unfold pre, x, mid, post in I; cbn [app firstn map] in I; each; intros t It; vm_compute in It; each;
      (split; [split; [reflexivity|split; intros ? ? H; vm_compute in H |- *; congruence]|]);
      (split; [intros ? ? H; vm_compute in H |- *; congruence|]); (split; [intros ? H; vm_compute in H |- *; congruence|reflexivity]).
  - exists [pkt 1 0 [TPat (Some ProgramProps.pat101)]], (skipn 1 (map fst pre)). split; [reflexivity|]. split; [|split].
    + eexists. split; [left; reflexivity|]. eexists _, _. split; [left; reflexivity|reflexivity].
    + eexists. split; [left; reflexivity|]. eexists _, _. split; [left; reflexivity|reflexivity].
    + eexists. split; [right; right; left; reflexivity|]. split; [reflexivity|]. eexists _, _. split; [left; reflexivity|reflexivity].
  - apply Forall_forall. intros p I. unfold pre, x, mid, post in I; cbn [app map] in I. each; (split; [intros v E; vm_compute in E; try discriminate; injection E as <-; vm_compute; intuition discriminate|]);
      intros t It; vm_compute in It; each; cbn; auto. repeat constructor; cbn; lia.
  - intros qs. exists qs, qs, 0. split; [|split; reflexivity].
    assert (G : forall ps acc, hand FilterProps.keep acc ps = (ps, Ok (acc ++ ps, true))).
    { induction ps as [|p ps IH]; intros acc; cbn [hand]; [rewrite app_nil_r; reflexivity|].
      change (sk_handle FilterProps.keep acc p) with (@Ok (list packet * bool) (acc ++ [p], true)). cbn. rewrite IH, <- app_assoc. reflexivity. }
    exact (G qs []).
Qed.

Example C72_case : programme ProgramProps.two opt 0 0x1F0 pmt101 pre x mid =
  [ pkt 1 0 [TPat (Some ProgramProps.pat101)]; pmt_packet 0x1F0 (reduced opt pmt101) 0; pmt_packet 0x1F0 (reduced opt pmt101) 1;
    fst x; pkt 7 0x110 []; pmt_packet 0x1F0 (reduced opt pmt101) 0; fst (at_tick 10 (begin_tick + 53999999)); pkt 11 0x12 [] ] /\
  exists s, FeedPackets (list_source packet) (program_filter ProgramProps.two opt FilterProps.keep 0) 30 (map fst (pre ++ x :: mid ++ post)) (pf_init opt, [])
    = Some (Ok (0, (s, programme ProgramProps.two opt 0 0x1F0 pmt101 pre x mid))).
Proof. split; [reflexivity|]. eexists. vm_compute. reflexivity. Qed.
