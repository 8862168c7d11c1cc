(** C43, C44: collect-eitpf. *)
From Coq Require Import ZArith Lia List Bool Sorted.
From Verif Require Import Base.Outcome Base.Util Model.Sink Model.EitSection Model.EitCollector Model.EitpfCollector
  Proofs.EitSectionProofs Proofs.PfProofs Proofs.PfExact Spec.EitSpec Spec.PfSpec Props.EitProps.
Import ListNotations.
Open Scope Z_scope.

(** * C43: output exactly on a change of version *)

Theorem C43_output : forall mjd o xs s x, sane_mjd mjd -> pf_wires xs -> wire x ->
  pf_handle_all mjd o pf_init xs = Ok s ->
  (pf_counts o x -> changed o xs x -> pf_selected o x ->
     (consistent x -> exists s' d, pf_handleSection mjd o s x = Ok s' /\ pf_out s' = pf_out s ++ [d] /\ describes mjd x d) /\
     (~ consistent x -> pf_handleSection mjd o s x = Fail Undefined)) /\
  (~ (pf_counts o x /\ changed o xs x /\ pf_selected o x) ->
     exists s', pf_handleSection mjd o s x = Ok s' /\ pf_out s' = pf_out s).
Proof. intros mjd o xs s x H. exact (pf_output mjd o H xs s x). Qed.
Print Assumptions C43_output.

(** A present/following section of service [sid] of transport stream [ts]. *)
Definition pf (ts sid version number : Z) : section :=
  mkSection true 0x12 0x4E sid version false number 1 ([0; ts; 0; 3; 1; 0x4E] ++ encode film) [9; 9; 9; 9].

Lemma pf_wire : forall ts sid v n, byte ts -> byte sid -> 0 <= v < 32 -> byte n -> wire (pf ts sid v n).
Proof.
  intros ts sid v n H1 H2 H3 H4. unfold byte in H2. unfold wire, pf. cbn [sn_ext sn_tid sn_version sn_number sn_last sn_payload sn_crc].
  split; [lia|]. split; [unfold byte; lia|]. do 2 (split; [assumption|]). split; [unfold byte; lia|].
  split; [|split; reflexivity].
  change (encode film) with [0x12; 0x34; 0xEB; 0x7F; 0x20; 0x54; 0x00; 0x01; 0x36; 0x00; 0x20; 0x02; 0x4D; 0x00].
  cbn [app]. repeat (constructor; [first [assumption|unfold byte; lia]|]). constructor.
Qed.

Lemma pf_consistent : forall ts sid v n, byte ts -> consistent (pf ts sid v n).
Proof.
  intros ts sid v n H. exists ts, 3, 1, 0x4E, [film], []. unfold consists, pf. cbn [sn_payload]. unfold byte in H.
  rewrite (Z.div_small ts 256), (Z.mod_small ts 256) by lia.
  split; [cbn [map concat]; rewrite !app_nil_r; reflexivity|]. do 2 (split; [lia|]).
  split; [constructor; [apply film_ok|constructor]|]. reflexivity.
Qed.

Definition pair_of_1 : pf_option := mkPfOption [1] false true true.

Ltac pf_wires_tac :=
  let x := fresh in let H := fresh in
  intros x H; cbn [In] in H; repeat (destruct H as [<-|H]; [apply pf_wire; unfold byte; lia|]); destruct H.

(** Version 2 after version 1. *)
Example C43_example : exists s s' d,
  pf_handle_all dates pair_of_1 pf_init [pf 2 1 1 0] = Ok s /\ pf_wires [pf 2 1 1 0] /\
  pf_counts pair_of_1 (pf 2 1 2 0) /\ changed pair_of_1 [pf 2 1 1 0] (pf 2 1 2 0) /\ pf_selected pair_of_1 (pf 2 1 2 0) /\
  pf_handleSection dates pair_of_1 s (pf 2 1 2 0) = Ok s' /\ pf_out s' = pf_out s ++ [d].
Proof.
  do 3 eexists. split; [vm_compute; reflexivity|]. split; [pf_wires_tac|].
  split; [unfold pf_counts; cbn; repeat split; auto; vm_compute; congruence|].
  split; [|split; [left; split; reflexivity|split; vm_compute; reflexivity]].
  intros y L. destruct L as (pre & post & E & _). destruct pre as [|a pre]; cbn [app] in E.
  - injection E as <- _. discriminate.
  - injection E as _ E. destruct pre; discriminate.
Qed.

(** * C44: the end *)

(** If the sections of each listed service id belong to one service and the list
    is not empty: no packet throws, and the packet after which every listed
    service is complete is the one that ends the collection. *)
Theorem C44_partial : forall mjd o xs s p, sane_mjd mjd -> pf_wires (xs ++ p) -> one_stream o (xs ++ p) ->
  pf_handle_all mjd o pf_init xs = Ok s -> (forall x, In x p -> consistent x) ->
  po_sids o <> [] -> NoDup (po_sids o) -> po_streaming o = false ->
  po_present o = true \/ po_following o = true ->
  exists s' go, pf_HandlePacket mjd o s p = Ok (s', go) /\ pf_handle_all mjd o pf_init (xs ++ p) = Ok s' /\
    (go = false <-> forall sid, In sid (po_sids o) -> complete o (xs ++ p) sid).
Proof. intros mjd o xs s p H. exact (pf_packet mjd o H xs s p). Qed.
Print Assumptions C44_partial.

Theorem C44_streaming : forall mjd o s p s' go, po_streaming o = true ->
  pf_HandlePacket mjd o s p = Ok (s', go) -> go = true.
Proof.
  intros mjd o s p s' go St H. unfold pf_HandlePacket in H. apply bind_ok in H as (s1 & _ & H).
  unfold pf_Done in H. rewrite St in H. cbn [bind] in H. injection H as _ <-. reflexivity.
Qed.
Print Assumptions C44_streaming.

Example C44_partial_example : exists s s',
  pf_handle_all dates pair_of_1 pf_init [pf 2 1 1 0] = Ok s /\ pf_wires ([pf 2 1 1 0] ++ [pf 2 1 1 1]) /\
  one_stream pair_of_1 ([pf 2 1 1 0] ++ [pf 2 1 1 1]) /\ consistent (pf 2 1 1 1) /\
  pf_HandlePacket dates pair_of_1 s [pf 2 1 1 1] = Ok (s', false).
Proof.
  do 2 eexists. split; [vm_compute; reflexivity|]. split; [pf_wires_tac|].
  split; [|split; [apply pf_consistent; unfold byte; lia|vm_compute; reflexivity]].
  intros x y [<-|[<-|[]]] [<-|[<-|[]]] _ _ _; reflexivity.
Qed.

(** The exact rule, for any options and any stream of consistent sections: the
    command counts the services, not the service ids; when the counts are right it
    compares the versions service by service, and throws at one whose following
    section has not arrived. *)
Theorem C44_exact : forall mjd o xs s p, sane_mjd mjd -> pf_wires (xs ++ p) -> pf_handle_all mjd o pf_init xs = Ok s ->
  (forall x, In x p -> consistent x) ->
  exists s' present following, pf_handle_all mjd o pf_init (xs ++ p) = Ok s' /\
    arrived o (xs ++ p) 0 present /\ arrived o (xs ++ p) 1 following /\
    (short o present following -> pf_HandlePacket mjd o s p = Ok (s', true)) /\
    (~ short o present following -> ~ (po_present o = true /\ po_following o = true) ->
       pf_HandlePacket mjd o s p = Ok (s', false)) /\
    (~ short o present following -> po_present o = true -> po_following o = true ->
       exists v, compared o (xs ++ p) present v /\
         pf_HandlePacket mjd o s p = match v with Same => Ok (s', false) | Differ => Ok (s', true) | Lost => Fail Uncaught end).
Proof. intros mjd o xs s p H. exact (pf_exact mjd H o xs s p). Qed.
Print Assumptions C44_exact.

(** The rule leaves no choice. *)
Theorem C44_exact_deterministic : forall o xs n a b v w,
  (arrived o xs n a -> arrived o xs n b -> a = b) /\ (compared o xs a v -> compared o xs a w -> v = w).
Proof. intros. split; [apply arrived_unique|apply compared_unique]. Qed.
Print Assumptions C44_exact_deterministic.

(** Present and following of version 1, on two transport streams. *)
Example C44_exact_case : let xs := [pf 2 1 1 0; pf 4 1 1 1] in
  pf_wires xs /\ arrived pair_of_1 xs 0 [(3, 2, 1)] /\ arrived pair_of_1 xs 1 [(3, 4, 1)] /\
  ~ short pair_of_1 [(3, 2, 1)] [(3, 4, 1)] /\ compared pair_of_1 xs [(3, 2, 1)] Lost.
Proof.
  cbn zeta. split; [pf_wires_tac|].
  assert (C0 : pf_counts pair_of_1 (pf 2 1 1 0)) by (unfold pf_counts; cbn; repeat split; auto; vm_compute; congruence).
  assert (C1 : pf_counts pair_of_1 (pf 4 1 1 1)) by (unfold pf_counts; cbn; repeat split; auto; vm_compute; congruence).
  split; [|split; [|split]].
  - split; [repeat constructor|]. intros svc. split.
    + intros [<-|[]]. exists (pf 2 1 1 0), [], [pf 4 1 1 1]. do 4 (split; [auto|]). intros z [<-|[]] _ H. discriminate H.
    + intros (y & H). destruct (last_for_counts _ _ _ _ _ H) as ([<-|[<-|[]]] & _ & <- & N); [left; reflexivity|discriminate N].
  - split; [repeat constructor|]. intros svc. split.
    + intros [<-|[]]. exists (pf 4 1 1 1), [pf 2 1 1 0], []. do 4 (split; [auto|]). intros z [].
    + intros (y & H). destruct (last_for_counts _ _ _ _ _ H) as ([<-|[<-|[]]] & _ & <- & N); [discriminate N|left; reflexivity].
  - intros [H|[[_ H]|[_ H]]]; [discriminate H|apply H; reflexivity|apply H; reflexivity].
  - apply Cmp_lost. intros z H. destruct (last_for_counts _ _ _ _ _ H) as ([<-|[<-|[]]] & _ & S & N); [discriminate N|discriminate S].
Qed.

(** The present section arrives for the service on one transport stream and the
    following section for the same service id on another one: the program ends
    with an exception. *)
Theorem C44_throw_refuted : exists o s p, po_sids o <> [] /\ NoDup (po_sids o) /\ po_streaming o = false /\
  pf_wires ([pf 2 1 1 0] ++ p) /\ pf_handle_all dates o pf_init [pf 2 1 1 0] = Ok s /\
  pf_HandlePacket dates o s p = Fail Uncaught.
Proof.
  exists pair_of_1. eexists. exists [pf 4 1 1 1].
  split; [discriminate|]. split; [constructor; [intros []|constructor]|]. split; [reflexivity|].
  split; [pf_wires_tac|]. split; [vm_compute; reflexivity|]. vm_compute. reflexivity.
Qed.
Print Assumptions C44_throw_refuted.

(** A service id that arrives on two transport streams counts twice: with two
    listed services the collection ends without the second one. *)
Theorem C44_end_refuted : exists o s p s', po_sids o = [1; 5] /\ po_streaming o = false /\
  pf_wires ([pf 2 1 1 0] ++ p) /\ pf_handle_all dates o pf_init [pf 2 1 1 0] = Ok s /\
  pf_HandlePacket dates o s p = Ok (s', false) /\
  (forall x, In x ([pf 2 1 1 0] ++ p) -> sid_of x <> 5).
Proof.
  exists (mkPfOption [1; 5] false true false). eexists. exists [pf 4 1 1 0]. eexists.
  split; [reflexivity|]. split; [reflexivity|]. split; [pf_wires_tac|].
  split; [vm_compute; reflexivity|]. split; [vm_compute; reflexivity|].
  intros x [<-|[<-|[]]]; discriminate.
Qed.
Print Assumptions C44_end_refuted.

(** With no service listed the first packet that completes no section ends the
    collection; once a section has arrived it never ends. *)
Theorem C44_empty_refuted : forall mjd present following,
  exists s, pf_HandlePacket mjd (mkPfOption [] false present following) pf_init [] = Ok (s, false).
Proof. intros mjd present following. exists pf_init. destruct present; destruct following; reflexivity. Qed.
Print Assumptions C44_empty_refuted.
