(** Proofs about the commands that output JSON, from the file to the documents. *)
From Coq Require Import ZArith Lia List Bool.
From Verif Require Import Base.Outcome Base.Util Model.Sink Model.FileSource Model.Ts Model.Options Model.EitSection Model.Commands
  Spec.FeedSpec Spec.SourceSpec Spec.OptionSpec Spec.PipeSpec Proofs.OptionProofs Proofs.PipeProofs Proofs.PipeOptions.
From Verif Require Model.ServiceScanner Model.PcrSynchronizer Model.EitpfCollector Spec.ScanSpec Spec.SyncSpec Proofs.PfRun.
Import ListNotations.
Open Scope Z_scope.

(** What holds of every run on packets holds of the command. *)
Lemma main_ok : forall P (view : list (list Z) -> list Z -> P) (k : sink P) reads bs d n (Q : Z -> sk_state k -> Prop),
  Forall read_ok reads -> packets_of (bytes_of reads) bs -> (List.length (bytes_of reads) < n)%nat ->
  ((List.length (views view [] bs) < n)%nat ->
   exists c s, FeedPackets (list_source P) k n (views view [] bs) d = Some (Ok (c, s)) /\ Q c s) ->
  exists c seen s, run_main view k reads d n = Some (Ok (c, (seen, s))) /\ Q c s.
Proof.
  intros P view k reads bs d n Q R Pk Hn H. destruct H as [c [s [E q]]].
  { rewrite views_length. pose proof (packets_length _ _ Pk). lia. }
  pose proof (main_feed view k reads bs d n R Pk Hn) as M. rewrite E in M. destruct M as [h M]. exists c, h, s. auto.
Qed.

Lemma load_scan : forall sids xsids ns xs, ids_given sids ns -> ids_given xsids xs ->
  exists o, load_service_scanner sids xsids = Ok o /\
    forall v, ScanSpec.chosen o v <-> (ns = [] \/ In v ns) /\ ~ In v xs.
Proof.
  intros sids xsids ns xs S X. destruct (load_ids _ _ S) as [s1 [E1 I1]], (load_ids _ _ X) as [s2 [E2 I2]].
  unfold load_service_scanner. rewrite E1. cbn [bind]. rewrite E2. cbn [bind]. eexists. split; [reflexivity|].
  intros v. unfold ScanSpec.chosen. cbn. rewrite (same_empty _ _ I1), (I1 v), (I2 v). tauto.
Qed.

Lemma load_sync : forall sids xsids ns xs, ids_given sids ns -> ids_given xsids xs ->
  exists o, load_pcr_synchronizer sids xsids = Ok o /\
    forall v, SyncSpec.wanted o v <-> (ns = [] \/ In v ns) /\ ~ In v xs.
Proof.
  intros sids xsids ns xs S X. destruct (load_ids _ _ S) as [s1 [E1 I1]], (load_ids _ _ X) as [s2 [E2 I2]].
  unfold load_pcr_synchronizer. rewrite E1. cbn [bind]. rewrite E2. cbn [bind]. eexists. split; [reflexivity|].
  intros v. unfold SyncSpec.wanted. cbn. rewrite (same_empty _ _ I1), (I1 v), (I2 v). tauto.
Qed.

Lemma ids_once : forall a set, LoadSidSet a = Ok set -> NoDup set.
Proof.
  intros [strs|] set; cbn [LoadSidSet].
  - assert (G : forall strs acc, NoDup acc -> SidSet_Add acc strs = Ok set -> NoDup set).
    { clear. induction strs as [|str strs IH]; intros acc N E; cbn [SidSet_Add] in E; [injection E as <-; auto|].
      destruct (stoi str) as [[v pos]|f]; cbn [bind] in E; [|discriminate].
      destruct (negb (pos =? zlen str)); [eauto|]. apply IH in E; auto. unfold zadd. destruct (zmem _ acc) eqn:M; [auto|].
      constructor; auto. apply zmem_false in M. exact M. }
    apply G. constructor.
  - intros [= <-]. constructor.
Qed.

Lemma load_pf : forall sids ns streaming present following, ids_given sids ns ->
  exists o, load_eitpf_collector sids streaming present following = Ok o /\ EitpfCollector.po_streaming o = streaming /\
    EitpfCollector.po_present o = negb following /\ EitpfCollector.po_following o = negb present /\
    NoDup (EitpfCollector.po_sids o) /\ (forall v, In v (EitpfCollector.po_sids o) <-> In v ns).
Proof.
  intros sids ns streaming present following S. destruct (load_ids _ _ S) as [s1 [E1 I1]]. unfold load_eitpf_collector. rewrite E1. cbn [bind].
  eexists. split; [reflexivity|]. cbn. do 3 (split; [reflexivity|]). split; [exact (ids_once _ _ E1)|exact I1].
Qed.
