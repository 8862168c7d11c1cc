(** C51, C52: track-airtime and filter-program-metadata. *)
From Coq Require Import ZArith Lia List Bool.
From Verif Require Import Base.Outcome Base.Util Model.Sink Model.Ts Model.AirtimeTracker Model.MetadataFilter
  Proofs.EventProofs Spec.EventSpec Props.ScanProps.
Import ListNotations.
Open Scope Z_scope.

(** * C51 *)

(** Tracking reads the packets up to and including the first one with an EIT of
    the service that lacks the event, or all packets; the output is one document
    for each EIT of the service that has it. *)
Theorem C51_airtime : forall o ps fuel, sane_eits ps -> (List.length ps < fuel)%nat ->
  exists s h rest, FeedPackets (list_source packet) (at_sink o) fuel ps at_init = Some (Ok (0, s)) /\
    ps = h ++ rest /\ airtimes o (eits h) (at_out s) /\
    (rest = [] /\ ~ lacking o ps \/ exists h0 p, h = h0 ++ [p] /\ ~ lacking o h0 /\ lacking o [p]).
Proof. exact airtime_run. Qed.
Print Assumptions C51_airtime.

(** 2023-12-09 in JST milliseconds since 1858-11-17. *)
Definition some_day : Z := 60287 * 86400000.
Definition at_case : list packet :=
  [ tab_packet 0x12 [TEit (Some (mkEit 1 2 3 0 [mkEvent 10 some_day 60 0; mkEvent 11 (some_day + 60000) 1800 0]))];
    tab_packet 0x12 [TEit (Some (mkEit 4 2 3 0 []))];
    tab_packet 0x12 [TEit (Some (mkEit 1 2 3 1 [mkEvent 11 (some_day + 90000) 1800 0; mkEvent 12 0 0 0]))];
    tab_packet 0x12 [TEit (Some (mkEit 1 2 3 2 [mkEvent 12 0 0 0]))];
    tab_packet 0x12 [TEit (Some (mkEit 1 2 3 3 [mkEvent 11 0 0 0]))] ].
Lemma at_case_sane : sane_eits at_case.
Proof.
  intros e v He Hv. vm_compute in He.
  repeat (destruct He as [<-|He]; [vm_compute in Hv; repeat (destruct Hv as [<-|Hv]; [split; cbn; lia|]); destruct Hv|]). destruct He.
Qed.
Example C51_case : sane_eits at_case /\ exists s,
  FeedPackets (list_source packet) (at_sink (mkAtOption 1 11)) 9 at_case at_init = Some (Ok (0, s)) /\
  at_out s = [mkAirtimeDoc 3 2 1 11 1702047660000 1800000; mkAirtimeDoc 3 2 1 11 1702047690000 1800000].
Proof. split; [exact at_case_sane|]. eexists. split; vm_compute; reflexivity. Qed.

(** * C52 *)

(** Every packet is read, and the output is one document for each EIT p/f of the
    selected service (of any service if none is selected) that has an event. *)
Theorem C52_metadata : forall sid ps fuel, sane_eits ps -> (List.length ps < fuel)%nat ->
  exists out, FeedPackets (list_source packet) (md_sink sid) fuel ps [] = Some (Ok (0, out)) /\ metadatas sid (eits ps) out.
Proof. exact metadata_run. Qed.
Print Assumptions C52_metadata.

Example C52_case : sane_eits at_case /\ exists out,
  FeedPackets (list_source packet) (md_sink 1) 9 (firstn 2 at_case) [] = Some (Ok (0, out)) /\
  out = [mkMetaDoc 3 2 1 [mkMetaEvent 10 1702047600000 60000 0; mkMetaEvent 11 1702047660000 1800000 0]].
Proof. split; [exact at_case_sane|]. eexists. split; vm_compute; reflexivity. Qed.
