(** C50: scan-services. *)
From Coq Require Import ZArith Lia List Bool Sorted.
From Verif Require Import Base.Outcome Base.Util Model.Sink Model.Ts Model.ServiceScanner
  Proofs.FeedProofs Proofs.ScanProofs Spec.ScanSpec.
Import ListNotations.
Open Scope Z_scope.

(** The run never ends the process abnormally. *)
Theorem C50_returns : forall o ps fuel, (List.length ps < fuel)%nat ->
  exists code s, FeedPackets (list_source packet) (sc_sink o) fuel ps sc_init = Some (Ok (code, s)).
Proof. intros o ps fuel H. apply feed_ok; [apply scan_total|assumption]. Qed.
Print Assumptions C50_returns.

(** Either the three tables never come together: exit code 1 and no output.  Or
    the scan stops at the packet that completes them, with exit code 0 and one
    document, the list of the services. *)
Theorem C50_scan : forall o ps fuel code s,
  FeedPackets (list_source packet) (sc_sink o) fuel ps sc_init = Some (Ok (code, s)) ->
  (code = 1 /\ sc_out s = [] /\ forall h rest, ps = h ++ rest -> ~ exists t d n, ready h t d n) \/
  (exists h p rest t d n doc, code = 0 /\ sc_out s = [doc] /\ ps = h ++ p :: rest /\ ready (h ++ [p]) t d n /\
     service_list o t d n doc /\ forall h' h'', h = h' ++ h'' -> ~ exists t d n, ready h' t d n).
Proof. exact scan_run. Qed.
Print Assumptions C50_scan.

Definition tab_packet (pid : Z) (tabs : list body) : packet :=
  mkPacket (Raw 0) pid true None None None (fun _ => map (fun b => mkTable b 0) tabs) (fun _ => 0%nat).

(** Two television services and a data service; the PAT moves the NIT to PID
    0x20, so the NIT on PID 0x10 does not count.  Service 3 is excluded. *)
Definition sc_case : list packet :=
  [ tab_packet 0x10 [TNit (Some (mkNit [(7, 8, Some 1)]))];
    tab_packet 0 [TPat (Some (mkPat 7 0 [(3, 0x103); (0, 0x20); (2, 0x102); (1, 0x101)]))];
    tab_packet 0x11 [TSdt (Some (mkSdt 7 8 [(1, mkService 0x01 11 (Some (1, 5))); (2, mkService 0xC0 12 None); (3, mkService 0x01 13 None)]))];
    tab_packet 0x10 [TNit (Some (mkNit [(7, 8, Some 2)]))];
    tab_packet 0x20 [TNit (Some (mkNit [(7, 9, Some 3); (7, 8, Some 4)]))];
    tab_packet 0 [TPat None] ].
Example C50_case : exists s, FeedPackets (list_source packet) (sc_sink (mkScOption [] [3])) 9 sc_case sc_init = Some (Ok (0, s)) /\
  sc_out s = [[mkServiceDoc 8 7 1 11 0x01 5 (Some 4)]].
Proof. eexists. split; vm_compute; reflexivity. Qed.
Example C50_case_none : exists s, FeedPackets (list_source packet) (sc_sink (mkScOption [] [3])) 9 (firstn 4 sc_case) sc_init = Some (Ok (1, s)) /\
  sc_out s = [].
Proof. eexists. split; vm_compute; reflexivity. Qed.
