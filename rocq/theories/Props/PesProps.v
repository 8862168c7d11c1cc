(** print-pes: C56. *)
From Coq Require Import ZArith List Bool Lia.
From Verif Require Import Base.Outcome Base.Util Model.Clock Model.Sink Model.Ts Model.PesPrinter Spec.PcrSpec Spec.ClockSpec Spec.PesSpec
  Proofs.PesProofs Props.ScanProps.
Import ListNotations.
Open Scope Z_scope.

(** print-pes does not abort, whatever PTS and DTS there are. *)
Theorem C56_returns : forall ps fuel, (forall p, In p ps -> proper p /\ in_range p) -> (List.length ps < fuel)%nat ->
  exists code s, FeedPackets (list_source packet) pp_sink fuel ps pp_init = Some (Ok (code, s)).
Proof. exact pes_returns. Qed.
Print Assumptions C56_returns.

(** The lines printed.  All packets are read unless a PAT without services
    comes. *)
Theorem C56_lines : forall ps fuel code s, (forall p, In p ps -> proper p) ->
  FeedPackets (list_source packet) pp_sink fuel ps pp_init = Some (Ok (code, s)) ->
  code = 0 /\ exists h, takes ps h /\ pp_out s = printed (received [] h).
Proof. exact pes_lines. Qed.
Print Assumptions C56_lines.

(** Every time is that of the latest TOT plus the difference to a PCR received on
    the PCR PID, both since the latest PMT with this PCR PID. *)
Theorem C56_reference : forall past q v T, time_of past q v = Some T ->
  exists a pid m b a1 p a2 t r, past = a ++ Tab pid (TPmt (Some m)) :: b /\ pmt_pcr_pid m = q /\
    (forall pid' m', In (Tab pid' (TPmt (Some m'))) a -> pmt_pcr_pid m' <> q) /\
    a = a1 ++ Tab p (TTot (Some t)) :: a2 /\ (forall p' t', ~ In (Tab p' (TTot (Some t'))) a1) /\
    In (Stamp SPcr q r) a /\ T = t + Z.quot (v - r) 27000.
Proof. exact time_source. Qed.
Print Assumptions C56_reference.

(** With PCRs less than a second apart, up to a few bad ones: the time for the
    tick [y] is that of the latest TOT plus the ticks since then, if the PCR does
    not wrap between the two. *)
Theorem C56_time_partial : forall past q x0 items t xr y,
  calls q past = Some (OpSetPid q :: OpPcr (pcr_at x0) :: ops_of x0 items) ->
  admissible x0 false 4 items -> last_tot x0 items None = Some (t, xr) ->
  0 <= t < 2 ^ 44 -> y / pcr_cycle = xr / pcr_cycle ->
  time_of past q (pcr_at y) = Some (t + Z.quot (y - xr) 27000).
Proof. exact time_exact. Qed.
Print Assumptions C56_time_partial.

Definition pes_pat : pat := mkPat 7 0 [(0, 0x10); (1, 0x100)].
Definition pes_pmt : pmt := mkPmt 1 3 0x101 [] [(0x111, mkStream true false 2 false None); (0x112, mkStream false true 15 false None); (0x130, mkStream false false 6 false (Some 0x37))].
Definition stamp_packet (pid : Z) (pcr pts dts : option Z) : packet :=
  mkPacket (Raw 0) pid true pcr pts dts (fun _ => []) (fun _ => 0%nat).

(** The PCR wraps half a second after the TOT; the time printed for the PCR one
    second after the TOT is 26.5 hours before it. *)
Definition wrapping : list packet :=
  [ tab_packet 0 [TPat (Some pes_pat)];
    tab_packet 0x100 [TPmt (Some pes_pmt)];
    stamp_packet 0x101 (Some (pcr_at (pcr_cycle - 13500000))) None None;
    tab_packet 0x14 [TTot (Some (60287 * 86400000))];
    stamp_packet 0x101 (Some (pcr_at pcr_cycle)) None None;
    stamp_packet 0x101 (Some (pcr_at (pcr_cycle + 13500000))) None None ].

Theorem C56_wrap_refuted : exists s, 
  FeedPackets (list_source packet) pp_sink 10 wrapping pp_init = Some (Ok (0, s)) /\
  In (LStamp SPcr 0x101 None (Some (60287 * 86400000 + 1000 - 95443717)) 13500000) (pp_out s) /\
  calls 0x101 (received [] wrapping) = Some (OpSetPid 0x101 :: OpPcr (pcr_at (pcr_cycle - 13500000)) ::
    ops_of (pcr_cycle - 13500000) [Tot (60287 * 86400000) 0; Tick 13500000; Tick 13500000]).
Proof. eexists. split; [vm_compute; reflexivity|]. split; vm_compute; auto 20. Qed.
Print Assumptions C56_wrap_refuted.

Definition pes_case : list packet :=
  [ stamp_packet 0x111 None (Some 7) None;
    tab_packet 0 [TPat (Some pes_pat)];
    tab_packet 0x100 [TPmt (Some pes_pmt)];
    stamp_packet 0x101 (Some 27000000) None None;
    stamp_packet 0x111 None (Some 90000) None;
    tab_packet 0x14 [TTot (Some (60287 * 86400000))];
    stamp_packet 0x111 None (Some 180000) (Some 135000);
    tab_packet 0x12 [TEit (Some (mkEit 1 7 4 2 [mkEvent 9 (60287 * 86400000) 1800 0])); TEit (Some (mkEit 2 7 4 2 []))];
    stamp_packet 0x101 (Some 28350000) None None ].

Example C56_case : (forall p, In p pes_case -> proper p /\ in_range p) /\
  calls 0x101 (received [] pes_case) = Some (OpSetPid 0x101 :: OpPcr (pcr_at 27000000) :: ops_of 27000000 [Tot (60287 * 86400000) 0; Tick 1350000]) /\
  admissible 27000000 false 4 [Tot (60287 * 86400000) 0; Tick 1350000] /\
  exists s, FeedPackets (list_source packet) pp_sink 10 pes_case pp_init = Some (Ok (0, s)) /\
    pp_out s =
    [ LStamp SPts 0x111 None None 2100;
      LPat 0 0; LPatEntry 1 0x100;
      LPmt 1 0x101 3; LStream 0x111 KVideo 2; LStream 0x112 KAudio 15; LStream 0x130 KAribSubtitle 6;
      LStamp SPcr 0x101 None None 27000000;
      LStamp SPts 0x111 (Some KVideo) None 27000000;
      LTot (60287 * 86400000);
      LStamp SPts 0x111 (Some KVideo) (Some (60287 * 86400000 + 1000)) 54000000;
      LStamp SDts 0x111 (Some KVideo) (Some (60287 * 86400000 + 500)) 40500000;
      LEit 1 2; LEvent 0 9 (60287 * 86400000) (60287 * 86400000 + 1800000) 30;
      LStamp SPcr 0x101 None (Some (60287 * 86400000 + 50)) 28350000 ].
Proof.
  split; [|split; [vm_compute; reflexivity|split; [vm_compute; repeat split; congruence|eexists; split; vm_compute; reflexivity]]].
  intros p H. cbn [pes_case In] in H.
  repeat (destruct H as [<-|H]; [split;
    [ intros x t sid q I; cbn in I; repeat (destruct I as [<-|I]; [cbn; intros E; try discriminate E; injection E as <-; cbn;
        intros K N; repeat (destruct K as [K|K]; [injection K as <- <-; solve [congruence | repeat split; discriminate]|]); destruct K|]); destruct I
    | split; [intros v E; cbn in E; (discriminate E || injection E as <-); vm_compute; split; congruence|];
      split; [intros v E; cbn in E; (discriminate E || injection E as <-); vm_compute; split; congruence|];
      split; [intros v E; cbn in E; (discriminate E || injection E as <-); vm_compute; split; congruence|];
      split; [intros x t I; cbn in I; repeat (destruct I as [<-|I]; [cbn; intros E; (discriminate E || injection E as <-); vm_compute; split; congruence|]); destruct I|];
      intros x e v I; cbn in I; repeat (destruct I as [<-|I]; [cbn; intros E; (discriminate E || injection E as <-); cbn;
        intros K; repeat (destruct K as [<-|K]; [vm_compute; repeat split; congruence|]); destruct K|]); destruct I ]|]).
  destruct H.
Qed.
