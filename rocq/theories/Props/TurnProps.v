(** C99: programs that follow each other. *)
From Coq Require Import ZArith Lia List Bool.
From Verif Require Import Base.Outcome Base.Util Model.Sink Model.Ts Model.ProgramFilter Spec.PcrSpec Spec.FilterSpec Spec.TuneSpec
  Spec.TransSpec Spec.ProgramSpec Spec.SeekSpec Spec.OnAirSpec Proofs.OnAirProofs Proofs.TurnProofs.
From Verif Require Props.FilterProps Props.ProgramProps Props.OnAirProps.
Import ListNotations.
Open Scope Z_scope.

(** Two filter-programs on the same packets, for a program [ea] and a program [eb]; by
    C72 the one outputs what comes from [xa] to the end of [mida], the other what
    comes from [xb] to the end of [midb].  If [eb] starts (with the margins) no later
    than [ea] ends, then [xb] does not come later than the end of [mida]: no packet
    between them is in neither of the outputs. *)
Theorem C99_nothing_lost : forall stage oa ob mpid m mb ea eb K, pfo_clock_pid oa = pfo_clock_pid ob ->
  forall prea mida posta preb midb postb xa xb, on_air oa stage mpid m ea K prea xa mida posta -> on_air ob stage mpid mb eb K preb xb midb postb ->
  prea ++ xa :: mida ++ posta = preb ++ xb :: midb ++ postb -> start_tick ob eb <= end_tick oa ea ->
  exists r, prea ++ xa :: mida = preb ++ r.
Proof. exact turn_lost. Qed.
Print Assumptions C99_nothing_lost.

(** If [eb] starts no earlier than [ea] ends, then no packet is in both. *)
Theorem C99_nothing_twice : forall stage oa ob mpid m mb ea eb K, pfo_clock_pid oa = pfo_clock_pid ob ->
  forall prea mida posta preb midb postb xa xb, on_air oa stage mpid m ea K prea xa mida posta -> on_air ob stage mpid mb eb K preb xb midb postb ->
  prea ++ xa :: mida ++ posta = preb ++ xb :: midb ++ postb -> end_tick oa ea <= start_tick ob eb ->
  exists r, preb = prea ++ xa :: mida ++ r.
Proof. exact turn_twice. Qed.
Print Assumptions C99_nothing_twice.

(** If [eb] starts when [ea] ends, then the packet that ends the output of the one is
    the first of the other. *)
Theorem C99_in_turn : forall stage oa ob mpid m mb ea eb K, pfo_clock_pid oa = pfo_clock_pid ob ->
  forall prea mida posta preb midb postb xa xb, on_air oa stage mpid m ea K prea xa mida posta -> on_air ob stage mpid mb eb K preb xb midb postb ->
  prea ++ xa :: mida ++ posta = preb ++ xb :: midb ++ postb -> start_tick ob eb = end_tick oa ea ->
  preb = prea ++ xa :: mida /\ posta = xb :: midb ++ postb.
Proof. exact turn_exact. Qed.
Print Assumptions C99_in_turn.

(** Two programs of 2 s, one after the other; the audio stream 16 of the first one
    and all of the second one. *)
Definition pkt := ProgramProps.pkt.
Definition at_tick := OnAirProps.at_tick.
Definition t0 : Z := 2700000000000.
Definition e5 := mkEvent 5 100000000 2 0.
Definition e6 := mkEvent 6 100002000 2 0.
Definition opt5 := mkPfOption 101 5 0x100 5 0 [0x10] [] 0 0 None false.
Definition opt6 := mkPfOption 101 6 0x100 5 0 [] [] 0 0 None false.
Definition pmt101 := ProgramProps.pmt101.
Definition pre5 : list (packet * Z) :=
  [ (pkt 1 0 [TPat (Some ProgramProps.pat101)], 0); (pkt 2 0x1F0 [TPmt (Some pmt101)], 0);
    (pkt 3 0x12 [TEit (Some (mkEit 101 7 4 0 [e5; e6]))], 0); at_tick 4 (t0 - 1); (pkt 5 0x110 [], 0) ].
Definition x5 : packet * Z := at_tick 6 t0.
Definition mid5 : list (packet * Z) := [ (pkt 7 0x110 [], 0); (pkt 8 0x111 [], 0); at_tick 9 (t0 + 53999999); (pkt 10 0x110 [], 0) ].
Definition x6 : packet * Z := at_tick 11 (t0 + 54000000).
Definition mid6 : list (packet * Z) := [ (pkt 12 0x111 [], 0) ].
Definition post6 : list (packet * Z) := [ at_tick 13 (t0 + 108000000) ].
Definition post5 : list (packet * Z) := x6 :: mid6 ++ post6.
Definition pre6 : list (packet * Z) := pre5 ++ x5 :: mid5.

Ltac each := OnAirProps.each.
Ltac spread H := unfold pre6, post5, pre5, x5, mid5, x6, mid6, post6 in H; cbn [app firstn map] in H.
Ltac broadcast := constructor;
  [ vm_compute; intuition discriminate | reflexivity | discriminate | reflexivity
  | apply Forall_forall; intros y I; spread I; each; intros Q v E; vm_compute in Q, E; try discriminate; injection E as <-; reflexivity
  | intros y I (Q & E); spread I; each; vm_compute in Q, E; try congruence; split; reflexivity
  | reflexivity
  | intros y I (Q & E); spread I; each; vm_compute in Q, E; try congruence; reflexivity
  | split; [split; [reflexivity|vm_compute; discriminate]|split; [vm_compute; discriminate|reflexivity]]
  | intros y I (Q & E); spread I; each; vm_compute in Q, E; try congruence; reflexivity
  | intros y r [= <- <-]; split; [split; [reflexivity|vm_compute; discriminate]|split; [vm_compute; discriminate|reflexivity]]
  | split; apply Forall_forall; intros p I; spread I; each; intros t It; vm_compute in It; each;
      (split; [split; [reflexivity|split; intros ? ? H; vm_compute in H |- *; congruence]|]);
      (split; [intros ? ? H; vm_compute in H |- *; congruence|]); (split; [intros ? H; vm_compute in H |- *; congruence|reflexivity])
  | ].
Ltac heard l := exists [pkt 1 0 [TPat (Some ProgramProps.pat101)]], (skipn 1 (map fst l)); split; [reflexivity|]; split; [|split];
  [ eexists; split; [left; reflexivity|]; eexists _, _; split; [left; reflexivity|reflexivity]
  | eexists; split; [left; reflexivity|]; eexists _, _; split; [left; reflexivity|reflexivity]
  | eexists; split; [right; right; left; reflexivity|]; split; [reflexivity|]; eexists _, _; split; [left; reflexivity|reflexivity] ].
Example C99_case : on_air opt5 0 0x1F0 pmt101 e5 5 pre5 x5 mid5 post5 /\ on_air opt6 0 0x1F0 pmt101 e6 5 pre6 x6 mid6 post6 /\
  pre5 ++ x5 :: mid5 ++ post5 = pre6 ++ x6 :: mid6 ++ post6 /\ start_tick opt6 e6 = end_tick opt5 e5 /\
  let run o := FeedPackets (list_source packet) (program_filter ProgramProps.two o FilterProps.keep 0) 30 (map fst (pre5 ++ x5 :: mid5 ++ post5)) (pf_init o, []) in
  let head o := pkt 1 0 [TPat (Some ProgramProps.pat101)] :: pmt_cycle ProgramProps.two 0x1F0 (reduced o pmt101) in
  (exists s, run opt5 = Some (Ok (0, (s, head opt5 ++ [fst x5; pkt 7 0x110 []; fst (at_tick 9 (t0 + 53999999)); pkt 10 0x110 []])))) /\
  exists s, run opt6 = Some (Ok (0, (s, head opt6 ++ [fst x6; pkt 12 0x111 []]))).
Proof.
  split; [broadcast; heard pre5|]. split; [broadcast; heard pre6|]. split; [reflexivity|]. split; [reflexivity|].
  cbv zeta. split; eexists; vm_compute; reflexivity.
Qed.
