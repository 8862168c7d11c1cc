(** sync-clocks: C47, C48 and C49. *)
From Coq Require Import ZArith List Bool Sorted Lia.
From Verif Require Import Base.Outcome Base.Util Proofs.SyncEnd Proofs.SyncExact Proofs.SyncProofs Props.ScanProps Model.Sink Model.Ts Model.PcrSynchronizer
  Spec.ScanSpec Spec.SyncSpec.
Import ListNotations.
Open Scope Z_scope.

(** * C47: the clocks are genuine *)

(** sync-clocks returns, if all PCRs are in range. *)
Theorem C47_returns : forall o ps fuel, (forall p c, In p ps -> p_pcr p = Some c -> 0 <= c < 300 * 2 ^ 33) ->
  (forall p t x, In p ps -> In t (p_tabs p 0) -> tb_body t = TTot (Some x) -> 0 <= x < 2 ^ 44) -> (List.length ps < fuel)%nat ->
  exists code s, FeedPackets (list_source packet) (ps_sink o) fuel ps ps_init = Some (Ok (code, s)).
Proof. intros o ps fuel H. apply sync_returns. intros p c I E. specialize (H p c I E). change (300 * 2 ^ 33) with 2576980377600 in H. lia. Qed.
Print Assumptions C47_returns.

(** Either nothing is output and the exit code is 1, or one document is output
    and the exit code is 0.  Its clocks are genuine, one per service. *)
Theorem C47_genuine : forall o ps fuel code s, proper (trace ps) ->
  FeedPackets (list_source packet) (ps_sink o) fuel ps ps_init = Some (Ok (code, s)) ->
  (code = 1 /\ ps_out s = []) \/
  (code = 0 /\ exists h rest docs, ps = h ++ rest /\ ps_out s = [docs] /\
     StronglySorted (fun a b => cd_sid a < cd_sid b) docs /\
     (docs = [] \/ exists t post, since_pat (trace h) t post /\ forall c, In c docs -> genuine o t post c)).
Proof. exact sync_genuine. Qed.
Print Assumptions C47_genuine.

(** If there was one SDT since the PAT, then the clocks are those of the audio and
    video services wanted, all of them whose PMT gives a PCR PID. *)
Theorem C47_complete : forall o ps fuel code s, proper (trace ps) -> selecting o (trace ps) ->
  FeedPackets (list_source packet) (ps_sink o) fuel ps ps_init = Some (Ok (code, s)) -> code = 0 ->
  exists h rest docs t post, ps = h ++ rest /\ ps_out s = [docs] /\ since_pat (trace h) t post /\
    (forall c, In c docs -> genuine o t post c) /\
    forall a d b, distinct_pids t -> post = a ++ Tab 0x11 (TSdt (Some d)) :: b -> no_sdt a -> no_sdt b ->
      (forall c, In c docs -> exists q, av_service o t d (cd_sid c) q) /\
      (forall sid q, av_service o t d sid q -> exists m, latest (pmt_at q sid) post m /\
         (pmt_pcr_pid m <> 0x1FFF -> exists c, In c docs /\ cd_sid c = sid)).
Proof. exact sync_complete. Qed.
Print Assumptions C47_complete.

Definition pcr_packet (pid pcr : Z) : packet :=
  mkPacket (Raw 0) pid false (Some pcr) None None (fun _ => []) (fun _ => 0%nat).
Definition sync_pat : pat := mkPat 7 0 [(0, 0x10); (1, 0x100); (2, 0x200); (3, 0x300)].
Definition sync_sdt : sdt := mkSdt 7 4 [(1, mkService 1 0 None); (2, mkService 1 0 None); (3, mkService 0xC0 0 None)].
(** Services 1 and 2 with their PCRs on PIDs 0x101 and 0x201; service 3 is data. *)
Definition sync_start : list packet :=
  [ tab_packet 0 [TPat (Some sync_pat)];
    pcr_packet 0x101 1000;
    tab_packet 0x11 [TSdt (Some sync_sdt)];
    tab_packet 0x100 [TPmt (Some (mkPmt 1 0 0x101 [] []))];
    tab_packet 0x200 [TPmt (Some (mkPmt 2 0 0x201 [] []))];
    pcr_packet 0x101 2000;
    tab_packet 0x14 [TTot (Some (60287 * 86400000))] ].
Definition sync_case : list packet := sync_start ++ [pcr_packet 0x101 3000; pcr_packet 0x101 4000; pcr_packet 0x201 5000; pcr_packet 0x101 6000].

Ltac sync_proper :=
  let pid := fresh "pid" in let b := fresh "b" in let H := fresh "H" in
  intros pid b H; cbn in H;
  repeat (destruct H as [H|H]; [first [discriminate H | injection H as <- <-; cbn; auto; fail | 
    injection H as <- <-; let sid := fresh "sid" in let q := fresh "q" in let K := fresh "K" in let N := fresh "N" in
    intros sid q K N; cbn in K; repeat (destruct K as [K|K]; [injection K as <- <-; solve [congruence | repeat split; discriminate]|]); destruct K]|]);
  destruct H.

Example C47_case : proper (trace sync_case) /\ selecting (mkPsOption [] []) (trace sync_case) /\
  exists s, FeedPackets (list_source packet) (ps_sink (mkPsOption [] [])) 20 sync_case ps_init = Some (Ok (0, s)) /\
    ps_out s = [[mkClockDoc 4 7 1 0x101 3000 1702047600000; mkClockDoc 4 7 2 0x201 5000 1702047600000]].
Proof.
  split; [|split].
  - sync_proper.
  - intros t H. cbn in H. destruct H as [H|H]; [|repeat (destruct H as [H|H]; [discriminate H|]); destruct H]. injection H as <-.
    exists 1, 0x100. split; [|split; [auto|intros []]]. split; [discriminate|].
    exists [(0, 0x10)], [(2, 0x200); (3, 0x300)]. split; [reflexivity|]. intros r [H|[H|[]]]; discriminate.
  - eexists. split; vm_compute; reflexivity.
Qed.

(** * C48: the time *)

(** All clocks have the time of the latest TOT.  That is the time for a PCR which
    no TOT follows. *)
Theorem C48_partial : forall o ps fuel code s, proper (trace ps) -> sane_tots (trace ps) ->
  FeedPackets (list_source packet) (ps_sink o) fuel ps ps_init = Some (Ok (code, s)) -> code = 0 ->
  exists h rest docs, ps = h ++ rest /\ ps_out s = [docs] /\
    (docs = [] \/ exists t post x, since_pat (trace h) t post /\ latest tot_at post x /\
       forall c, In c docs -> genuine o t post c /\ cd_time c = unix x /\
         forall a b, post = a ++ Pcr (cd_pid c) (cd_pcr c) :: b -> (forall y w, In y b -> ~ tot_at y w) -> latest tot_at a x).
Proof. exact sync_times. Qed.
Print Assumptions C48_partial.

(** If all services have the same PCR PID, the time is that of the latest TOT
    before the PCR. *)
Theorem C48_single_partial : forall o ps fuel code s pp, proper (trace ps) -> sane_tots (trace ps) -> selecting o (trace ps) ->
  (forall q m, In (Tab q (TPmt (Some m))) (trace ps) -> pmt_pcr_pid m = pp \/ pmt_pcr_pid m = 0x1FFF) ->
  FeedPackets (list_source packet) (ps_sink o) fuel ps ps_init = Some (Ok (code, s)) -> code = 0 ->
  exists h rest docs t a pcr x, ps = h ++ rest /\ ps_out s = [docs] /\ since_pat (trace h) t (a ++ [Pcr pp pcr]) /\ latest tot_at a x /\
    forall c, In c docs -> genuine o t (a ++ [Pcr pp pcr]) c /\ cd_pid c = pp /\ cd_pcr c = pcr /\ cd_time c = unix x.
Proof. exact sync_single. Qed.
Print Assumptions C48_single_partial.

(** A TOT between two PCRs replaces the time of the first one: the PCR 3000 came
    before the TOT of a minute later, which is reported with it. *)
Theorem C48_refuted : exists ps, proper (trace ps) /\ sane_tots (trace ps) /\
  ps = sync_start ++ [pcr_packet 0x101 3000; tab_packet 0x14 [TTot (Some (60287 * 86400000 + 60000))]; pcr_packet 0x201 5000] /\
  exists s, FeedPackets (list_source packet) (ps_sink (mkPsOption [] [])) 20 ps ps_init = Some (Ok (0, s)) /\
    ps_out s = [[mkClockDoc 4 7 1 0x101 3000 (1702047600000 + 60000); mkClockDoc 4 7 2 0x201 5000 (1702047600000 + 60000)]].
Proof.
  eexists. split; [|split; [|split; [reflexivity|]]].
  - sync_proper.
  - intros pid b H. cbn in H. repeat (destruct H as [H|H]; [try discriminate H; injection H as <- <-; lia|]). destruct H.
  - eexists. split; vm_compute; reflexivity.
Qed.
Print Assumptions C48_refuted.

(** * C49: the end *)

(** After the latest PAT come, in this order, one SDT, the PMTs of all audio and
    video services wanted, a TOT, and a PCR on each PCR PID (of which there is at
    least one).  Then sync-clocks ends with exit code 0, if it returns. *)
Theorem C49_partial : forall o ps fuel code s pre x t a d b y e,
  trace ps = pre ++ x :: a ++ Tab 0x11 (TSdt (Some d)) :: b ++ Tab 0x14 (TTot (Some y)) :: e ->
  proper (trace ps) -> distinct_pids t -> pat_at x t ->
  no_pat (a ++ Tab 0x11 (TSdt (Some d)) :: b ++ Tab 0x14 (TTot (Some y)) :: e) ->
  no_sdt a -> no_sdt b -> no_sdt e ->
  (forall sid q, av_service o t d sid q -> exists m, In (Tab q (TPmt (Some m))) b /\ pmt_sid m = sid) ->
  (exists pid, names o t d b pid) ->
  (forall pid, names o t d (b ++ e) pid -> names o t d b pid /\ exists c, In (Pcr pid c) e) ->
  FeedPackets (list_source packet) (ps_sink o) fuel ps ps_init = Some (Ok (code, s)) -> code = 0.
Proof.
  intros o ps fuel code s pre x t a d b y e E P D X N Na Nb Ne Pm Nm Pc H. pose proof P as P'. rewrite E in P'.
  pose proof (reaches_end o pre x t a d b y e P' D X N Na Nb Ne Pm Nm Pc) as K.
  apply sync_fold in H as [(_ & _ & H)|(h & p & rest & s1 & _ & H & _)]; [|exact H|exact P]. rewrite E in H. congruence.
Qed.
Print Assumptions C49_partial.

(** The stream of C47_case is such a stream. *)
Example C49_case : exists pre x t a d b y e,
  trace sync_case = pre ++ x :: a ++ Tab 0x11 (TSdt (Some d)) :: b ++ Tab 0x14 (TTot (Some y)) :: e /\
  pat_at x t /\ no_pat (a ++ Tab 0x11 (TSdt (Some d)) :: b ++ Tab 0x14 (TTot (Some y)) :: e) /\ no_sdt a /\ no_sdt b /\ no_sdt e /\
  names (mkPsOption [] []) t d b 0x101 /\ names (mkPsOption [] []) t d b 0x201 /\ In (Pcr 0x101 3000) e /\ In (Pcr 0x201 5000) e.
Proof.
  exists [], (Tab 0 (TPat (Some sync_pat))), sync_pat, [Pcr 0x101 1000], sync_sdt,
    [Tab 0x100 (TPmt (Some (mkPmt 1 0 0x101 [] []))); Tab 0x200 (TPmt (Some (mkPmt 2 0 0x201 [] []))); Pcr 0x101 2000],
    (60287 * 86400000), [Pcr 0x101 3000; Pcr 0x101 4000; Pcr 0x201 5000; Pcr 0x101 6000].
  split; [reflexivity|]. split; [split; [reflexivity|discriminate]|].
  split; [intros z u H [Z _]; cbn in H; repeat (destruct H as [H|H]; [congruence|]); destruct H|].
  do 3 (split; [intros z u H Z; unfold sdt_at in Z; cbn in H; repeat (destruct H as [H|H]; [congruence|]); destruct H|]).
  split; [|split; [|split; cbn; auto]].
  - split; [discriminate|]. exists 1, 0x100, (mkPmt 1 0 0x101 [] []). split; [|cbn; auto]. split; [|split; [split; [auto|intros []]|]].
    + split; [discriminate|]. exists [(0, 0x10)], [(2, 0x200); (3, 0x300)]. split; [reflexivity|]. intros r [H|[H|[]]]; discriminate.
    + exists (mkService 1 0 None). split; [|left; reflexivity]. eexists [], _. split; [reflexivity|]. intros w [H|[H|[]]]; discriminate.
  - split; [discriminate|]. exists 2, 0x200, (mkPmt 2 0 0x201 [] []). split; [|cbn; auto]. split; [|split; [split; [auto|intros []]|]].
    + split; [discriminate|]. exists [(0, 0x10); (1, 0x100)], [(3, 0x300)]. split; [reflexivity|]. intros r [H|[]]; discriminate.
    + exists (mkService 1 0 None). split; [|left; reflexivity]. eexists [_], _. split; [reflexivity|]. intros w [H|[]]; discriminate.
Qed.

(** With a second SDT before the PMTs, however many TOTs and PCRs follow, it never
    ends. *)
Theorem C49_refuted : forall n,
  let more := concat (repeat [tab_packet 0x14 [TTot (Some (60287 * 86400000))]; pcr_packet 0x101 3000; pcr_packet 0x201 5000] n) in
  exists s, FeedPackets (list_source packet) (ps_sink (mkPsOption [] [])) (20 + List.length more)
    ([tab_packet 0 [TPat (Some sync_pat)];
      tab_packet 0x11 [TSdt (Some sync_sdt)];
      tab_packet 0x11 [TSdt (Some sync_sdt)];
      tab_packet 0x100 [TPmt (Some (mkPmt 1 0 0x101 [] []))];
      tab_packet 0x200 [TPmt (Some (mkPmt 2 0 0x201 [] []))]] ++ more) ps_init = Some (Ok (1, s)) /\ ps_out s = [].
Proof.
  intros n. cbn zeta. set (more := concat _).
  exists (esteps (mkPsOption [] []) ps_init (trace [tab_packet 0 [TPat (Some sync_pat)];
      tab_packet 0x11 [TSdt (Some sync_sdt)];
      tab_packet 0x11 [TSdt (Some sync_sdt)];
      tab_packet 0x100 [TPmt (Some (mkPmt 1 0 0x101 [] []))];
      tab_packet 0x200 [TPmt (Some (mkPmt 2 0 0x201 [] []))]])).
  split; [|vm_compute; reflexivity].
  unfold FeedPackets. cbn [ps_sink sk_start sk_end sk_exit].
  replace (20 + List.length more)%nat with (5 + (15 + List.length more))%nat by lia.
  set (s0 := esteps _ _ _). vm_compute in s0.
  assert (L : forall k m, (3 * k < m)%nat -> feed_loop (list_source packet) (ps_sink (mkPsOption [] [])) m
    (concat (repeat [tab_packet 0x14 [TTot (Some (60287 * 86400000))]; pcr_packet 0x101 3000; pcr_packet 0x201 5000] k)) s0 = Some (Ok s0)).
  { intros k. induction k as [|k IH]; intros m Hm.
    - destruct m; [lia|]. reflexivity.
    - destruct m as [|[|[|m]]]; try lia. cbn [repeat concat app]. cbn -[concat repeat]. apply IH. lia. }
  assert (Len : List.length more = (3 * n)%nat).
  { unfold more. clear. induction n as [|n IH]; [reflexivity|]. cbn [repeat concat]. rewrite app_length, IH. cbn. lia. }
  assert (Pre : forall m l, feed_loop (list_source packet) (ps_sink (mkPsOption [] [])) (5 + m)
    ([tab_packet 0 [TPat (Some sync_pat)];
      tab_packet 0x11 [TSdt (Some sync_sdt)];
      tab_packet 0x11 [TSdt (Some sync_sdt)];
      tab_packet 0x100 [TPmt (Some (mkPmt 1 0 0x101 [] []))];
      tab_packet 0x200 [TPmt (Some (mkPmt 2 0 0x201 [] []))]] ++ l) ps_init =
    feed_loop (list_source packet) (ps_sink (mkPsOption [] [])) m l s0) by (intros; reflexivity).
  rewrite Pre. unfold more at 2. rewrite L by lia. reflexivity.
Qed.
Print Assumptions C49_refuted.

(** On a steady broadcast, with one PAT, one SDT that may be repeated, and PMTs
    that keep their PCR PIDs: sync-clocks ends with exit code 0 exactly if the
    stream brings what it needs in the right order. *)
Theorem C49_exact : forall o ps fuel code s pre x t d post,
  trace ps = pre ++ x :: post -> proper (trace ps) -> selecting o (trace ps) -> no_pat pre -> pat_at x t -> distinct_pids t ->
  steady_clocks o t d post ->
  FeedPackets (list_source packet) (ps_sink o) fuel ps ps_init = Some (Ok (code, s)) -> (code = 0 <-> in_order o t d post).
Proof. exact sync_exact. Qed.
Print Assumptions C49_exact.

(** The clocks are then those of the audio and video services wanted, with the PCR
    PIDs of their PMTs, none missing. *)
Theorem C49_services : forall o ps fuel s pre x t d post,
  trace ps = pre ++ x :: post -> proper (trace ps) -> selecting o (trace ps) -> no_pat pre -> pat_at x t -> distinct_pids t ->
  steady_clocks o t d post ->
  FeedPackets (list_source packet) (ps_sink o) fuel ps ps_init = Some (Ok (0, s)) ->
  exists docs, ps_out s = [docs] /\ (forall c, In c docs -> exists q, av_service o t d (cd_sid c) q) /\
    forall sid q m, av_service o t d sid q -> In (Tab q (TPmt (Some m))) post -> pmt_sid m = sid -> pmt_pcr_pid m <> 0x1FFF ->
      exists c, In c docs /\ cd_sid c = sid /\ cd_pid c = pmt_pcr_pid m.
Proof. exact sync_steady_docs. Qed.
Print Assumptions C49_services.

(** A second SDT that comes before some PMT: it never ends, whatever follows. *)
Theorem C49_stuck_refuted : forall o ps fuel code s pre x t a d b e,
  trace ps = pre ++ x :: a ++ Tab 0x11 (TSdt (Some d)) :: b ++ Tab 0x11 (TSdt (Some d)) :: e ->
  proper (trace ps) -> selecting o (trace ps) -> no_pat pre -> pat_at x t -> distinct_pids t ->
  steady_clocks o t d (a ++ Tab 0x11 (TSdt (Some d)) :: b ++ Tab 0x11 (TSdt (Some d)) :: e) ->
  no_sdt a -> no_sdt b -> ~ all_pmts o t d b ->
  FeedPackets (list_source packet) (ps_sink o) fuel ps ps_init = Some (Ok (code, s)) -> code = 1 /\ ps_out s = [].
Proof.
  intros o ps fuel code s pre x t a d b e Tr P S Np X D St Na Nb N H.
  destruct (sync_genuine o ps fuel code s P H) as [K|(-> & _)]; [exact K|]. exfalso.
  apply (stuck_order o t d a b e Na Nb N). apply (sync_exact o ps fuel 0 s pre x t d _ Tr P S Np X D St H). reflexivity.
Qed.
Print Assumptions C49_stuck_refuted.

(** The stream of C47_case with the SDT once more after the PMTs ends; with the SDT
    once more between the two PMTs it does not. *)
Definition again (n : nat) : list packet :=
  firstn n sync_case ++ tab_packet 0x11 [TSdt (Some sync_sdt)] :: skipn n sync_case.

Lemma steady_again : forall n, n = 4%nat \/ n = 5%nat -> exists post,
  trace (again n) = Tab 0 (TPat (Some sync_pat)) :: post /\ proper (trace (again n)) /\ selecting (mkPsOption [] []) (trace (again n)) /\
  distinct_pids sync_pat /\ steady_clocks (mkPsOption [] []) sync_pat sync_sdt post.
Proof.
  intros n Hn.
  assert (D : distinct_pids sync_pat).
  { intros i j q [_ (l & l' & E & _)] [_ (m & m' & F & _)].
    assert (I1 : In (i, q) (pat_entries sync_pat)) by (rewrite E; apply in_elt).
    assert (I2 : In (j, q) (pat_entries sync_pat)) by (rewrite F; apply in_elt). clear -I1 I2. cbn in I1, I2.
    repeat (destruct I1 as [I1|I1]; [injection I1 as <- <-; repeat (destruct I2 as [I2|I2]; [congruence|]); destruct I2|]). destruct I1. }
  assert (Sel : forall ps, (forall u, In (Tab 0 (TPat (Some u))) (trace ps) -> u = sync_pat) -> selecting (mkPsOption [] []) (trace ps)).
  { intros ps H u U. rewrite (H u U). exists 1, 0x100. split; [|split; [auto|intros []]]. split; [discriminate|].
    exists [(0, 0x10)], [(2, 0x200); (3, 0x300)]. split; [reflexivity|]. intros r [R|[R|[]]]; discriminate. }
  destruct Hn as [-> | ->].
  all: eexists; split; [reflexivity|]; split; [|split; [apply Sel|split; [exact D|]]].
  1, 4: intros pid b H; cbn in H; repeat (destruct H as [H|H]; [inversion H; subst; try exact I; try reflexivity;
    intros sid q Q; cbn in Q; repeat (destruct Q as [Q|Q]; [injection Q as <- <-; intros; repeat split; try discriminate; congruence|]); destruct Q|]); destruct H.
  1, 3: intros u H; cbn in H; repeat (destruct H as [H|H]; [congruence|]); destruct H.
  all: split; [intros e u H [Z _]; cbn in H; repeat (destruct H as [H|H]; [congruence|]); destruct H|].
  all: split; [intros e u H Z; unfold sdt_at in Z; cbn in H; repeat (destruct H as [H|H]; [congruence|]); destruct H|].
  all: intros sid q m m' _ H H' E E'; cbn in H, H'; repeat (destruct H as [H|H]; [try discriminate; injection H as <- <-;
    repeat (destruct H' as [H'|H']; [try discriminate; injection H'; intros; subst; try reflexivity; discriminate|]); destruct H'|]); destruct H.
Qed.

Example C49_case_exact : (exists post, trace (again 5) = Tab 0 (TPat (Some sync_pat)) :: post /\ steady_clocks (mkPsOption [] []) sync_pat sync_sdt post) /\
  (exists s, FeedPackets (list_source packet) (ps_sink (mkPsOption [] [])) 20 (again 5) ps_init = Some (Ok (0, s))) /\
  (exists post, trace (again 4) = Tab 0 (TPat (Some sync_pat)) :: post /\ steady_clocks (mkPsOption [] []) sync_pat sync_sdt post) /\
  (exists s, FeedPackets (list_source packet) (ps_sink (mkPsOption [] [])) 20 (again 4) ps_init = Some (Ok (1, s))).
Proof.
  destruct (steady_again 5) as (p & P1 & _ & _ & _ & P2); [auto|]. destruct (steady_again 4) as (q & Q1 & _ & _ & _ & Q2); [auto|].
  split; [exists p; auto|]. split; [eexists; vm_compute; reflexivity|]. split; [exists q; auto|]. eexists. vm_compute. reflexivity.
Qed.
