(** C89: packets on other PIDs do not matter to the commands that write JSON. *)
From Coq Require Import ZArith Lia List Bool.
From Verif Require Import Base.Outcome Base.Util Model.Sink Model.FileSource Model.Ts Model.EitSection Model.Commands
  Spec.SourceSpec Spec.FilterSpec Spec.PipeSpec Spec.OthersSpec Proofs.SourceProofs Proofs.OthersJson.
From Verif Require Model.EitCollector Model.EitpfCollector Model.ServiceScanner Model.PcrSynchronizer Model.AirtimeTracker
  Props.ScanProps Props.SyncProps Props.EventProps Props.EitProps Props.CarouselProps Props.JsonProps.
Import ListNotations.
Open Scope Z_scope.

(** In each theorem the two files have the same packets on the PIDs that the
    command has to hear; packets on other PIDs are inserted, removed and changed
    at will.  The exit code and the documents are the same. *)
Theorem C89_scan_services : forall view sids xsids own reads reads' bs cs n m, per_pid view -> (forall h b, ts_packet b -> p_pid (view h b) = pid_bytes b) ->
  two_files own reads reads' bs cs -> scan_pids own (views view [] bs) ->
  (List.length (bytes_of reads) < n)%nat -> (List.length (bytes_of reads') < m)%nat ->
  same_end (scan_services_main view sids xsids reads n) (scan_services_main view sids xsids reads' m).
Proof. exact scan_idle. Qed.
Print Assumptions C89_scan_services.

Theorem C89_sync_clocks : forall view sids xsids own reads reads' bs cs n m, per_pid view -> (forall h b, ts_packet b -> p_pid (view h b) = pid_bytes b) ->
  two_files own reads reads' bs cs -> sync_pids own (views view [] bs) ->
  (List.length (bytes_of reads) < n)%nat -> (List.length (bytes_of reads') < m)%nat ->
  same_end (sync_clocks_main view sids xsids reads n) (sync_clocks_main view sids xsids reads' m).
Proof. exact sync_idle. Qed.
Print Assumptions C89_sync_clocks.

Theorem C89_track_airtime : forall view sid eid reads reads' bs cs n m, per_pid view -> (forall h b, ts_packet b -> p_pid (view h b) = pid_bytes b) ->
  two_files (fun pid => pid = 0x12) reads reads' bs cs -> (List.length (bytes_of reads) < n)%nat -> (List.length (bytes_of reads') < m)%nat ->
  same_end (track_airtime_main view sid eid reads n) (track_airtime_main view sid eid reads' m).
Proof. exact airtime_idle. Qed.
Print Assumptions C89_track_airtime.

Theorem C89_program_metadata : forall view sid reads reads' bs cs n m, per_pid view -> (forall h b, ts_packet b -> p_pid (view h b) = pid_bytes b) ->
  two_files (fun pid => pid = 0x12) reads reads' bs cs -> (List.length (bytes_of reads) < n)%nat -> (List.length (bytes_of reads') < m)%nat ->
  same_end (program_metadata_main view sid reads n) (program_metadata_main view sid reads' m).
Proof. exact metadata_idle. Qed.
Print Assumptions C89_program_metadata.

(** collect-eits hears PIDs 0x12 and 0x14.  A time limit of 0 makes it stop at the
    first packet, whatever it is. *)
Theorem C89_collect_eits_partial : forall mjd view sids xsids limit streaming actual others reads reads' bs cs n m, per_pid view ->
  (forall h b, ts_packet b -> pid_bytes b <> 0x12 -> pid_bytes b <> 0x14 -> view h b = []) ->
  two_files (fun pid => pid = 0x12 \/ pid = 0x14) reads reads' bs cs ->
  streaming = true \/ match limit with Some v => 0 < v | None => True end ->
  (List.length (bytes_of reads) < n)%nat -> (List.length (bytes_of reads') < m)%nat ->
  same_end (collect_eits_main mjd view sids xsids limit streaming actual others reads n)
           (collect_eits_main mjd view sids xsids limit streaming actual others reads' m).
Proof. exact eits_idle. Qed.
Print Assumptions C89_collect_eits_partial.

(** collect-eitpfs hears PID 0x12.  It needs --sids or --streaming. *)
Theorem C89_collect_eitpfs_partial : forall mjd view sids ns streaming present following reads reads' bs cs n m, per_pid view ->
  (forall h b, ts_packet b -> pid_bytes b <> 0x12 -> view h b = []) ->
  two_files (fun pid => pid = 0x12) reads reads' bs cs -> ids_given sids ns ->
  streaming = true \/ (ns <> [] /\ present && following = false) ->
  (List.length (bytes_of reads) < n)%nat -> (List.length (bytes_of reads') < m)%nat ->
  same_end (collect_eitpfs_main mjd view sids streaming present following reads n)
           (collect_eitpfs_main mjd view sids streaming present following reads' m).
Proof. exact eitpfs_idle. Qed.
Print Assumptions C89_collect_eitpfs_partial.

(** ** Cases: packets of PID 0x500 before, between and after those of a file *)
Definition pk (x : Z * Z) : list Z := [0x47; fst x / 256; fst x mod 256; snd x] ++ repeat 0 184.
Definition file_of (l : list (Z * Z)) : list read_result := map ReadData (map pk l).
Definition fits (x : Z * Z) : Prop := 0 <= fst x < 8192 /\ 0 <= snd x < 256.
Definition other : Z * Z := (0x500, 200).
Definition with_others (l : list (Z * Z)) : list (Z * Z) := other :: flat_map (fun x => [x; other]) l.

Lemma pk_pid : forall x, fits x -> pid_bytes (pk x) = fst x.
Proof.
  intros [pid i] [H _]. cbn [fst] in H. unfold pid_bytes, pk. cbn [nth app fst snd].
  pose proof (Z.mod_pos_bound pid 256). pose proof (Z.div_mod pid 256). pose proof (Z.div_pos pid 256). pose proof (Z.div_lt_upper_bound pid 256 32).
  rewrite (Z.mod_small (pid / 256) 32) by lia. lia.
Qed.
Lemma pk_input : forall l, Forall fits l ->
  Forall read_ok (file_of l) /\ Forall is_byte (bytes_of (file_of l)) /\ packets_of (bytes_of (file_of l)) (map pk l).
Proof.
  induction 1 as [|x l H F IH]; [split; [constructor|]; split; [constructor|apply Pk_short; reflexivity]|].
  destruct IH as (A & B & C). pose proof H as [H1 H2].
  assert (L : zlen (pk x) = 188) by reflexivity.
  unfold file_of. cbn [map bytes_of]. change (pk x) with (0x47 :: tl (pk x)). cbv iota. change (0x47 :: tl (pk x)) with (pk x).
  split; [constructor; [cbn [read_ok]; rewrite L; lia|exact A]|]. split.
  - apply Forall_app. split; [|exact B]. unfold pk. apply Forall_app. split.
    + pose proof (Z.mod_pos_bound (fst x) 256). pose proof (Z.div_pos (fst x) 256). pose proof (Z.div_lt_upper_bound (fst x) 256 32).
      repeat constructor; unfold is_byte; lia.
    + apply Forall_forall. intros y Hy. apply repeat_spec in Hy. subst. unfold is_byte. lia.
  - apply Pk_packet; auto. reflexivity.
Qed.
Lemma others_files : forall (own : Z -> Prop) l, Forall fits l -> (forall x, In x l -> own (fst x)) -> ~ own 0x500 ->
  two_files own (file_of l) (file_of (with_others l)) (map pk l) (map pk (with_others l)).
Proof.
  intros own l F O N.
  assert (F' : Forall fits (with_others l)).
  { unfold with_others. constructor; [split; cbn; lia|]. clear O. induction F; cbn; [constructor|]. constructor; [assumption|]. constructor; [split; cbn; lia|assumption]. }
  destruct (pk_input l F) as (A1 & B1 & C1), (pk_input _ F') as (A2 & B2 & C2).
  split; [exact A1|]. split; [exact A2|]. split; [exact B1|]. split; [exact B2|]. split; [exact C1|]. split; [exact C2|].
  clear -F O N. unfold with_others. cbn [map]. apply agree_right; [exact N|]. induction F as [|x l H F IH]; cbn [map flat_map app]; [constructor|].
  apply agree_both; [rewrite pk_pid by exact H; apply O; cbn; auto|]. apply agree_right; [exact N|]. apply IH. intros y I. apply O. cbn. auto.
Qed.

(** Byte 3 of a packet says what it carries. *)
Definition by_number (l : list packet) (h : list (list Z)) (b : list Z) : packet :=
  let p := nth (Z.to_nat (nth 3 b 0)) l JsonProps.nothing in
  mkPacket (p_content p) (pid_bytes b) (p_pusi p) (p_pcr p) (p_pts p) (p_dts p) (p_tabs p) (p_regen p).
Definition by_number_at {P} (pids : list Z) (l : list (list P)) (h : list (list Z)) (b : list Z) : list P :=
  if zmem (pid_bytes b) pids then nth (Z.to_nat (nth 3 b 0)) l [] else [].
Lemma by_number_ok : forall l, per_pid (by_number l) /\ forall h b, ts_packet b -> p_pid (by_number l h b) = pid_bytes b.
Proof. split; [intros h h' b _|]; reflexivity. Qed.
Lemma by_number_at_ok : forall P (l : list (list P)) pids, per_pid (by_number_at pids l) /\
  forall h b, (forall pid, In pid pids -> pid_bytes b <> pid) -> by_number_at pids l h b = [].
Proof.
  intros P l pids. split; [intros h h' b _; reflexivity|]. intros h b N. unfold by_number_at.
  assert (M : zmem (pid_bytes b) pids = false) by (apply zmem_false; intros I; exact (N _ I eq_refl)). rewrite M. reflexivity.
Qed.
Fixpoint numbered (i : Z) (pids : list Z) : list (Z * Z) := match pids with [] => [] | p :: r => (p, i) :: numbered (i + 1) r end.

(** scan-services --xsids=3 on the stream of C50_case. *)
Definition own_scan (pid : Z) : Prop := In pid [0; 0x10; 0x11; 0x20].
Definition scan_file : list (Z * Z) := numbered 0 [0x10; 0; 0x11; 0x10; 0x20; 0].
Example C89_case_scan : two_files own_scan (file_of scan_file) (file_of (with_others scan_file)) (map pk scan_file) (map pk (with_others scan_file)) /\
  scan_pids own_scan (views (by_number ScanProps.sc_case) [] (map pk scan_file)) /\
  exists seen s, scan_services_main (by_number ScanProps.sc_case) None (Some [[51]]) (file_of (with_others scan_file)) 3000 = Some (Ok (0, (seen, s))) /\
    ServiceScanner.sc_out s = [[ServiceScanner.mkServiceDoc 8 7 1 11 0x01 5 (Some 4)]].
Proof.
  split; [|split].
  - apply others_files; [repeat constructor; cbn; lia|intros x I; cbn in I; unfold own_scan; cbn; repeat (destruct I as [<- |I]; [cbn; auto|]); destruct I|].
    unfold own_scan. cbn. lia.
  - unfold scan_pids, own_scan. split; [cbn; auto|]. split; [cbn; auto|]. split; [cbn; auto|].
    intros u pid (p & t & I & E & T & B) L. cbn [scan_file numbered map views In] in I.
    repeat (destruct I as [<- |I]; [vm_compute in E; try discriminate E; vm_compute in T; destruct T as [<- |[]]; try discriminate B; injection B as <-;
      cbn in L; repeat (destruct L as [L|L]; [first [discriminate L|injection L as <-; cbn; auto]|]); destruct L|]). destruct I.
  - do 2 eexists. split; vm_compute; reflexivity.
Qed.

(** sync-clocks --sids=1 on the stream of C47_case. *)
Definition sync_file : list (Z * Z) := numbered 0 (map p_pid SyncProps.sync_case).
Definition own_sync (pid : Z) : Prop := In pid [0; 0x11; 0x14; 0x100; 0x200; 0x300; 0x101; 0x201].
Example C89_case_sync : two_files own_sync (file_of sync_file) (file_of (with_others sync_file)) (map pk sync_file) (map pk (with_others sync_file)) /\
  sync_pids own_sync (views (by_number SyncProps.sync_case) [] (map pk sync_file)) /\
  exists seen s, sync_clocks_main (by_number SyncProps.sync_case) (Some [[49]]) None (file_of (with_others sync_file)) (Nat.mul 6 1000) = Some (Ok (0, (seen, s))) /\
    PcrSynchronizer.ps_out s = [[PcrSynchronizer.mkClockDoc 4 7 1 0x101 3000 1702047600000]].
Proof.
  split; [|split].
  - apply others_files; [repeat constructor; cbn; lia| |unfold own_sync; cbn; lia].
    intros x I. unfold own_sync. vm_compute in I. cbn [In]. repeat (destruct I as [<- |I]; [cbn; tauto|]). destruct I.
  - unfold sync_pids, own_sync. split; [cbn; auto|]. split; [cbn; auto|]. split; [cbn; auto|]. split.
    + intros u sid pid (p & t & I & E & T & B) L N. unfold sync_file in I. cbn [SyncProps.sync_case SyncProps.sync_start app map numbered views In] in I.
      repeat (destruct I as [<- |I]; [vm_compute in E; try discriminate E; vm_compute in T; destruct T as [<- |[]]; try discriminate B; injection B as <-;
        cbn in L; repeat (destruct L as [L|L]; [first [discriminate L|injection L as <- <-; cbn; tauto]|]); destruct L|]). destruct I.
    + intros q m Oq (p & t & I & E & T & B) N. unfold sync_file in I. cbn [SyncProps.sync_case SyncProps.sync_start app map numbered views In] in I.
      repeat (destruct I as [<- |I]; [vm_compute in T; try contradiction; destruct T as [<- |[]]; try discriminate B; injection B as <-; cbn; tauto|]). destruct I.
  - do 2 eexists. split; vm_compute; reflexivity.
Qed.

(** track-airtime and filter-program-metadata on the stream of C51_case. *)
Definition eit_file (n : nat) : list (Z * Z) := numbered 0 (repeat 0x12 n).
Lemma eit_two_files : forall (own : Z -> Prop) n, (n <= 256)%nat -> own 0x12 -> ~ own 0x500 ->
  two_files own (file_of (eit_file n)) (file_of (with_others (eit_file n))) (map pk (eit_file n)) (map pk (with_others (eit_file n))).
Proof.
  intros own n Hn O N.
  assert (K : forall k i x, In x (numbered i (repeat 0x12 k)) -> fst x = 0x12 /\ i <= snd x < i + Z.of_nat k).
  { induction k as [|k IH]; intros i x I; cbn in I; [destruct I|]. destruct I as [<- |I]; cbn [fst snd]; [lia|]. apply IH in I. lia. }
  apply others_files; [|intros x I; apply K in I; destruct I as [-> _]; exact O|exact N].
  apply Forall_forall. intros x I. apply K in I. unfold fits. lia.
Qed.
Example C89_case_airtime :
  two_files (fun pid => pid = 0x12) (file_of (eit_file 5)) (file_of (with_others (eit_file 5))) (map pk (eit_file 5)) (map pk (with_others (eit_file 5))) /\
  exists seen s, track_airtime_main (by_number EventProps.at_case) 1 11 (file_of (with_others (eit_file 5))) 3000 = Some (Ok (0, (seen, s))) /\
    AirtimeTracker.at_out s = [AirtimeTracker.mkAirtimeDoc 3 2 1 11 1702047660000 1800000; AirtimeTracker.mkAirtimeDoc 3 2 1 11 1702047690000 1800000].
Proof. split; [apply eit_two_files; [lia|reflexivity|discriminate]|]. do 2 eexists. split; vm_compute; reflexivity. Qed.
Example C89_case_metadata : exists seen d1 d2 d3 d4,
  program_metadata_main (by_number EventProps.at_case) None (file_of (with_others (eit_file 5))) 3000 = Some (Ok (0, (seen, [d1; d2; d3; d4]))).
Proof. do 5 eexists. vm_compute. reflexivity. Qed.

(** collect-eits on the carousel of C70_case, collect-eitpfs on the stream of
    C77_case. *)
Example C89_case_eits : exists seen s,
  collect_eits_main EitProps.dates (by_number_at [0x12; 0x14] CarouselProps.carousel) None None None false false false (file_of (with_others (eit_file 6))) 3000
    = Some (Ok (0, (seen, s))) /\ map ed_number (EitCollector.ec_out s) = [0; 8; 0].
Proof. do 2 eexists. split; vm_compute; reflexivity. Qed.
Example C89_case_eitpfs : exists seen s,
  collect_eitpfs_main EitProps.dates (by_number_at [0x12] JsonProps.pf_stream) (Some [[49]]) false false false (file_of (with_others (eit_file 6))) 3000
    = Some (Ok (0, (seen, s))) /\ map (fun d => (ed_version d, ed_number d)) (EitpfCollector.pf_out s) = [(1, 0); (2, 0); (2, 1)].
Proof. do 2 eexists. split; vm_compute; reflexivity. Qed.

(** ** What is false: without --sids collect-eitpfs stops at the first packet if it
    is on another PID; so does collect-eits with --time-limit=0. *)
Theorem C89_collect_eitpfs_refuted : ~ (forall mjd view reads reads' bs cs n m, per_pid view ->
  (forall h b, ts_packet b -> pid_bytes b <> 0x12 -> view h b = []) -> two_files (fun pid => pid = 0x12) reads reads' bs cs ->
  (List.length (bytes_of reads) < n)%nat -> (List.length (bytes_of reads') < m)%nat ->
  same_end (collect_eitpfs_main mjd view None false false false reads n) (collect_eitpfs_main mjd view None false false false reads' m)).
Proof.
  intros A.
  assert (K : same_end (collect_eitpfs_main EitProps.dates (by_number_at [0x12] JsonProps.pf_stream) None false false false (file_of (eit_file 1)) 300)
                       (collect_eitpfs_main EitProps.dates (by_number_at [0x12] JsonProps.pf_stream) None false false false (file_of (with_others (eit_file 1))) 900)).
  { eapply A.
    - apply by_number_at_ok.
    - intros h b _ N. apply by_number_at_ok. intros pid [<- |[]]. exact N.
    - apply eit_two_files; [lia|reflexivity|discriminate].
    - vm_compute. lia.
    - vm_compute. lia. }
  vm_compute in K. destruct K as [h K]. discriminate K.
Qed.
Print Assumptions C89_collect_eitpfs_refuted.

Theorem C89_collect_eits_refuted : ~ (forall mjd view limit reads reads' bs cs n m, per_pid view ->
  (forall h b, ts_packet b -> pid_bytes b <> 0x12 -> pid_bytes b <> 0x14 -> view h b = []) ->
  two_files (fun pid => pid = 0x12 \/ pid = 0x14) reads reads' bs cs ->
  (List.length (bytes_of reads) < n)%nat -> (List.length (bytes_of reads') < m)%nat ->
  same_end (collect_eits_main mjd view None None limit false false false reads n)
           (collect_eits_main mjd view None None limit false false false reads' m)).
Proof.
  intros A.
  assert (K : same_end (collect_eits_main EitProps.dates (by_number_at [0x12; 0x14] CarouselProps.carousel) None None (Some 0) false false false (file_of (eit_file 1)) 300)
                       (collect_eits_main EitProps.dates (by_number_at [0x12; 0x14] CarouselProps.carousel) None None (Some 0) false false false (file_of (with_others (eit_file 1))) 900)).
  { eapply A.
    - apply by_number_at_ok.
    - intros h b _ N N'. apply by_number_at_ok. intros pid [<- |[<- |[]]]; assumption.
    - apply eit_two_files; [lia|left; reflexivity|intros [E|E]; discriminate E].
    - vm_compute. lia.
    - vm_compute. lia. }
  vm_compute in K. destruct K as [h K]. discriminate K.
Qed.
Print Assumptions C89_collect_eits_refuted.
