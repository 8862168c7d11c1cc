(** Proofs about main as a whole (C87). *)
From Coq Require Import Ascii String ZArith Lia List Bool.
From Verif Require Import Base.Outcome Base.Util Model.Pcr Model.Sink Model.FileSource Model.StdoutSink Model.Ts Model.Options Model.Descriptors Model.ServiceFilter
  Model.RecorderOption Model.RingFileSink Model.ServiceRecorder Model.StartSeeker Model.Commands Model.PosixFile Model.JsonText
  Model.PesText Model.Documents Model.Main
  Spec.SourceSpec Spec.StdoutSpec Spec.OptionSpec Spec.FileSpec Spec.PipeSpec Spec.JsonSpec Spec.DocSpec Spec.DocumentsSpec Spec.MainSpec
  Proofs.OptionProofs Proofs.SourceProofs Proofs.PipeProofs Proofs.CutProofs Proofs.PcrProofs Proofs.JsonTextProofs Proofs.DocumentsProofs.
From Verif Require Model.ProgramFilter Model.EitCollector Model.EitpfCollector Model.AirtimeTracker Model.MetadataFilter Model.ServiceScanner
  Model.PcrSynchronizer Model.PesPrinter Model.Logo.
Import ListNotations.
Open Scope Z_scope.

(** ** Options *)
Lemma stoi_dec : forall s, (exists v pos, stoi s = Ok (v, pos)) \/ stoi s = Fail Uncaught.
Proof.
  intros s. rewrite stoi_unfold. destruct (after_sign (skip_space s)) as [neg s2]. destruct s2 as [|c r]; [auto|]. destruct (is_digit c); [|auto].
  destruct (scan_digits 0 (c :: r)) as [n rest]. cbv zeta. destruct (andb _ _); eauto.
Qed.
Lemma ids_ok : forall arg, with_bad bad_ids arg \/ exists set, LoadSidSet arg = Ok set.
Proof.
  intros [strs|]; cbn [with_bad LoadSidSet]; [|eauto]. generalize (@nil Z). induction strs as [|s strs IH]; intros acc; cbn [SidSet_Add]; [eauto|].
  destruct (stoi_dec s) as [(v & pos & E)|E].
  - rewrite E. cbn [bind]. destruct (negb _).
    + destruct (IH acc) as [(x & I & N)|H]; [left; exists x; split; [right; auto|auto]|auto].
    + destruct (IH (zadd (v mod 2 ^ 16) acc)) as [(x & I & N)|H]; [left; exists x; split; [right; auto|auto]|auto].
  - left. exists s. split; [left; reflexivity|]. intros n B F.
    destruct (proj2 (stoi_total s)) as (v & pos & E2); [eauto|]. rewrite E2 in E. discriminate.
Qed.
Lemma ids_bad : forall arg, with_bad bad_ids arg -> LoadSidSet arg = Fail Uncaught.
Proof. intros [strs|]; [|intros []]. intros H. apply add_throws. exact H. Qed.

Lemma tags_ok_or : forall arg, with_bad bad_tags arg \/ exists tags, LoadComponentTags arg = Ok (Some tags).
Proof.
  intros [strs|]; cbn [with_bad]; [|right; eexists; reflexivity].
  assert (D : bad_tags strs \/ forall s, In s strs -> exists n, OptionSpec.number s n /\ 0 <= n < 256).
  { induction strs as [|s strs IH]; [right; intros s []|].
    assert (N : (exists n, OptionSpec.number s n /\ 0 <= n < 256) \/ forall n, OptionSpec.number s n -> ~ 0 <= n < 256).
    { destruct (stoi_dec s) as [(v & pos & E)|E].
      - destruct (Z.eq_dec pos (zlen s)) as [->|N].
        + apply stoi_whole in E as [Nv F]. destruct (Z_le_dec 0 v); [destruct (Z_lt_dec v 256)|].
          * left. exists v. auto.
          * right. intros m Nn B. assert (m = v); [|lia]. apply (begins_unique s); auto using number_begins.
          * right. intros m Nn B. assert (m = v); [|lia]. apply (begins_unique s); auto using number_begins.
        + right. intros m Nn B. assert (F : fits_int m) by (unfold fits_int; lia).
          pose proof (proj2 (stoi_whole s m) (conj Nn F)) as H. rewrite E in H. injection H as -> ->. congruence.
      - right. intros n Nn B. assert (F : fits_int n) by (unfold fits_int; lia).
        pose proof (proj2 (stoi_whole s n) (conj Nn F)) as H. rewrite E in H. discriminate. }
    destruct N as [N|N]; [|left; exists s; split; [left; reflexivity|exact N]].
    destruct IH as [(x & I & Nx)|IH]; [left; exists x; split; [right; auto|auto]|].
    right. intros x [<-|I]; auto. }
  destruct D as [D|D]; [auto|]. right. apply tags_ok. exact D.
Qed.
Lemma tags_bad : forall arg, with_bad bad_tags arg -> LoadComponentTags arg = Ok None \/ LoadComponentTags arg = Fail Uncaught.
Proof.
  intros [strs|]; [|intros []]. cbn [with_bad LoadComponentTags]. generalize (@nil Z). induction strs as [|s strs IH]; intros acc (x & I & N); [destruct I|].
  cbn [add_tags]. destruct (stoi_dec s) as [(v & pos & E)|E]; rewrite E; cbn [bind]; [|auto].
  destruct (Z.eqb_spec pos (zlen s)); cbn [negb]; [|auto]. destruct (Z.ltb_spec v 0); [auto|]. destruct (Z.leb_spec 256 v); [auto|].
  apply IH. destruct I as [->|I]; [|exists x; auto]. exfalso. subst pos. apply stoi_whole in E as [Nv _]. apply (N v Nv). lia.
Qed.

Lemma geometry : forall cs nc start, in_long cs -> in_long nc -> given (fun p => 0 <= p < 2 ^ 64) start ->
  load_recorder_option cs nc start = None /\ ~ valid_geometry cs nc (match start with Some p => p | None => 0 end) \/
  load_recorder_option cs nc start = Some (cs, nc, match start with Some p => p | None => 0 end) /\
    valid_geometry cs nc (match start with Some p => p | None => 0 end).
Proof.
  intros cs nc start C N S. unfold load_recorder_option, valid_geometry. unfold in_long in *.
  change kRingBufferSize with 8192. change kMaxChunkSize with (8192 * 262143). change kMaxNumChunks with 2147483647.
  assert (UC : 0 <= cs /\ u64 cs = cs \/ cs < 0 /\ u64 cs = cs + 2 ^ 64).
  { unfold u64. destruct (Z_le_dec 0 cs); [left; split; [lia|apply Z.mod_small; lia]|right; split; [lia|]].
    symmetry. apply (Z.mod_unique _ _ (-1)); lia. }
  assert (UN : 0 <= nc /\ u64 nc = nc \/ nc < 0 /\ u64 nc = nc + 2 ^ 64).
  { unfold u64. destruct (Z_le_dec 0 nc); [left; split; [lia|apply Z.mod_small; lia]|right; split; [lia|]].
    symmetry. apply (Z.mod_unique _ _ (-1)); lia. }
  destruct (Z.eqb_spec (u64 cs) 0); [left; split; [reflexivity|lia]|].
  destruct (Z.eqb_spec (u64 cs mod 8192) 0) as [M|M]; cbn [negb].
  2: { left. split; [reflexivity|]. intros (A & B & _). destruct UC as [[_ UC]|[UC _]]; [rewrite UC in M; auto|lia]. }
  destruct (Z.ltb_spec (8192 * 262143) (u64 cs)); [left; split; [reflexivity|lia]|].
  destruct UC as [[UC0 UC]|UC]; [|lia]. rewrite UC in *.
  destruct (Z.eqb_spec (u64 nc) 0); [left; split; [reflexivity|lia]|].
  destruct (Z.ltb_spec 2147483647 (u64 nc)); [left; split; [reflexivity|lia]|].
  destruct UN as [[UN0 UN]|UN]; [|lia]. rewrite UN in *.
  assert (B : 0 < cs * nc <= 8192 * 262143 * 2147483647) by (split; [apply Z.mul_pos_pos; lia|apply Z.mul_le_mono_nonneg; lia]).
  destruct start as [p|].
  - cbn [given] in S. assert (U : u64 (cs * nc) = cs * nc) by (unfold u64; apply Z.mod_small; lia). rewrite U.
    destruct (Z.eqb_spec (p mod cs) 0) as [P|P]; cbn [negb]; [|left; split; [reflexivity|intros (_ & _ & _ & _ & G); auto]].
    destruct (Z.leb_spec (cs * nc) p); [left; split; [reflexivity|intros (_ & _ & _ & G & _); lia]|].
    right. split; [reflexivity|]. repeat split; auto; lia.
  - right. split; [reflexivity|]. repeat split; auto; lia.
Qed.

(** ** More fuel *)
Lemma loop_more : forall P (src : source P) (k : sink P) n m x s r, (n <= m)%nat ->
  feed_loop src k n x s = Some r -> feed_loop src k m x s = Some r.
Proof.
  intros P src k n. induction n as [|n IH]; intros m x s r L H; [discriminate|]. destruct m as [|m]; [lia|]. cbn [feed_loop] in *.
  destruct (sr_next src x) as [[x1 [p|]]|f]; auto. destruct (sk_handle k s p) as [[s1 [|]]|f]; auto. apply IH; [lia|auto].
Qed.
Lemma feed_more : forall P (src : source P) (k : sink P) n m x s r, (n <= m)%nat ->
  FeedPackets src k n x s = Some r -> FeedPackets src k m x s = Some r.
Proof.
  intros P src k n m x s r L. unfold FeedPackets. destruct (sk_start k s) as [[s1 [|]]|f]; auto.
  destruct (feed_loop src k n x s1) as [q|] eqn:E; [|discriminate]. rewrite (loop_more _ _ _ _ _ _ _ _ L E). auto.
Qed.
Lemma run_more : forall P (view : list (list Z) -> list Z -> P) k reads d n m r, (n <= m)%nat ->
  run_main view k reads d n = Some r -> run_main view k reads d m = Some r.
Proof. intros P view k reads d n m r L H. exact (feed_more _ file_source (viewed view k) n m (fs_init reads) ([], d) r L H). Qed.
Lemma run_ends : forall P (view : list (list Z) -> list Z -> P) k reads d n, Forall read_ok reads -> (List.length (bytes_of reads) < n)%nat ->
  exists r, run_main view k reads d n = Some r.
Proof.
  intros P view k reads d n R L. destruct (reads_packets reads R) as (bs & B & _).
  pose proof (main_feed view k reads bs d n R B L) as M. destruct (FeedPackets _ _ _ _ _) as [[[c d']|f]|]; [destruct M as [h ->]; eauto|eauto|destruct M].
Qed.
Definition steady {A} (f : nat -> option A) (n : nat) : Prop := exists r, forall m, (n <= m)%nat -> f m = Some r.
Lemma run_steady : forall P (view : list (list Z) -> list Z -> P) k reads d n, Forall read_ok reads -> (List.length (bytes_of reads) < n)%nat ->
  steady (run_main view k reads d) n.
Proof.
  intros P view k reads d n R L. destruct (run_ends P view k reads d n R L) as [r E]. exists r. intros m Lm. eapply run_more; eauto.
Qed.
Lemma steady_map : forall A B (f : nat -> option A) (g : option A -> option B) n, (forall r, exists q, g (Some r) = Some q) ->
  steady f n -> steady (fun m => g (f m)) n.
Proof. intros A B f g n G [r H]. destruct (G r) as [q E]. exists q. intros m L. rewrite (H m L). exact E. Qed.
Lemma steady_some : forall A (r : A) n, steady (fun _ => Some r) n.
Proof. intros. exists r. auto. Qed.

Lemma bytes_read : forall f reads, (List.length (bytes_of (map (px_Read f) reads)) <= List.length (bytes_of reads))%nat.
Proof.
  intros f reads. induction reads as [|r reads IH]; [cbn; lia|]. cbn [map]. unfold px_Read at 1. destruct (px_fd f <? 0); [cbn; lia|].
  destruct r as [[|b bs]|]; cbn [bytes_of]; [lia| |lia]. rewrite !app_length. lia.
Qed.
Lemma reads_read : forall f reads, Forall read_ok reads -> Forall read_ok (map (px_Read f) reads).
Proof.
  intros f reads H. induction H as [|r reads Hr H IH]; cbn [map]; constructor; auto. unfold px_Read. destruct (px_fd f <? 0); [exact I|exact Hr].
Qed.

Lemma finish_some : forall S (r : res (Z * (list (list Z) * S))) out trace, exists q, report (Some r) out trace = Some q.
Proof. intros. cbn. eauto. Qed.

Ltac rs := unfold collect_logos_main, filter_service_main, filter_program_main, program_metadata_main, track_airtime_main, seek_start_main, print_pes_main;
  match goal with R : Forall read_ok (the_reads _), L : (List.length (bytes_of (the_reads _)) < _)%nat |- steady ?f _ =>
    match f with
    | fun fuel => run_main ?v ?k ?r ?d fuel => exact (run_steady _ v k r d _ R L)
    | run_main ?v ?k ?r ?d => exact (run_steady _ v k r d _ R L)
    end end.
Lemma main_ends : forall lib sys c n, Forall read_ok (sy_reads sys) -> (List.length (bytes_of (sy_reads sys)) < n)%nat -> steady (main lib sys c) n.
Proof.
  intros lib sys c n R L.
  assert (R' : Forall read_ok (the_reads sys)) by (apply reads_read; auto).
  assert (L' : (List.length (bytes_of (the_reads sys)) < n)%nat) by (unfold the_reads; pose proof (bytes_read (px_open_read (sy_path sys) (sy_fd sys)) (sy_reads sys)); lia).
  destruct c; unfold main, report_jsonl.
  - apply (steady_map _ _ _ (fun r => report r _ _)); [intros; apply finish_some|]. unfold scan_services_main.
    destruct (load_service_scanner sids xsids); [rs|apply steady_some].
  - apply (steady_map _ _ _ (fun r => report r _ _)); [intros; apply finish_some|]. unfold sync_clocks_main.
    destruct (load_pcr_synchronizer sids xsids); [rs|apply steady_some].
  - apply (steady_map _ _ _ (fun r => report r _ _)); [intros; apply finish_some|]. unfold collect_eits_main.
    destruct (load_eit_collector _ _ _ _ _ _) as [o|]; [|apply steady_some]. destruct (EitCollector.ec_new o); [rs|apply steady_some].
  - apply (steady_map _ _ _ (fun r => report r _ _)); [intros; apply finish_some|]. unfold collect_eitpfs_main.
    destruct (load_eitpf_collector _ _ _ _); [rs|apply steady_some].
  - apply (steady_map _ _ _ (fun r => report r _ _)); [intros; apply finish_some|]. rs.
  - apply (steady_map _ _ _ (fun r => report r _ _)); [intros; apply finish_some|]. rs.
  - destruct (load_program_filter args) as [[o|]|]; try apply steady_some.
    apply (steady_map _ _ _ (fun r => report r _ _)); [intros; apply finish_some|]. rs.
  - apply (steady_map _ _ _ (fun r => report r _ _)); [intros; apply finish_some|]. rs.
  - destruct (load_recorder_option _ _ _) as [[[cs nc] start]|]; [|apply steady_some].
    apply (steady_map _ _ _ (fun r => report r _ _)); [intros; apply finish_some|]. unfold record_on.
    destruct (rc_new _ _) as [s0|]; [|apply steady_some].
    destruct (run_steady packet (li_packet lib) (record_service (li_bytes lib) sid (mkRcOption (id16 sid) cs nc start) (sy_local sys)) (the_reads sys)
      (sf_init (load_service_filter (Some sid)), s0) n R' L') as [r H]. unfold record_service_main.
    destruct r as [[code [seen [t s]]]|f].
    + destruct (existsb (entry_asserts (px_open_write file (sy_file_fd sys))) (rc_trace s)) eqn:E.
      * eexists. intros m Lm. rewrite (H m Lm). rewrite E. reflexivity.
      * eexists. intros m Lm. rewrite (H m Lm). rewrite E. reflexivity.
    + eexists. intros m Lm. rewrite (H m Lm). reflexivity.
  - apply (steady_map _ _ _ (fun r => report r _ _)); [intros; apply finish_some|]. rs.
  - destruct (ss_LoadOption _ _ _) as [o|]; [|apply steady_some].
    apply (steady_map _ _ _ (fun r => report r _ _)); [intros; apply finish_some|]. rs.
  - apply (steady_map _ _ _ (fun r => report r _ _)); [intros; apply finish_some|]. rs.
Qed.

(** ** Refused options *)
Lemma convert_ok : forall x, Z.abs x < 2 ^ 60 -> exists t, ConvertUnixTimeToJstTime x = Ok t.
Proof.
  intros x X. unfold ConvertUnixTimeToJstTime. replace UnixEpoch with 3506716800000 by reflexivity. replace kJstTzOffset with 32400000 by reflexivity. rewrite i64_ok by (unfold int64_min, int64_max; lia). cbn [bind].
  rewrite i64_ok by (unfold int64_min, int64_max; lia). eauto.
Qed.
Lemma load_program_bad : forall a, Z.abs (pa_clock_time a) < 2 ^ 60 -> given (fun w => Z.abs w < 2 ^ 60) (pa_wait_until a) ->
  with_bad bad_tags (pa_audio_tags a) \/ with_bad bad_tags (pa_video_tags a) ->
  load_program_filter a = Ok None \/ load_program_filter a = Fail Uncaught.
Proof.
  intros a T W B. unfold load_program_filter.
  destruct (convert_ok _ T) as [t ->]. cbn [bind].
  destruct (tags_ok_or (pa_audio_tags a)) as [A|[au A]].
  - destruct (tags_bad _ A) as [-> | ->]; cbn [bind]; auto.
  - rewrite A. cbn [bind]. destruct B as [B|B]; [destruct (tags_bad _ B) as [E|E]; rewrite E in A; discriminate|].
    destruct (tags_bad _ B) as [-> | ->]; cbn [bind]; auto.
Qed.
Lemma load_program_ok : forall a, Z.abs (pa_clock_time a) < 2 ^ 60 -> given (fun w => Z.abs w < 2 ^ 60) (pa_wait_until a) ->
  ~ (with_bad bad_tags (pa_audio_tags a) \/ with_bad bad_tags (pa_video_tags a)) ->
  exists o, load_program_filter a = Ok (Some o).
Proof.
  intros a T W B. unfold load_program_filter.
  pose proof convert_ok as E.
  destruct (E _ T) as [t ->]. cbn [bind].
  destruct (tags_ok_or (pa_audio_tags a)) as [A|[au ->]]; [tauto|]. cbn [bind].
  destruct (tags_ok_or (pa_video_tags a)) as [A|[vi ->]]; [tauto|]. cbn [bind].
  destruct (pa_wait_until a) as [w|]; cbn [given] in W; [destruct (E _ W) as [t2 ->]|]; cbn [bind]; eauto.
Qed.

Lemma load_two_bad : forall A (f : list Z -> list Z -> A) sids xsids, with_bad bad_ids sids \/ with_bad bad_ids xsids ->
  (let* s := LoadSidSet sids in let* x := LoadSidSet xsids in Ok (f s x)) = Fail Uncaught.
Proof.
  intros A f sids xsids B. destruct (ids_ok sids) as [S|[s S]]; [rewrite (ids_bad _ S); reflexivity|]. rewrite S. cbn [bind].
  destruct B as [B|B]; [rewrite (ids_bad _ B) in S; discriminate|]. rewrite (ids_bad _ B). reflexivity.
Qed.
Lemma load_two_ok : forall A (f : list Z -> list Z -> A) sids xsids, ~ (with_bad bad_ids sids \/ with_bad bad_ids xsids) ->
  exists s x, (let* s := LoadSidSet sids in let* x := LoadSidSet xsids in Ok (f s x)) = Ok (f s x).
Proof.
  intros A f sids xsids B. destruct (ids_ok sids) as [S|[s S]]; [tauto|]. destruct (ids_ok xsids) as [X|[x X]]; [tauto|].
  rewrite S, X. exists s, x. reflexivity.
Qed.

Lemma main_refused : forall c, parsed c -> refused c ->
  exists f, (f = AssertFail \/ f = Uncaught) /\ forall lib sys n, main lib sys c n = Some (Fail f).
Proof.
  intros c P R. destruct c; cbn [refused parsed] in *; try contradiction.
  - exists Uncaught. split; [auto|]. intros. cbn [main]. unfold scan_services_main, load_service_scanner.
    rewrite (load_two_bad _ ServiceScanner.mkScOption _ _ R). reflexivity.
  - exists Uncaught. split; [auto|]. intros. cbn [main]. unfold sync_clocks_main, load_pcr_synchronizer.
    rewrite (load_two_bad _ PcrSynchronizer.mkPsOption _ _ R). reflexivity.
  - assert (D : (with_bad bad_ids sids \/ with_bad bad_ids xsids) \/ ~ (with_bad bad_ids sids \/ with_bad bad_ids xsids) /\ only_actual = true /\ only_others = true).
    { destruct (ids_ok sids) as [S|[s S]]; [auto|]. destruct (ids_ok xsids) as [X|[x X]]; [auto|]. right. split.
      - intros [B|B]; apply ids_bad in B; congruence.
      - destruct R as [B|[B|B]]; [apply ids_bad in B; congruence|apply ids_bad in B; congruence|auto]. }
    destruct D as [D|(D & -> & ->)].
    + exists Uncaught. split; [auto|]. intros. cbn [main]. unfold collect_eits_main, load_eit_collector.
      rewrite (load_two_bad _ (fun s x => EitCollector.mkEitOption s x (match time_limit with Some v => v | None => 30000 end) streaming (negb only_others) (negb only_actual)) _ _ D).
      reflexivity.
    + exists AssertFail. split; [auto|]. intros. cbn [main]. unfold collect_eits_main, load_eit_collector.
      destruct (load_two_ok _ (fun s x => EitCollector.mkEitOption s x (match time_limit with Some v => v | None => 30000 end) streaming (negb true) (negb true)) _ _ D) as (s & x & ->).
      reflexivity.
  - exists Uncaught. split; [auto|]. intros. cbn [main]. unfold collect_eitpfs_main, load_eitpf_collector. rewrite (ids_bad _ R). reflexivity.
  - destruct P as [P1 P2]. destruct (load_program_bad args P1 P2 R) as [E|E].
    + exists AssertFail. split; [auto|]. intros. cbn [main]. rewrite E. reflexivity.
    + exists Uncaught. split; [auto|]. intros. cbn [main]. rewrite E. reflexivity.
  - destruct P as (P1 & P2 & P3). destruct (geometry _ _ _ P1 P2 P3) as [[E _]|[_ V]]; [|contradiction].
    exists AssertFail. split; [auto|]. intros. cbn [main]. rewrite E. reflexivity.
Qed.

(** ** Accepted options: on an empty file, every command ends regularly *)
Lemma empty_run : forall P (view : list (list Z) -> list Z -> P) k d n d1 d2 code, (0 < n)%nat ->
  sk_start k d = Ok (d1, true) -> sk_end k d1 = Ok d2 -> sk_exit k d2 = Ok code ->
  run_main view k [] d n = Some (Ok (code, ([], d2))).
Proof.
  intros P view k d n d1 d2 code N S E X. destruct n as [|n]; [lia|]. unfold run_main, FeedPackets. cbn [viewed sk_start snd fst]. rewrite S. cbn [bind fst snd].
  cbn [feed_loop]. change (sr_next file_source (fs_init [])) with (Ok (mkFs [] true [] 0, @None (list Z))). cbv beta iota zeta. cbn [bind].
  cbn [viewed sk_end fst snd]. rewrite E. cbn [bind]. cbn [viewed sk_exit fst snd]. rewrite X. reflexivity.
Qed.
Lemma logos_ok : forall ls out, exists out', Logo.lg_run out ls = Ok out'.
Proof.
  induction ls as [|l ls IH]; intros out; cbn [Logo.lg_run]; [eauto|]. unfold Logo.OnLogoDownloaded.
  destruct (Z.leb_spec (zlen (Logo.lg_data l)) 93); cbn [bind]; [apply IH|]. unfold Logo.lg_MakeJsonValue, Logo.MakeBase64Png, Logo.InsertPngChunks.
  change Logo.kIdatOffset with 33. destruct (Z.ltb_spec 33 (zlen (Logo.lg_data l))); [|lia]. cbn [assert bind]. apply IH.
Qed.

Lemma mod_trans : forall a b c, 0 < b -> 0 < c -> a mod b = 0 -> b mod c = 0 -> a mod c = 0.
Proof.
  intros a b c B C H K. apply Z.mod_divide in H; [|lia]. apply Z.mod_divide in K; [|lia]. apply Z.mod_divide; [lia|].
  eapply Z.divide_trans; eauto.
Qed.
Lemma set_position : forall s pos, pos <= int64_max -> pos mod 8192 = 0 -> pos < rg_ring_size s -> pos mod rg_chunk_size s = 0 ->
  exists r, rg_SetPosition s pos = Ok (r, [EvSeek pos], true) \/ rg_SetPosition s pos = Ok (r, [EvSeekFail], false).
Proof.
  intros s pos A B C D. unfold rg_SetPosition. change kRingBufferSize with 8192.
  apply Z.leb_le in A. apply Z.eqb_eq in B. apply Z.ltb_lt in C. apply Z.eqb_eq in D. rewrite A, B, C, D. cbn [assert].
  destruct (rg_next (rg_ops s)) as [[|] ops]; eexists; auto.
Qed.
Lemma record_empty : forall lib sys sid file cs nc start n, valid_geometry cs nc start -> file <> [] -> (0 < n)%nat ->
  exists code t s seen, record_on (li_packet lib) (li_bytes lib) sid (mkRcOption (id16 sid) cs nc start) (sy_local sys) file (sy_file_fd sys) (sy_ops sys) [] n =
    Some (Ok (code, (seen, (t, s)))) /\ exists ls, trace_lines lib false (rc_trace s) = Ok ls.
Proof.
  intros lib sys sid file cs nc start n (C & M & N & S & D) F Hn. unfold record_on.
  assert (W : px_open_write file (sy_file_fd sys) = mkPosix (sy_file_fd sys) false) by (destruct file; [congruence|reflexivity]). rewrite W.
  assert (B : 0 < cs * nc <= 8192 * 262143 * 2147483647) by (split; [apply Z.mul_pos_pos; lia|apply Z.mul_le_mono_nonneg; lia]).
  assert (U : u64 (cs * nc) = cs * nc) by (unfold u64; apply Z.mod_small; lia).
  unfold rc_new, rg_new. cbn [rco_chunk_size rco_num_chunks].
  change kRingBufferSize with 8192. change kMaxChunkSize with (8192 * 262143). change kMaxNumChunks with 2147483647.
  replace (0 <? cs) with true by (symmetry; apply Z.ltb_lt; lia). replace (cs <=? 8192 * 262143) with true by (symmetry; apply Z.leb_le; lia).
  replace (0 <? nc) with true by (symmetry; apply Z.ltb_lt; lia). replace (nc <=? 2147483647) with true by (symmetry; apply Z.leb_le; lia).
  replace (cs mod 8192 =? 0) with true by (symmetry; apply Z.eqb_eq; lia). cbn [assert bind]. rewrite U.
  set (s0 := rc_init _). set (o := mkRcOption _ _ _ _). unfold record_service_main.
  assert (Asserts : forall l, existsb (entry_asserts (mkPosix (sy_file_fd sys) false)) l = false).
  { induction l as [|e l IH]; [reflexivity|]. cbn [existsb]. rewrite IH, orb_false_r. destruct e as [|[]]; reflexivity. }
  assert (St : exists s1 ok, rc_Start o (sy_local sys) s0 = Ok (s1, ok) /\ (rc_trace s1 = [Msg MStart] \/ rc_trace s1 = [Ring (EvSeek start); Msg MStart] \/ rc_trace s1 = [Ring EvSeekFail])).
  { unfold rc_Start. cbn [o rco_start_pos]. destruct (Z.eqb_spec start 0); [eexists _, _; split; [reflexivity|auto]|].
    destruct (set_position (rc_ring s0) start) as (r & [-> | ->]);
      [cbn; unfold int64_max; lia|apply (mod_trans start cs); lia|cbn; lia|cbn; lia| |];
      cbn [bind rc_ring_events rc_put]; eexists _, _; (split; [reflexivity|]); cbn; auto. }
  destruct St as (s1 & ok & St & Tr).
  assert (Ls : forall s, rc_trace s = rc_trace s1 \/ (exists b, rc_trace s = (rc_trace s1 ++ [Msg (MStop b)])%list) -> exists ls, trace_lines lib false (rc_trace s) = Ok ls).
  { intros s [->|[b ->]]; destruct Tr as [-> |[-> | ->]]; cbn; eauto. }
  destruct ok.
  - set (x0 := sf_init (load_service_filter (Some sid))).
    set (s2 := rc_put s1 (Msg (MStop (rg_broken (rc_ring s1))))).
    assert (Ex : exists code, sk_exit (record_service (li_bytes lib) sid o (sy_local sys)) (x0, s2) = Ok code) by (cbn; eauto).
    destruct Ex as [code Ex].
    rewrite (empty_run _ (li_packet lib) (record_service (li_bytes lib) sid o (sy_local sys)) (x0, s0) n (x0, s1) (x0, s2) code Hn); [|cbn; rewrite St; reflexivity|reflexivity|exact Ex].
    rewrite Asserts. exists code, x0, s2, []. split; [reflexivity|]. apply Ls. right. exists (rg_broken (rc_ring s1)). reflexivity.
  - set (x0 := sf_init (load_service_filter (Some sid))). unfold run_main, FeedPackets. cbn [viewed sk_start fst snd record_service service_filter recorder].
    rewrite St. cbn [bind fst snd]. rewrite Asserts. exists EXIT_FAILURE, x0, s1, []. split; [reflexivity|]. apply Ls. left. reflexivity.
Qed.

Lemma main_accepted : forall lib sys c n, parsed c -> ~ refused c -> has_file c -> sy_reads sys = [] -> (0 < n)%nat ->
  exists e, main lib sys c n = Some (Ok e).
Proof.
  intros lib sys c n P R F E N. assert (E' : the_reads sys = []) by (unfold the_reads; rewrite E; reflexivity).
  destruct c; cbn [refused parsed has_file] in *; unfold main, report_jsonl; rewrite ?E'.
  - unfold scan_services_main, load_service_scanner. destruct (load_two_ok _ ServiceScanner.mkScOption _ _ R) as (s & x & ->).
    erewrite (empty_run packet); [|exact N|reflexivity|reflexivity|reflexivity]. cbn [report bind snd]. eauto.
  - unfold sync_clocks_main, load_pcr_synchronizer. destruct (load_two_ok _ PcrSynchronizer.mkPsOption _ _ R) as (s & x & ->).
    erewrite (empty_run packet); [|exact N|reflexivity|reflexivity|reflexivity]. cbn [report bind snd]. eauto.
  - unfold collect_eits_main, load_eit_collector.
    destruct (load_two_ok _ (fun s x => EitCollector.mkEitOption s x (match time_limit with Some v => v | None => 30000 end) streaming (negb only_others) (negb only_actual)) sids xsids)
      as (s & x & ->); [tauto|].
    unfold EitCollector.ec_new. cbn [EitCollector.eo_actual EitCollector.eo_others].
    replace (negb only_others || negb only_actual) with true by (destruct only_others, only_actual; tauto). cbn [assert].
    erewrite (empty_run _ (li_deliveries lib)); [|exact N|reflexivity|reflexivity|reflexivity]. cbn [report bind snd]. eauto.
  - unfold collect_eitpfs_main, load_eitpf_collector. destruct (ids_ok sids) as [S|[s S]]; [contradiction|]. rewrite S. cbn [bind].
    erewrite (empty_run _ (li_sections lib)); [|exact N|reflexivity|reflexivity|reflexivity]. cbn [report bind snd]. eauto.
  - unfold collect_logos_main. destruct (logos_ok (li_closing lib []) []) as [out O].
    erewrite (empty_run _ (fun _ b => b) (Logo.lc_sink (li_logos lib) (li_closing lib))); [|exact N|reflexivity|cbn; unfold Logo.lc_End; cbn; rewrite O; reflexivity|reflexivity].
    cbn [report bind snd]. eauto.
  - unfold filter_service_main. erewrite (empty_run packet); [|exact N|reflexivity|reflexivity|reflexivity]. cbn [report bind snd]. eauto.
  - destruct P as [P1 P2]. destruct (load_program_ok args P1 P2 R) as [o ->]. unfold filter_program_main.
    erewrite (empty_run packet); [|exact N|reflexivity|reflexivity|reflexivity]. cbn [report bind snd]. eauto.
  - unfold program_metadata_main. erewrite (empty_run packet); [|exact N|reflexivity|reflexivity|reflexivity]. cbn [report bind snd]. eauto.
  - destruct P as (P1 & P2 & P3). destruct (geometry _ _ _ P1 P2 P3) as [[_ V]|[L V]]; [contradiction|]. rewrite L.
    destruct (record_empty lib sys sid file _ _ _ n V F N) as (code & t & s & seen & -> & ls & T). cbn [report bind snd].
    assert (W : px_stdio (px_open_write file (sy_file_fd sys)) = false) by (destruct file; [congruence|reflexivity]). rewrite W, T. cbn [bind]. eauto.
  - unfold track_airtime_main. erewrite (empty_run packet); [|exact N|reflexivity|reflexivity|reflexivity]. cbn [report bind snd]. eauto.
  - destruct (ss_LoadOption _ _ _) as [o|]; [|eauto]. unfold seek_start_main.
    erewrite (empty_run packet); [|exact N|reflexivity|reflexivity|reflexivity]. cbn [report bind snd]. eauto.
  - unfold print_pes_main. erewrite (empty_run packet); [|exact N|reflexivity|reflexivity|reflexivity]. cbn [report bind snd]. eauto.
Qed.

(** ** Exit codes *)
Lemma feed_code : forall P (src : source P) (k : sink P) n x s c s', FeedPackets src k n x s = Some (Ok (c, s')) ->
  c = EXIT_FAILURE /\ sk_start k s = Ok (s', false) \/ sk_exit k s' = Ok c.
Proof.
  intros P src k n x s c s' H. unfold FeedPackets in H. destruct (sk_start k s) as [[s1 [|]]|f] eqn:S; [|injection H as <- <-; auto|discriminate].
  destruct (feed_loop src k n x s1) as [[d|f]|]; cbn [bind] in H; try discriminate. destruct (sk_end k d) as [d2|] eqn:E; cbn [bind] in H; [|discriminate].
  destruct (sk_exit k d2) as [c2|] eqn:X; cbn [bind] in H; [|discriminate]. injection H as <- <-. auto.
Qed.
Lemma run_code : forall P (view : list (list Z) -> list Z -> P) k reads d n c seen d', run_main view k reads d n = Some (Ok (c, (seen, d'))) ->
  c = EXIT_FAILURE /\ sk_start k d = Ok (d', false) \/ sk_exit k d' = Ok c.
Proof.
  intros P view k reads d n c seen d' H. apply (feed_code _ file_source (viewed view k)) in H as [[C H]|H].
  - left. split; [exact C|]. cbn [viewed sk_start fst snd] in H. destruct (sk_start k d) as [[d1 b]|]; cbn [bind] in H; [|discriminate]. injection H as _ <- <-. reflexivity.
  - right. exact H.
Qed.
Lemma report_inv : forall S (r : option (res (Z * (list (list Z) * S)))) out trace e, report r out trace = Some (Ok e) ->
  exists seen s, r = Some (Ok (en_code e, (seen, s))) /\ out s = Ok (en_stdout e) /\ trace s = en_trace e.
Proof.
  intros S r out trace e H. destruct r as [[[c [seen s]]|f]|]; cbn [report bind snd] in H; try discriminate.
  destruct (out s) as [o|] eqn:O; cbn [bind] in H; [|discriminate]. injection H as <-. exists seen, s. auto.
Qed.

Ltac codes H :=
  apply report_inv in H as (seen & s & H & _);
  unfold collect_logos_main, filter_service_main, filter_program_main, program_metadata_main, track_airtime_main, seek_start_main, print_pes_main in H;
  match type of H with run_main ?v ?k _ _ _ = _ => apply (run_code _ v k) in H as [[-> H]|H] end; [try (cbn in H; discriminate H)|].
Lemma main_codes : forall lib sys c n e, main lib sys c n = Some (Ok e) -> In (en_code e) (exit_codes c).
Proof.
  intros lib sys c n e H. destruct c; cbn [exit_codes]; unfold main, report_jsonl in H.
  - unfold scan_services_main in H. destruct (load_service_scanner sids xsids) as [o|]; [|discriminate]. codes H.
    cbn in H. unfold ServiceScanner.sc_GetExitCode in H. destruct (ServiceScanner.sc_completed s); injection H as <-; cbn; auto.
  - unfold sync_clocks_main in H. destruct (load_pcr_synchronizer sids xsids) as [o|]; [|discriminate]. codes H.
    cbn in H. unfold PcrSynchronizer.ps_GetExitCode in H. destruct (PcrSynchronizer.ps_done s); injection H as <-; cbn; auto.
  - unfold collect_eits_main in H. destruct (load_eit_collector _ _ _ _ _ _) as [o|]; [|discriminate]. destruct (EitCollector.ec_new o); [|discriminate].
    codes H. injection H as <-. cbn; auto.
  - unfold collect_eitpfs_main in H. destruct (load_eitpf_collector _ _ _ _) as [o|]; [|discriminate]. codes H. injection H as <-. cbn; auto.
  - codes H. injection H as <-. cbn; auto.
  - codes H. cbn in H. unfold sf_GetExitCode in H. cbn in H. injection H as <-. match goal with |- context [if ?b then _ else _] => destruct b end; cbn; auto.
  - destruct (load_program_filter args) as [[o|]|]; try discriminate. codes H. cbn in H. unfold sf_GetExitCode in H. cbn in H.
    destruct (ProgramFilter.pf_retry _); cbn in H; [injection H as <-; cbn; auto|].
    injection H as <-. match goal with |- context [if ?b then _ else _] => destruct b end; cbn; auto.
  - codes H. injection H as <-. cbn; auto.
  - destruct (load_recorder_option _ _ _) as [[[cs nc] start]|]; [|discriminate]. apply report_inv in H as (seen & [t s] & H & _). unfold record_on in H.
    destruct (rc_new _ _) as [s0|]; [|discriminate]. unfold record_service_main in H.
    match type of H with match ?r with _ => _ end = _ => destruct r as [[[code [sn [t' s']]]|f]|] eqn:E end; try discriminate.
    destruct (existsb _ _); [discriminate|]. injection H as -> -> -> ->.
    match type of E with run_main ?v ?k _ _ _ = _ => apply (run_code _ v k) in E as [[-> E]|E] end; [cbn; auto|]. cbn in E. unfold sf_GetExitCode in E. cbn in E. unfold rg_GetExitCode in E.
    destruct (rg_broken _); cbn in E; [injection E as <-; cbn; auto|]. destruct (sf_error t); injection E as <-; cbn; auto.
  - codes H. injection H as <-. cbn; auto.
  - destruct (ss_LoadOption _ _ _) as [o|]; [|injection H as <-; cbn; auto]. codes H. injection H as <-. cbn; auto.
  - codes H. injection H as <-. cbn; auto.
Qed.

(** ** The input counts only through its packets *)
Lemma input_read : forall sys, bytes_of (the_reads sys) = input_bytes sys.
Proof.
  intros sys. unfold the_reads, input_bytes, px_open_read, px_new.
  assert (Id : forall f, px_fd f <? 0 = false -> map (px_Read f) (sy_reads sys) = sy_reads sys).
  { intros f F. induction (sy_reads sys) as [|r l IH]; [reflexivity|]. cbn [map]. rewrite IH. unfold px_Read. rewrite F. reflexivity. }
  destruct (sy_path sys); [rewrite Id; reflexivity|]. destruct (Z.ltb_spec (sy_fd sys) 0) as [H|H].
  - destruct (sy_reads sys) as [|r0 l0]; [reflexivity|]. cbn [map]. unfold px_Read at 1. cbn [px_fd]. destruct (Z.ltb_spec (sy_fd sys) 0); [reflexivity|lia].
  - rewrite Id; [reflexivity|]. cbn [px_fd]. apply Z.ltb_ge. lia.
Qed.
Lemma run_same : forall P (view : list (list Z) -> list Z -> P) k r1 r2 ps d n, Forall read_ok r1 -> Forall read_ok r2 ->
  packets_of (bytes_of r1) ps -> packets_of (bytes_of r2) ps -> (List.length (bytes_of r1) < n)%nat -> (List.length (bytes_of r2) < n)%nat ->
  run_main view k r1 d n = run_main view k r2 d n.
Proof.
  intros P view k r1 r2 ps d n R1 R2 P1 P2 N1 N2. unfold run_main.
  rewrite (feed_file (viewed view k) r1 ps ([], d) n R1 P1 N1), (feed_file (viewed view k) r2 ps ([], d) n R2 P2 N2). reflexivity.
Qed.
Lemma main_same : forall lib sys path fd reads c ps n, let sys' := other_input sys path fd reads in
  Forall read_ok (sy_reads sys) -> Forall read_ok reads -> packets_of (input_bytes sys) ps -> packets_of (input_bytes sys') ps ->
  (List.length (input_bytes sys) < n)%nat -> (List.length (input_bytes sys') < n)%nat ->
  main lib sys c n = main lib sys' c n.
Proof.
  intros lib sys path fd reads c ps n sys' R1 R2 P1 P2 N1 N2. rewrite <- input_read in P1, P2, N1, N2.
  assert (R1' : Forall read_ok (the_reads sys)) by (apply reads_read; auto). assert (R2' : Forall read_ok (the_reads sys')) by (apply reads_read; auto).
  assert (E : forall P (view : list (list Z) -> list Z -> P) k d, run_main view k (the_reads sys) d n = run_main view k (the_reads sys') d n)
    by (intros; eapply run_same; eauto).
  destruct c; unfold main, report_jsonl, record_on, scan_services_main, sync_clocks_main, collect_eits_main, collect_eitpfs_main, collect_logos_main, filter_service_main,
    filter_program_main, program_metadata_main, record_service_main, track_airtime_main, seek_start_main, print_pes_main;
    repeat match goal with |- context [match ?m with Ok _ => _ | Fail _ => _ end] =>
      match m with run_main _ _ _ _ _ => fail 1 | _ => destruct m as [?|?]; try reflexivity end end;
    try match goal with |- context [match ?m with Some _ => _ | None => _ end] => destruct m as [o|]; try reflexivity end;
    try match goal with p : Z * Z * Z |- _ => destruct p as [[cs nc] start] | p := _ |- _ => idtac end; try (destruct o as [[cs nc] start]);
    try (change (sy_file_fd sys') with (sy_file_fd sys); change (sy_ops sys') with (sy_ops sys); destruct (rc_new _ _));
    rewrite ?E; reflexivity.
Qed.

(** ** The text of the documents *)
Lemma text_app : forall a b, text_bytes (a ++ b)%string = (text_bytes a ++ text_bytes b)%list.
Proof. intros a b. unfold text_bytes. induction a as [|c a IH]; cbn [append list_ascii_of_string map app]; [reflexivity|]. f_equal. exact IH. Qed.
Lemma cout_all : forall decode js, to_cout [] false (map (json_line decode) js) = text_bytes (jsonl decode js).
Proof.
  intros decode js. induction js as [|j js IH]; [reflexivity|]. cbn [map to_cout json_line jsonl]. rewrite IH, !text_app, app_assoc. reflexivity.
Qed.
Lemma cout_bad : forall fl decode js, to_cout fl true (map (json_line decode) js) = [].
Proof. intros fl decode js. induction js as [|j js IH]; [reflexivity|]. exact IH. Qed.
Lemma cout_prefix : forall decode js fl, is_prefix (to_cout fl false (map (json_line decode) js)) (to_cout [] false (map (json_line decode) js)).
Proof.
  intros decode js. induction js as [|j js IH]; intros fl; [exists []; reflexivity|]. cbn [map to_cout json_line]. destruct fl as [|[k|] fl].
  - destruct (IH []) as [r E]. exists r. rewrite E at 1. rewrite app_assoc. reflexivity.
  - rewrite cout_bad, app_nil_r. exists (zdrop k (text_bytes (write decode j ++ newline)) ++ to_cout [] false (map (json_line decode) js))%list.
    rewrite app_assoc. unfold ztake, zdrop. rewrite firstn_skipn. reflexivity.
  - destruct (IH fl) as [r E]. exists r. rewrite E, app_assoc. reflexivity.
Qed.

Fixpoint said (t : list entry) : list message := match t with [] => [] | Msg m :: r => m :: said r | Ring _ :: r => said r end.
Lemma trace_json : forall lib t ls, trace_lines lib false t = Ok ls ->
  exists js, messages_json (li_parts lib) (li_parsers lib) (said t) = Ok js /\ ls = map (json_line (li_decode lib)) js.
Proof.
  intros lib t. induction t as [|[m|r] t IH]; intros ls H; cbn [trace_lines said] in *.
  - injection H as <-. exists []. auto.
  - apply bind_ok in H as (j & J & H). apply bind_ok in H as (l & L & H). injection H as <-. destruct (IH _ L) as (js & M & ->).
    exists (j :: js). cbn [messages_json]. rewrite J, M. auto.
  - destruct r; try (apply IH; exact H). apply bind_ok in H as (l & L & H). injection H as <-. apply IH. exact L.
Qed.
Lemma message_types : forall lib m j, message_json (li_parts lib) (li_parsers lib) m = Ok j ->
  exists t, typed t (meaning (li_decode lib) j) /\ In t ["start"; "chunk"; "event-start"; "event-update"; "event-end"; "stop"]%string.
Proof.
  intros lib m j H. destruct m as [|b|t p|k a b c e t p]; cbn [message_json] in H; [| | |apply bind_ok in H as (v & _ & H)]; injection H as <-.
  - exists "start"%string. split; [reflexivity|cbn; auto].
  - exists "stop"%string. split; [reflexivity|cbn; auto 10].
  - exists "chunk"%string. split; [reflexivity|cbn; auto].
  - exists (kind_text k). split; [reflexivity|]. destruct k; cbn; auto 10.
Qed.

(** ** Invariants of a run *)
Lemma run_inv : forall P (view : list (list Z) -> list Z -> P) k (I : sk_state k -> Prop) reads d n c seen d',
  (forall s s' b, I s -> sk_start k s = Ok (s', b) -> I s') -> (forall s p s' b, I s -> sk_handle k s p = Ok (s', b) -> I s') ->
  (forall s s', I s -> sk_end k s = Ok s' -> I s') -> I d -> run_main view k reads d n = Some (Ok (c, (seen, d'))) -> I d'.
Proof.
  intros P view k I reads d n c seen d' HS HH HE HD H. unfold run_main, FeedPackets in H. cbn [viewed sk_start fst snd] in H.
  destruct (sk_start k d) as [[d1 b]|] eqn:S; cbn [bind] in H; [|discriminate]. pose proof (HS _ _ _ HD S) as I1. destruct b; [|injection H as _ _ <-; exact I1].
  assert (L : forall n x h d1 r, I d1 -> feed_loop file_source (viewed view k) n x (h, d1) = Some (Ok r) -> I (snd r)).
  { clear - HH. induction n as [|n IH]; intros x h d1 r I1 H; [discriminate|]. cbn [feed_loop] in H.
    destruct (sr_next file_source x) as [[x1 [p|]]|]; [|injection H as <-; exact I1|discriminate]. cbn [viewed sk_handle fst snd] in H.
    destruct (sk_handle k d1 (view h p)) as [[d2 ok]|] eqn:E; cbn [bind] in H; [|discriminate]. pose proof (HH _ _ _ _ I1 E) as I2.
    destruct ok; [exact (IH _ _ _ _ I2 H)|injection H as <-; exact I2]. }
  destruct (feed_loop _ _ _ _ _) as [[[h2 d2]|]|] eqn:F; cbn [bind] in H; try discriminate. pose proof (L _ _ _ _ _ I1 F) as I2. cbn [snd] in I2.
  cbn [viewed sk_end fst snd] in H. destruct (sk_end k d2) as [d3|] eqn:E; cbn [bind] in H; [|discriminate].
  destruct (sk_exit _ _); cbn [bind] in H; [|discriminate]. injection H as _ _ <-. eapply HE; eauto.
Qed.

Definition in_byte (x : Z) : Prop := 0 <= x < 256.
Lemma b64_char_byte : forall v, 0 <= v < 64 -> in_byte (Logo.b64_char v).
Proof. intros v H. unfold in_byte, Logo.b64_char. repeat match goal with |- context [if ?b then _ else _] => let E := fresh in destruct b eqn:E; rewrite ?Z.ltb_lt, ?Z.ltb_ge, ?Z.eqb_eq, ?Z.eqb_neq in E end; lia. Qed.
Lemma b64_bytes : forall n l, (List.length l <= n)%nat -> Forall in_byte l -> Forall in_byte (Logo.b64_encode l).
Proof.
  assert (D : forall a, in_byte a -> in_byte (Logo.b64_char (a / 4)) /\ in_byte (Logo.b64_char (a mod 4 * 16)) /\ in_byte (Logo.b64_char (a mod 16 * 4)) /\
             in_byte (Logo.b64_char (a mod 64))).
  { intros a A. unfold in_byte in A. repeat apply conj; apply b64_char_byte; Z.div_mod_to_equations; lia. }
  assert (T : forall a b, in_byte a -> in_byte b -> in_byte (Logo.b64_char (a mod 4 * 16 + b / 16)) /\ in_byte (Logo.b64_char (a mod 16 * 4 + b / 64))).
  { intros a b A B. unfold in_byte in A, B. split; apply b64_char_byte; Z.div_mod_to_equations; lia. }
  assert (P : in_byte 61) by (unfold in_byte; lia).
  induction n as [|n IH]; intros l L F; [destruct l; [constructor|cbn in L; lia]|].
  destruct l as [|a [|b [|c r]]]; [constructor| | |].
  - inversion F; subst. destruct (D a) as (? & ? & ? & ?); [assumption|]. repeat (constructor; try assumption).
  - inversion F as [|? ? A F2]; subst. inversion F2 as [|? ? B F3]; subst. destruct (D a) as (? & ? & ? & ?); [assumption|]. destruct (D b) as (? & ? & ? & ?); [assumption|].
    destruct (T a b) as (? & ?); [assumption..|]. repeat (constructor; try assumption).
  - inversion F as [|? ? A F2]; subst. inversion F2 as [|? ? B F3]; subst. inversion F3 as [|? ? C F4]; subst.
    destruct (D a) as (? & ? & ? & ?); [assumption|]. destruct (D c) as (? & ? & ? & ?); [assumption|]. destruct (T a b) as (? & ?); [assumption..|]. destruct (T b c) as (? & ?); [assumption..|].
    cbn [Logo.b64_encode]. constructor; [assumption|]. constructor; [assumption|]. constructor; [assumption|]. constructor; [assumption|].
    apply IH; [cbn in L; lia|assumption].
Qed.
Lemma kchunks_bytes : Forall in_byte Logo.kChunks.
Proof. apply Forall_forall. intros x I. assert (B : forallb (fun x => andb (0 <=? x) (x <? 256)) Logo.kChunks = true) by (vm_compute; reflexivity).
  rewrite forallb_forall in B. apply B in I. unfold in_byte. lia. Qed.
Lemma url_bytes : forall data b, Forall in_byte data -> Logo.MakeBase64Png data = Ok b -> Forall in_byte b.
Proof.
  intros data b F H. unfold Logo.MakeBase64Png, Logo.InsertPngChunks in H. apply bind_ok in H as (png & H & E). apply assert_ok in H as [_ H].
  apply (f_equal (fun r => match r with Ok x => x | Fail _ => [] end)) in E, H. cbv beta iota in E, H. subst b png.
  apply Forall_app. split; [unfold Logo.kDataUrl; repeat (constructor; [unfold in_byte; lia|]); constructor|]. eapply b64_bytes; [apply Nat.le_refl|].
  apply Forall_app. split; [|apply Forall_app; split; [apply kchunks_bytes|]].
  - apply Forall_forall. intros x I. rewrite Forall_forall in F. apply F. unfold ztake in I. rewrite <- (firstn_skipn (Z.to_nat Logo.kIdatOffset) data); apply in_or_app; left; exact I.
  - apply Forall_forall. intros x I. rewrite Forall_forall in F. apply F. unfold zdrop in I. rewrite <- (firstn_skipn (Z.to_nat Logo.kIdatOffset) data); apply in_or_app; right; exact I.
Qed.
Lemma logos_bytes : forall ls out out', (forall l, In l ls -> Forall in_byte (Logo.lg_data l)) -> Forall (fun d => Forall in_byte (Logo.ld_data d)) out ->
  Logo.lg_run out ls = Ok out' -> Forall (fun d => Forall in_byte (Logo.ld_data d)) out'.
Proof.
  induction ls as [|l ls IH]; intros out out' L F H; cbn [Logo.lg_run] in H; [injection H as <-; exact F|]. apply bind_ok in H as (o1 & O & H).
  apply (IH o1); [intros; apply L; right; assumption| |exact H]. unfold Logo.OnLogoDownloaded in O. destruct (_ <=? _); [injection O as <-; exact F|].
  apply bind_ok in O as (doc & D & O). injection O as <-. apply Forall_app. split; [exact F|]. constructor; [|constructor].
  unfold Logo.lg_MakeJsonValue in D. apply bind_ok in D as (b & B & D). injection D as <-. cbn [Logo.ld_data]. eapply url_bytes; [|exact B]. apply L. left; reflexivity.
Qed.

Lemma jsonl_doc : forall lib sys S (r : option (res (Z * (list (list Z) * S)))) docs e, sy_flushes sys = [] -> report_jsonl lib sys r docs = Some (Ok e) ->
  exists seen s, r = Some (Ok (en_code e, (seen, s))) /\ spells (en_stdout e) (jsonl (li_decode lib) (docs s)).
Proof.
  intros lib sys S r docs e F H. unfold report_jsonl in H. apply report_inv in H as (seen & s & H & O & _). exists seen, s. split; [exact H|].
  injection O as O. rewrite F, cout_all in O. unfold spells. rewrite <- O. reflexivity.
Qed.
Lemma main_json : forall lib sys c n e, outputs_json c -> has_file c -> logo_bytes lib -> sy_flushes sys = [] -> main lib sys c n = Some (Ok e) ->
  exists text, spells (en_stdout e) text /\ documented lib c text.
Proof.
  intros lib sys c n e J HF LB F H. destruct c; cbn [outputs_json documented] in *; try contradiction; unfold main in H.
  - apply jsonl_doc in H as (seen & s & _ & O); [|exact F]. eexists. split; [exact O|]. eexists. apply lines. apply all. intros ds. split; [|apply once_arr_map; intros; apply service_ok].
    apply every. intros; apply service_ok.
  - apply jsonl_doc in H as (seen & s & _ & O); [|exact F]. eexists. split; [exact O|]. eexists. apply lines. apply all. intros ds. split; [|apply once_arr_map; intros; apply clock_ok].
    apply every. intros; apply clock_ok.
  - apply jsonl_doc in H as (seen & s & _ & O); [|exact F]. eexists. split; [exact O|]. eexists. apply lines. apply all. intros; apply eit_ok.
  - apply jsonl_doc in H as (seen & s & _ & O); [|exact F]. eexists. split; [exact O|]. eexists. apply lines. apply all. intros; apply eit_ok.
  - apply jsonl_doc in H as (seen & s & R & O); [|exact F]. eexists. split; [exact O|]. exists (Logo.lc_out s). apply lines.
    assert (B : Forall (fun d => Forall in_byte (Logo.ld_data d)) (Logo.lc_out s)).
    { destruct LB as [L1 L2]. unfold collect_logos_main in R.
      refine (run_inv _ _ (Logo.lc_sink (li_logos lib) (li_closing lib)) (fun s => Forall (fun d => Forall in_byte (Logo.ld_data d)) (Logo.lc_out s)) _ _ _ _ _ _ _ _ _ _ R).
      - intros x x' b I E. injection E as <- _. exact I.
      - intros x p x' b I E. cbn in E. unfold Logo.lc_HandlePacket in E. destruct (Logo.lc_bridge x); [|discriminate].
        destruct (li_logos lib (Logo.lc_seen x) p) as [ls ok] eqn:G. apply bind_ok in E as (o & R1 & E). injection E as <- _. cbn [Logo.lc_out].
        eapply logos_bytes; [|exact I|exact R1]. intros l IL. apply (L1 (Logo.lc_seen x) p). rewrite G. exact IL.
      - intros x x' I E. cbn in E. unfold Logo.lc_End in E. apply bind_ok in E as (o & R1 & E). injection E as <-. cbn [Logo.lc_out].
        eapply logos_bytes; [|exact I|exact R1]. intros l IL. eapply L2; exact IL.
      - constructor. }
    eapply Forall_impl; [|exact B]. intros d D. apply logo_ok. exact D.
  - apply jsonl_doc in H as (seen & s & _ & O); [|exact F]. eexists. split; [exact O|]. eexists. apply lines. apply all. intros; apply meta_ok.
  - destruct (load_recorder_option _ _ _) as [[[cs nc] start]|]; [|discriminate]. apply report_inv in H as (seen & s & _ & O & _).
    apply bind_ok in O as (ls & T & O). injection O as O. assert (N : px_stdio (px_open_write file (sy_file_fd sys)) = false).
    { cbn [has_file] in HF. destruct file; [contradiction|reflexivity]. }
    rewrite N in T. apply trace_json in T as (js & M & ->). rewrite F, cout_all in O. exists (jsonl (li_decode lib) js). split; [unfold spells; rewrite <- O; reflexivity|].
    exists (map (meaning (li_decode lib)) js). split; [apply jsonl_read|]. clear - M. revert js M. induction (said (rc_trace (snd s))) as [|m ms IH]; intros js M; cbn [messages_json] in M.
    + injection M as <-. constructor.
    + apply bind_ok in M as (j & Mj & M). apply bind_ok in M as (r & Mr & M). injection M as <-. constructor; [|apply IH; exact Mr]. eapply message_types. exact Mj.
  - apply jsonl_doc in H as (seen & s & _ & O); [|exact F]. eexists. split; [exact O|]. eexists. apply lines. apply all. intros; apply airtime_ok.
Qed.

(** ** A standard output that fails *)
Lemma report_cout : forall lib sys fl S (r : option (res (Z * (list (list Z) * S)))) docs e, report_jsonl lib (other_stdout sys []) r docs = Some (Ok e) ->
  exists e', report_jsonl lib (other_stdout sys fl) r docs = Some (Ok e') /\ en_code e' = en_code e /\ is_prefix (en_stdout e') (en_stdout e) /\ en_trace e' = en_trace e.
Proof.
  intros lib sys fl S r docs e H. unfold report_jsonl in H |- *. apply report_inv in H as (seen & s & -> & O & T). cbn [report bind snd]. eexists. split; [reflexivity|].
  cbn [en_code en_stdout en_trace]. split; [reflexivity|]. split; [|exact T]. injection O as O. rewrite <- O. apply cout_prefix.
Qed.
Lemma main_stdout : forall lib sys fl c n e, outputs_json c -> has_file c -> main lib (other_stdout sys []) c n = Some (Ok e) ->
  exists e', main lib (other_stdout sys fl) c n = Some (Ok e') /\ en_code e' = en_code e /\ is_prefix (en_stdout e') (en_stdout e) /\ en_trace e' = en_trace e.
Proof.
  intros lib sys fl c n e J HF H. destruct c; cbn [outputs_json] in J; try contradiction; unfold main in H |- *;
    try (change (the_reads (other_stdout sys fl)) with (the_reads (other_stdout sys [])); apply report_cout; exact H).
  destruct (load_recorder_option _ _ _) as [[[cs nc] start]|]; [|discriminate]. apply report_inv in H as (seen & s & R & O & T).
  change (the_reads (other_stdout sys fl)) with (the_reads (other_stdout sys [])). change (sy_file_fd (other_stdout sys fl)) with (sy_file_fd (other_stdout sys [])).
  change (sy_ops (other_stdout sys fl)) with (sy_ops (other_stdout sys [])). change (sy_local (other_stdout sys fl)) with (sy_local (other_stdout sys [])).
  rewrite R. cbn [report bind snd]. assert (N : px_stdio (px_open_write file (sy_file_fd (other_stdout sys []))) = false).
  { cbn [has_file] in HF. destruct file; [contradiction|reflexivity]. }
  rewrite N in O |- *. apply bind_ok in O as (ls & TL & O). rewrite TL. cbn [bind]. injection O as O. eexists. split; [reflexivity|]. cbn [en_code en_stdout en_trace].
  split; [reflexivity|]. split; [|exact T]. rewrite <- O. apply trace_json in TL as (js & _ & ->). apply cout_prefix.
Qed.

(** ** seek-start without a limit *)
Lemma load_none : forall sid d p, ss_LoadOption sid d p = None <-> no_limit d p.
Proof.
  intros sid d p. unfold ss_LoadOption, no_limit.
  assert (P : match p with Some v => v mod 2 ^ 32 | None => 0 end = 0 <-> (p = None \/ exists k, p = Some (k * 2 ^ 32))).
  { destruct p as [v|]; [|split; auto]. split.
    - intros M. right. exists (v / 2 ^ 32). f_equal. rewrite (Z.div_mod v (2 ^ 32)) at 1 by lia. lia.
    - intros [E|(k & E)]; [discriminate|]. injection E as ->. apply Z.mod_mul. lia. }
  assert (D : match d with Some v => v | None => 0 end = 0 <-> (d = None \/ d = Some 0)).
  { destruct d as [v|]; [|split; auto]. split; [intros ->; auto|]. intros [E|E]; [discriminate|injection E; auto]. }
  rewrite <- P, <- D. destruct (Z.eqb_spec (match d with Some v => v | None => 0 end) 0); destruct (Z.eqb_spec (match p with Some v => v mod 2 ^ 32 | None => 0 end) 0);
    cbn [andb]; split; try discriminate; tauto.
Qed.
Lemma main_help : forall lib sys sid d p n, no_limit d p -> main lib sys (SeekStart sid d p) n = Some (Ok (mkEnded 1 (text_bytes (li_help lib)) [])).
Proof. intros lib sys sid d p n H. unfold main. apply (load_none sid) in H. rewrite H. reflexivity. Qed.
Lemma main_seeks : forall lib sys sid d p n e, ~ no_limit d p -> main lib sys (SeekStart sid d p) n = Some (Ok e) -> en_code e = 0.
Proof.
  intros lib sys sid d p n e H M. unfold main in M. destruct (ss_LoadOption sid d p) as [o|] eqn:L; [|apply load_none in L; contradiction]. codes M. injection M as <-. reflexivity.
Qed.
