(** C74, C75: commands on files that cannot be opened, read or written. *)
From Coq Require Import ZArith Lia List Bool.
From Verif Require Import Base.Outcome Base.Util Model.Sink Model.FileSource Model.StdoutSink Model.Ts Model.ServiceFilter Model.RingFileSink Model.ServiceRecorder
  Model.StartSeeker Model.Commands Model.PosixFile
  Spec.SourceSpec Spec.StdoutSpec Spec.FilterSpec Spec.TuneSpec Spec.FileSpec Spec.RecorderSpec Spec.PipeSpec
  Proofs.RingMain Proofs.PosixProofs.
From Verif Require Import Props.SourceProps Props.RingProps Props.RecorderProps Props.PipeProps.
From Verif Require Props.SeekProps.
Import ListNotations.
Open Scope Z_scope.

(** Packets for the examples: the [i]th 188 bytes of the input are the [i]th
    packet of [stream]. *)
Definition nth_view (stream : list packet) (h : list (list Z)) (b : list Z) : packet :=
  nth (List.length h) stream (rpkt 8191 None []).
Definition block : list Z := 0x47 :: repeat 0 187.
Definition block_reads (stream : list packet) : list read_result := map (fun _ => ReadData block) stream.
Definition blank (p : packet) : list Z := block.

(** * The input file

    C74 is false: exit code 0 for a file that cannot be opened, and for one
    where reading fails in the middle. *)
Definition errors (path : list Z) (fd : Z) (reads : list read_result) : Prop :=
  path <> [] /\ fd < 0 \/ In ReadError reads.

Theorem C74_reported_refuted : exists path fd reads view bytes o seen s w,
  errors path fd reads /\ path <> [] /\ 0 <= fd /\ bytes_of reads <> [] /\
  run_on view (seek_start bytes o) path fd reads (ss_init, so_init []) 3000 = Some (Ok (0, (seen, (s, w)))).
Proof.
  exists [47; 97], 3, (firstn 5 (block_reads SeekProps.stream_s) ++ ReadError :: skipn 5 (block_reads SeekProps.stream_s)), (nth_view SeekProps.stream_s), blank, SeekProps.opt_s.
  eexists. eexists. eexists. split; [right; apply in_or_app; right; left; reflexivity|]. split; [discriminate|]. split; [lia|].
  split; [vm_compute; discriminate|]. vm_compute. reflexivity.
Qed.
Print Assumptions C74_reported_refuted.

(** What is true, of every command: a read error is taken for the end of the
    file, ... *)
Theorem C74_read_error_exact : forall view k path fd reads more d n, Forall read_ok reads -> Forall read_ok more -> 0 <= fd ->
  (List.length (bytes_of reads) < n)%nat ->
  run_on view k path fd (reads ++ ReadError :: more) d n = run_on view k path fd reads d n.
Proof.
  intros view k path fd reads more d n R M F L. unfold run_on. set (f := px_open_read path fd).
  assert (E : px_fd f <? 0 = false) by (unfold f, px_open_read, px_new; destruct path; cbn [px_fd]; apply Z.ltb_ge; lia).
  assert (I : forall l, map (px_Read f) l = l) by (induction l as [|x l IH]; [reflexivity|]; cbn [map]; unfold px_Read at 1; rewrite E, IH; reflexivity).
  rewrite !I. unfold run_main.
  assert (B : bytes_of (reads ++ ReadError :: more) = bytes_of reads).
  { clear. induction reads as [|x l IH]; [reflexivity|]. cbn. destruct x as [bs|]; [|reflexivity]. destruct bs; [reflexivity|]. rewrite IH. reflexivity. }
  apply (C08_chunking_irrelevant (viewed view k) _ _ ([], d) n); [apply Forall_app; split; [exact R|constructor; [exact Logic.I|exact M]]|exact R|exact B|rewrite B; exact L].
Qed.
Print Assumptions C74_read_error_exact.

(** ... and a file that cannot be opened for an empty one. *)
Theorem C74_unopened_exact : forall view k path fd path' fd' reads d n, path <> [] -> fd < 0 -> 0 <= fd' -> (0 < n)%nat ->
  run_on view k path fd reads d n = run_on view k path' fd' [] d n.
Proof.
  intros view k path fd path' fd' reads d n P F F' N. unfold run_on, run_main. cbn [map].
  assert (B : bytes_of (map (px_Read (px_open_read path fd)) reads) = []).
  { destruct reads as [|x l]; [reflexivity|]. cbn [map]. unfold px_Read, px_open_read, px_new. destruct path; [congruence|]. cbn [px_fd].
    replace (fd <? 0) with true by (symmetry; apply Z.ltb_lt; lia). reflexivity. }
  apply (C08_chunking_irrelevant (viewed view k) _ _ ([], d) n); [|constructor|exact B|rewrite B; exact N].
  apply Forall_forall. intros x H. apply in_map_iff in H. destruct H as [y [<- _]]. unfold px_Read, px_open_read, px_new. destruct path; [congruence|].
  cbn [px_fd]. replace (fd <? 0) with true by (symmetry; apply Z.ltb_lt; lia). exact Logic.I.
Qed.
Print Assumptions C74_unopened_exact.

(** seek-start and filter-service end with exit code 0 on a file that is not
    there. *)
Example C74_case : errors [47; 97] (-1) [] /\
  (exists seen s w, run_on (nth_view []) (seek_start blank SeekProps.opt_s) [47; 97] (-1) [ReadData [71; 0]] (ss_init, so_init []) 9 = Some (Ok (0, (seen, (s, w)))) /\ so_out w = []) /\
  (exists seen s w, run_on (nth_view []) (filter_service blank 101) [47; 97] (-1) [] (sf_init (load_service_filter (Some 101)), so_init []) 9 = Some (Ok (0, (seen, (s, w)))) /\ so_out w = []).
Proof.
  split; [left; split; [discriminate|lia]|]. split; eexists; eexists; eexists; (split; [vm_compute; reflexivity|reflexivity]).
Qed.

(** * The recording file *)

(** C75 is false: less than 8 KiB are recorded without an error. *)
Definition short : list packet := firstn 20 rstream.
Definition sopt := mkRcOption 101 8192 2 0.

Theorem C75_reported_refuted : exists view bytes o path fd seen t s, path <> [] /\ fd < 0 /\
  record_on view bytes 101 o (fun _ => 0) path fd [] (block_reads short) 4000 = Some (Ok (0, (seen, (t, s)))) /\
  chunk_positions (messages (rc_trace s)) = [0] /\ In (MStop false) (messages (rc_trace s)).
Proof.
  exists (nth_view short), blank, sopt, [47; 97], (-1). eexists. eexists. eexists. split; [discriminate|]. split; [lia|].
  split; [vm_compute; reflexivity|]. split; [vm_compute; reflexivity|]. vm_compute. auto 20.
Qed.
Print Assumptions C75_reported_refuted.

Lemma plain : forall f tr, px_stdio f = false -> existsb (entry_asserts f) tr = false.
Proof.
  intros f tr S. induction tr as [|x tr IH]; [reflexivity|]. cbn [existsb]. rewrite IH, orb_false_r. destruct x as [m|e]; [reflexivity|].
  cbn. unfold px_asserts. rewrite S. destruct e; reflexivity.
Qed.

Lemma asserting : forall tr e, In e (ring_calls tr) -> px_asserts (mkPosix 1 true) e = true -> existsb (entry_asserts (mkPosix 1 true)) tr = true.
Proof.
  intros tr e H A. apply existsb_exists. exists (Ring e). split; [|exact A]. induction tr as [|x tr IH]; [destruct H|].
  cbn in H. destruct x as [m|e']; [right; auto|]. destruct H as [->|H]; [left; reflexivity|right; auto].
Qed.

Lemma code_nonzero : forall sid h e c code, c <> 0 -> match e with FilterSpec.Crashed _ => code = c /\ c <> 0 | _ => exit_code sid h c code end -> code <> 0.
Proof.
  intros sid h e c code C H. assert (X : exit_code sid h c code -> code <> 0) by (intros [[A _]|[_ A]]; congruence).
  destruct e; auto. destruct H; congruence.
Qed.

(** What holds: in a file that cannot be opened nothing is written and no chunk
    is reported complete; and if the recording is to start inside the file, or
    8 KiB are to be recorded, the exit code says so. *)
Theorem C75_unopened_partial : forall view bytes sid o local path fd ops reads bs n code seen t s, (forall p, zlen (bytes p) = 188) ->
  valid_geometry (rco_chunk_size o) (rco_num_chunks o) (rco_start_pos o) ->
  Forall read_ok reads -> packets_of (bytes_of reads) bs -> (List.length (bytes_of reads) < n)%nat -> path <> [] -> fd < 0 ->
  record_on view bytes sid o local path fd ops reads n = Some (Ok (code, (seen, (t, s)))) ->
  written (ring_calls (rc_trace s)) = [] /\ announced (ring_calls (rc_trace s)) = [] /\
  (chunk_positions (messages (rc_trace s)) = [] \/ chunk_positions (messages (rc_trace s)) = [rco_start_pos o]) /\
  (rco_start_pos o <> 0 -> code <> 0) /\
  exists mid e h, filtered (sid mod 2 ^ 16) None 0 anything [] tt (views view [] bs) mid e h tt /\
    forall r, record (rco_sid o) 1 local [] [] mid (Some r) -> 8192 <= 188 * zlen r -> code <> 0.
Proof.
  intros view bytes sid o local path fd ops reads bs n code seen t s B8 G R PK L P F H. unfold record_on in H.
  assert (Ef : px_open_write path fd = mkPosix fd false) by (destruct path; [congruence|reflexivity]). rewrite Ef in H.
  assert (Eo : px_ops (mkPosix fd false) ops = -1 :: map (fun _ => -1) ops) by (unfold px_ops; cbn [px_fd]; replace (fd <? 0) with true by (symmetry; apply Z.ltb_lt; lia); reflexivity).
  rewrite Eo in H. destruct (rc_new o _) as [s0|] eqn:N; [|discriminate]. cbn beta iota in H.
  destruct (record_service_main view bytes sid o local s0 reads n) as [[[c0 [seen0 [t0 s1]]]|]|] eqn:M; try discriminate.
  rewrite (plain (mkPosix fd false)) in H by reflexivity. injection H as -> -> -> ->.
  destruct (C63_record_service view bytes local sid o _ s0 reads bs n code seen t s G N R PK L M) as [mid [e [h [c [Fi [Ru Co]]]]]].
  destruct (runs_all _ _ _ _ _ _ _ _ Ru) as [[A1 [A2 [A3 A4]]]|[r [ok [Rc [Se [Cc [_ [_ [_ [Ch [_ Rn]]]]]]]]]]].
  - assert (CN : code <> 0) by (apply (code_nonzero (sid mod 2 ^ 16) h e c code); [congruence|exact Co]).
    rewrite A2, A4. cbn. repeat (split; [auto|]). exists mid, e, h. split; [exact Fi|auto].
  - destruct (session_bad _ _ _ _ _ _ _ _ Se) as [[-> [E Z0]]|[[-> [E Z0]]|[-> [E Z0]]]]; rewrite E in Ch |- *; cbn in Ch |- *.
    + split; [reflexivity|]. split; [reflexivity|]. split; [destruct r; auto|]. split; [congruence|]. exists mid, e, h. split; [exact Fi|].
      intros r' Rc' B. pose proof (C36_spec_deterministic o _ _ _ _ _ _ Rc _ Rc') as ->. exfalso. cbn in Se. rewrite E in Se.
      pose proof (C15_complete_blocks_written _ _ _ _ _ _ _ G ltac:(apply Forall_forall; intros x X; apply in_map_iff in X; destruct X as [y [<- _]]; exact (B8 y)) Se) as W.
      cbn [written] in W. change (zlen (@nil Z)) with 0 in W. unfold zlen in W at 1. rewrite map_length in W. fold (zlen r') in W.
      assert (1 <= 188 * zlen r' / 8192) by (apply Z.div_le_lower_bound; lia). lia.
    + assert (CN : code <> 0) by (apply (code_nonzero (sid mod 2 ^ 16) h e c code); [congruence|exact Co]).
      split; [reflexivity|]. split; [reflexivity|]. split; [destruct r; auto|]. split; [auto|]. exists mid, e, h. split; [exact Fi|auto].
    + assert (CN : code <> 0) by (apply (code_nonzero (sid mod 2 ^ 16) h e c code); [congruence|exact Co]).
      split; [reflexivity|]. split; [reflexivity|]. split; [destruct r; auto|]. split; [auto|]. exists mid, e, h. split; [exact Fi|auto].
Qed.
Print Assumptions C75_unopened_partial.

(** With an empty file name the packets go to the standard output, and the
    process aborts where a chunk is complete: a recording that succeeds with a
    file and completes a chunk, or starts inside the file, is aborted. *)
Theorem C75_no_name_refuted : forall view bytes sid o local path fd ops reads bs n seen t s, (forall p, zlen (bytes p) = 188) ->
  valid_geometry (rco_chunk_size o) (rco_num_chunks o) (rco_start_pos o) ->
  Forall read_ok reads -> packets_of (bytes_of reads) bs -> (List.length (bytes_of reads) < n)%nat -> path <> [] -> 0 <= fd ->
  record_on view bytes sid o local path fd ops reads n = Some (Ok (0, (seen, (t, s)))) ->
  rco_start_pos o <> 0 \/ announced (ring_calls (rc_trace s)) <> [] ->
  record_on view bytes sid o local [] fd ops reads n = Some (Fail AssertFail).
Proof.
  intros view bytes sid o local path fd ops reads bs n seen t s B8 G R PK L P F H W. unfold record_on in *.
  assert (Ef : px_open_write path fd = mkPosix fd false) by (destruct path; [congruence|reflexivity]). rewrite Ef in H.
  change (px_open_write [] fd) with (mkPosix 1 true). unfold px_ops in *. cbn [px_fd] in *.
  replace (fd <? 0) with false in H by (symmetry; apply Z.ltb_ge; lia). change (1 <? 0) with false.
  destruct (rc_new o ops) as [s0|] eqn:N; [|discriminate]. cbn beta iota in H |- *.
  destruct (record_service_main view bytes sid o local s0 reads n) as [[[c0 [seen0 [t0 s1]]]|]|] eqn:M; try discriminate.
  rewrite (plain (mkPosix fd false)) in H by reflexivity. injection H as -> -> -> ->.
  destruct (C63_record_service view bytes local sid o _ s0 reads bs n 0 seen t s G N R PK L M) as [mid [e [h [c [Fi [Ru Co]]]]]].
  assert (X : exists e, In e (ring_calls (rc_trace s)) /\ px_asserts (mkPosix 1 true) e = true).
  { destruct (runs_all _ _ _ _ _ _ _ _ Ru) as [[A1 [A2 [A3 A4]]]|[r [ok [Rc [Se _]]]]].
    - exists EvSeekFail. rewrite A4. split; [left; reflexivity|reflexivity].
    - destruct (session_sync _ _ _ _ _ _ _ _ Se) as [S1 S2]. destruct W as [W|W]; [exact (S1 W)|]. exists EvSync. split; [exact (S2 W)|reflexivity]. }
  destruct X as [x [I A]]. rewrite (asserting _ _ I A). reflexivity.
Qed.
Print Assumptions C75_no_name_refuted.

Definition long : list packet := firstn 50 rstream.
Example C75_case :
  (exists seen t s, record_on (nth_view long) blank 101 ropt (fun _ => 0) [47; 97] 3 [] (block_reads long) 10000 = Some (Ok (0, (seen, (t, s)))) /\
     announced (ring_calls (rc_trace s)) <> []) /\
  record_on (nth_view long) blank 101 ropt (fun _ => 0) [] 3 [] (block_reads long) 10000 = Some (Fail AssertFail) /\
  (exists seen t s, record_on (nth_view long) blank 101 sopt (fun _ => 0) [47; 97] (-1) [] (block_reads long) 10000 = Some (Ok (1, (seen, (t, s)))) /\
     written (ring_calls (rc_trace s)) = []).
Proof.
  split; [eexists; eexists; eexists; split; [vm_compute; reflexivity|vm_compute; discriminate]|]. split; [vm_compute; reflexivity|].
  eexists; eexists; eexists; split; [vm_compute; reflexivity|reflexivity].
Qed.
