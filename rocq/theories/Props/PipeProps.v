(** C61 - C65: the commands as wholes, from the input file to the output. *)
From Coq Require Import ZArith Lia List Bool.
From Verif Require Import Base.Outcome Base.Util Model.Sink Model.FileSource Model.StdoutSink Model.Ts Model.Options Model.ServiceFilter
  Model.RingFileSink Model.ServiceRecorder Model.StartSeeker Model.EitSection Model.EitCollector Model.Commands
  Spec.FeedSpec Spec.SourceSpec Spec.StdoutSpec Spec.OptionSpec Spec.FilterSpec Spec.TuneSpec Spec.TransSpec Spec.FileSpec Spec.RecorderSpec
  Spec.ProgramSpec Spec.SeekSpec Spec.EitSpec Spec.PipeSpec
  Proofs.PipeProofs Proofs.PipeProgram Proofs.PipeRecord Proofs.PipeSeek Proofs.PipeOptions.
From Verif Require Model.ProgramFilter Model.EitpfCollector Spec.PfSpec Proofs.PfProofs Props.FilterProps Props.ProgramProps Props.SeekProps.
From Verif Require Import Props.RecorderProps.
Import ListNotations.
Open Scope Z_scope.

(** * Any command: the input file counts only through its packets

    [bs] are the packets in the bytes of the file.  Whatever sink a command
    makes, main ends as if the packets were fed to it one by one. *)
Theorem C61_any_command : forall P (view : list (list Z) -> list Z -> P) k reads bs d n, Forall read_ok reads -> packets_of (bytes_of reads) bs ->
  (List.length (bytes_of reads) < n)%nat ->
  match FeedPackets (list_source P) k n (views view [] bs) d with
  | None => False
  | Some (Fail f) => run_main view k reads d n = Some (Fail f)
  | Some (Ok (c, d')) => exists h, run_main view k reads d n = Some (Ok (c, (h, d')))
  end.
Proof. exact @main_feed. Qed.
Print Assumptions C61_any_command.

(** * filter-service *)
Theorem C61_filter_service : forall view bytes, (forall p, zlen (bytes p) = 188) ->
  forall sid reads bs writes n, Forall read_ok reads -> packets_of (bytes_of reads) bs -> Forall no_error writes ->
  (List.length (bytes_of reads) < n)%nat ->
  exists out e h, filtered (sid mod 2 ^ 16) None 0 anything [] tt (views view [] bs) out e h tt /\
  match e with
  | FilterSpec.Crashed f => filter_service_main view bytes sid reads writes n = Some (Fail f)
  | _ => exists code seen s w, filter_service_main view bytes sid reads writes n = Some (Ok (code, (seen, (s, w)))) /\
      exit_code (sid mod 2 ^ 16) h 0 code /\ so_out w = concat (map bytes out)
  end.
Proof. exact filter_service_exact. Qed.
Print Assumptions C61_filter_service.

(** In bytes: some packets of the file are left out and packets of PID 0 are
    replaced; all else comes out byte for byte, in order, in whole packets. *)
Theorem C61_bytes : forall view bytes, faithful view bytes ->
  forall sid reads bs writes n code seen s w, Forall read_ok reads -> Forall is_byte (bytes_of reads) -> packets_of (bytes_of reads) bs ->
  Forall no_error writes -> (List.length (bytes_of reads) < n)%nat ->
  filter_service_main view bytes sid reads writes n = Some (Ok (code, (seen, (s, w)))) ->
  exists out, so_out w = concat out /\ kept bs out.
Proof. exact filter_service_kept. Qed.
Print Assumptions C61_bytes.

(** ** A concrete TSDuck

    The id of a packet is the number that its bytes are the digits of; the tables
    are those of the packets in a given list. *)
Definition num (b : list Z) : Z := fold_left (fun a x => Z.shiftl a 8 + x) b 0.
Fixpoint digits_onto (n : nat) (v : Z) (rest : list Z) : list Z :=
  match n with
  | O => rest
  | S n => digits_onto n (Z.shiftr v 8) (Z.land v 255 :: rest)
  end.
Definition digits (n : nat) (v : Z) : list Z := digits_onto n v [].
Definition demo_bytes (p : packet) : list Z :=
  match p_content p with
  | Raw v => digits 188 v
  | GenPat _ => [0x47; 0x40] ++ repeat 0 186
  | GenPmt _ i => [0x47; 0x41; Z.of_nat i] ++ repeat 0 185
  end.
Definition demo_view (stream : list packet) (h : list (list Z)) (b : list Z) : packet :=
  let p := nth (List.length h) stream (FilterProps.pkt 0 0 []) in
  mkPacket (Raw (num b)) (pid_bytes b) (p_pusi p) (p_pcr p) (p_pts p) (p_dts p) (p_tabs p) (p_regen p).
(** The bytes of packet [i]. *)
Definition demo_packet (i : Z) (p : packet) : list Z := [0x47; p_pid p / 256; p_pid p mod 256; i] ++ repeat i 184.
Fixpoint demo_packets (i : Z) (stream : list packet) : list (list Z) :=
  match stream with
  | [] => []
  | p :: r => demo_packet i p :: demo_packets (i + 1) r
  end.
Definition demo_reads (stream : list packet) : list read_result := map ReadData (demo_packets 0 stream).

Lemma digits_num : forall b, Forall is_byte b -> digits (List.length b) (num b) = b.
Proof.
  intros b F. unfold digits. rewrite <- (app_nil_r b) at 3. generalize (@nil Z) as rest. revert F.
  induction b as [|x b IH] using rev_ind; intros F rest; [reflexivity|]. apply Forall_app in F as [F1 F2]. inversion F2 as [|? ? Bx _]; subst.
  rewrite app_length, Nat.add_comm. cbn [List.length Nat.add digits_onto]. unfold num. rewrite fold_left_app. cbn [fold_left]. fold (num b).
  unfold is_byte in Bx. rewrite Z.shiftl_mul_pow2, Z.shiftr_div_pow2 by lia. change (2 ^ 8) with 256. change 255 with (Z.ones 8).
  rewrite Z.land_ones by lia. change (2 ^ 8) with 256. rewrite Z.div_add_l, Z.div_small, Z.add_0_r by lia.
  rewrite Z.add_comm, Z.mod_add, Z.mod_small by lia. rewrite IH by auto. rewrite <- app_assoc. reflexivity.
Qed.
Lemma digits_length : forall n v, List.length (digits n v) = n.
Proof.
  intros n v. unfold digits. rewrite <- (Nat.add_0_r n) at 2. change O with (List.length (@nil Z)). generalize (@nil Z) as rest. revert v.
  induction n as [|n IH]; intros v rest; [reflexivity|]. cbn [digits_onto]. rewrite IH. cbn. lia.
Qed.

Lemma demo_faithful : forall stream, faithful (demo_view stream) demo_bytes.
Proof.
  intros stream. split; [|split].
  - intros h b [L B]. unfold demo_bytes, demo_view. cbn [p_content]. unfold zlen in L.
    replace 188%nat with (List.length b) by lia. apply digits_num. auto.
  - reflexivity.
  - intros p. unfold demo_bytes, zlen. destruct (p_content p); [rewrite digits_length; reflexivity|reflexivity|reflexivity].
Qed.

Lemma demo_input : forall stream i, zlen stream + i <= 256 -> 0 <= i -> (forall p, In p stream -> 0 <= p_pid p < 8192) ->
  let reads := map ReadData (demo_packets i stream) in
  Forall read_ok reads /\ Forall is_byte (bytes_of reads) /\ packets_of (bytes_of reads) (demo_packets i stream) /\
  List.length (bytes_of reads) = (188 * List.length stream)%nat.
Proof.
  induction stream as [|p r IH]; intros i L Hi P; cbv zeta.
  - split; [constructor|]. split; [constructor|]. split; [apply Pk_short; reflexivity|reflexivity].
  - rewrite zlen_cons in L. destruct (IH (i + 1) ltac:(lia) ltac:(lia) (fun q H => P q (or_intror H))) as [A [B [C D]]]. cbv zeta in *.
    assert (Lp : zlen (demo_packet i p) = 188) by (unfold demo_packet; rewrite zlen_app; unfold zlen at 2; rewrite repeat_length; reflexivity).
    cbn [demo_packets map bytes_of]. change (demo_packet i p) with (0x47 :: tl (demo_packet i p)). cbv iota.
    change (0x47 :: tl (demo_packet i p)) with (demo_packet i p).
    split; [constructor; [cbn [read_ok]; rewrite Lp; lia|exact A]|]. split; [|split].
    + apply Forall_app. split; [|exact B]. specialize (P p (or_introl eq_refl)). unfold demo_packet. apply Forall_app. split.
      * pose proof (Z.mod_pos_bound (p_pid p) 256). pose proof (Z.div_pos (p_pid p) 256). pose proof (Z.div_lt_upper_bound (p_pid p) 256 256).
        pose proof (zlen_nonneg _ r). repeat constructor; unfold is_byte; lia.
      * apply Forall_forall. intros x Hx. apply repeat_spec in Hx. subst. pose proof (zlen_nonneg _ r). unfold is_byte. lia.
    + apply Pk_packet; auto. reflexivity.
    + rewrite app_length, D. unfold zlen in Lp. cbn [List.length]. lia.
Qed.

(** What the packets in the file look like to the program. *)
Definition alike (p q : packet) : Prop := p_pid p = p_pid q /\ p_pcr p = p_pcr q /\ p_tabs p = p_tabs q.
Lemma demo_alike : forall stream, (forall p, In p stream -> 0 <= p_pid p < 8192) ->
  Forall2 alike (views (demo_view stream) [] (demo_packets 0 stream)) stream.
Proof.
  intros stream P.
  assert (G : forall rest pre h i, stream = pre ++ rest -> List.length h = List.length pre ->
    Forall2 alike (views (demo_view stream) h (demo_packets i rest)) rest).
  { induction rest as [|q rest IH]; intros pre h i E L; cbn [demo_packets views]; constructor.
    - assert (Iq : In q stream) by (rewrite E; apply in_app_iff; right; left; auto). unfold alike.
      unfold demo_view. rewrite L. replace (nth (List.length pre) stream _) with q by (rewrite E, app_nth2, Nat.sub_diag by lia; reflexivity).
      cbn [p_pid p_pcr p_tabs]. repeat split. unfold demo_packet. cbn [app pid_bytes]. specialize (P q Iq).
      rewrite (Z.mod_small (p_pid q / 256) 32) by (split; [apply Z.div_pos; lia|apply Z.div_lt_upper_bound; lia]).
      rewrite (Z.div_mod (p_pid q) 256) at 3 by lia. lia.
    - apply (IH (pre ++ [q])); auto; [rewrite <- app_assoc; exact E|cbn; rewrite app_length; cbn; lia]. }
  apply (G stream [] [] 0); auto.
Qed.
Lemma alike_in : forall a b, Forall2 alike a b -> forall p, In p a -> exists q, In q b /\ alike p q.
Proof.
  induction 1 as [|p q a b H F IH]; intros r [].
  - subst. exists q. split; [left|]; auto.
  - destruct (IH r) as [z [Hz Az]]; auto. exists z. split; [right|]; auto.
Qed.
Lemma demo_views : forall stream, (forall p, In p stream -> 0 <= p_pid p < 8192) ->
  forall p, In p (views (demo_view stream) [] (demo_packets 0 stream)) ->
  exists q, In q stream /\ p_pid p = p_pid q /\ p_pcr p = p_pcr q /\ p_tabs p = p_tabs q.
Proof. intros stream P p H. exact (alike_in _ _ (demo_alike stream P) p H). Qed.

(** --sid 65637 selects service 101. *)
Example C61_case : exists seen s w, filter_service_main (demo_view FilterProps.stream1) demo_bytes 65637 (demo_reads FilterProps.stream1) [] 3000
    = Some (Ok (0, (seen, (s, w)))) /\
  (exists out, so_out w = concat out /\ kept (demo_packets 0 FilterProps.stream1) out) /\
  0 < zlen (so_out w) < zlen (concat (demo_packets 0 FilterProps.stream1)).
Proof.
  assert (R : zlen FilterProps.stream1 + 0 <= 256) by (vm_compute; discriminate).
  assert (P : forall p, In p FilterProps.stream1 -> 0 <= p_pid p < 8192).
  { intros p H. repeat (destruct H as [<-|H]; [cbn; lia|]). destruct H. }
  destruct (demo_input _ 0 R ltac:(lia) P) as [A [B [C D]]].
  assert (E : exists seen s w, filter_service_main (demo_view FilterProps.stream1) demo_bytes 65637 (demo_reads FilterProps.stream1) [] 3000
    = Some (Ok (0, (seen, (s, w)))) /\ 0 < zlen (so_out w) < zlen (concat (demo_packets 0 FilterProps.stream1))).
  { eexists. eexists. eexists. split; [vm_compute; reflexivity|]. vm_compute. split; reflexivity. }
  destruct E as [seen [s [w [E Lw]]]]. exists seen, s, w. split; [exact E|]. split; [|exact Lw].
  eapply C61_bytes; [apply demo_faithful|exact A|exact B|exact C|constructor| |exact E].
  rewrite D. apply Nat.ltb_lt. vm_compute. reflexivity.
Qed.

(** * filter-program

    The service filter's output is the program filter's input. *)
Theorem C62_filter_program : forall view bytes, (forall p, zlen (bytes p) = 188) -> forall npackets, (forall m, (1 <= npackets m)%nat) ->
  forall sid o reads bs writes n, sane_option o -> Forall read_ok reads -> packets_of (bytes_of reads) bs -> Forall no_error writes ->
  (List.length (bytes_of reads) < n)%nat -> Forall (sane_packet 1) (views view [] bs) ->
  exists mid e h out e' h', filtered (sid mod 2 ^ 16) None 0 anything [] tt (views view [] bs) mid e h tt /\
  trans (program_step npackets o 1) anything [] tt mid out e' h' tt /\
  match e', e with
  | TransSpec.Crashed f, _ => filter_program_main view bytes npackets sid o reads writes n = Some (Fail f)
  | TransSpec.AtEnd, FilterSpec.Crashed f => filter_program_main view bytes npackets sid o reads writes n = Some (Fail f)
  | _, _ => exists code seen s t w,
      filter_program_main view bytes npackets sid o reads writes n = Some (Ok (code, (seen, (s, (t, w))))) /\ so_out w = concat (map bytes out) /\
      match e' with
      | TransSpec.AtEnd => exit_code (sid mod 2 ^ 16) h (program_code o h') code
      | _ => code = program_code o h'
      end
  end.
Proof. exact filter_program_exact. Qed.
Print Assumptions C62_filter_program.

(** With tables in range, one PMT PID for the service and no PIDs that upset the
    service filter, it comes to its end: PATs without the service never reach the
    program filter. *)
Theorem C62_survives : forall view bytes, (forall p, zlen (bytes p) = 188) -> forall npackets, (forall m, (1 <= npackets m)%nat) ->
  forall sid o mpid reads bs writes n, sane_option o -> ProgramFilter.pfo_sid o = sid mod 2 ^ 16 -> ~ In mpid base_pids ->
  Forall read_ok reads -> packets_of (bytes_of reads) bs -> Forall no_error writes ->
  (List.length (bytes_of reads) < n)%nat -> Forall (sane_packet 1) (views view [] bs) ->
  (forall p t, In p (views view [] bs) -> In t (p_tabs p 0) -> tame (sid mod 2 ^ 16) None (p_pid p, tb_body t) /\
     forall pat q, listing (sid mod 2 ^ 16) (p_pid p, tb_body t) = Some (pat, q) -> q = mpid) ->
  (forall p t, In p (views view [] bs) -> In t (p_tabs p 1) -> service_pmt (sid mod 2 ^ 16) (p_pid p, tb_body t) <> None -> p_pid p = mpid) ->
  exists code s, filter_program_main view bytes npackets sid o reads writes n = Some (Ok (code, s)).
Proof. exact filter_program_survives. Qed.
Print Assumptions C62_survives.

(** The program of C24, in a file, with a second service around it and a last PAT
    without the service. *)
Definition stream2 : list packet :=
  [FilterProps.pkt 30 0x1F1 []] ++ ProgramProps.stream101 ++ [FilterProps.pkt 31 0x121 []; FilterProps.pkt 32 0 [TPat (Some (mkPat 7 1 [(102, 0x1F1)]))]].
Example C62_case : exists seen s t w,
  filter_program_main (demo_view stream2) demo_bytes ProgramProps.two 101 ProgramProps.opt101 (demo_reads stream2) [] 4000 = Some (Ok (0, (seen, (s, (t, w))))) /\
  zlen (so_out w) = 188 * 11.
Proof. eexists. eexists. eexists. eexists. split; [vm_compute; reflexivity|]. vm_compute. reflexivity. Qed.

Example C62_case_conditions : let bs := demo_packets 0 stream2 in let v := views (demo_view stream2) [] bs in
  Forall read_ok (demo_reads stream2) /\ packets_of (bytes_of (demo_reads stream2)) bs /\ (List.length (bytes_of (demo_reads stream2)) < 4000)%nat /\
  sane_option ProgramProps.opt101 /\ ProgramFilter.pfo_sid ProgramProps.opt101 = 101 mod 2 ^ 16 /\ ~ In 0x1F0 base_pids /\ Forall (sane_packet 1) v /\
  (forall p t, In p v -> In t (p_tabs p 0) -> tame (101 mod 2 ^ 16) None (p_pid p, tb_body t) /\
     forall pat q, listing (101 mod 2 ^ 16) (p_pid p, tb_body t) = Some (pat, q) -> q = 0x1F0) /\
  (forall p t, In p v -> In t (p_tabs p 1) -> service_pmt (101 mod 2 ^ 16) (p_pid p, tb_body t) <> None -> p_pid p = 0x1F0).
Proof.
  intros bs v.
  assert (P : forall p, In p stream2 -> 0 <= p_pid p < 8192) by (intros p H; repeat (destruct H as [<-|H]; [cbn; lia|]); destruct H).
  destruct (demo_input stream2 0 ltac:(vm_compute; discriminate) ltac:(lia) P) as [A [_ [C D]]].
  split; [exact A|]. split; [exact C|]. split; [unfold demo_reads; rewrite D; apply Nat.ltb_lt; reflexivity|].
  split; [apply ProgramProps.C24_case_hypotheses|]. split; [reflexivity|]. split; [cbn; intros H; repeat (destruct H as [H|H]; [discriminate|]); exact H|].
  split; [|split].
  - apply Forall_forall. intros p H. destruct (demo_views stream2 P p H) as [q [Iq [E1 [E2 E3]]]]. unfold sane_packet. rewrite E2, E3. clear - Iq.
    repeat (destruct Iq as [<-|Iq]; [split; [intros z E; first [discriminate E | injection E as <-; vm_compute; split; [discriminate|reflexivity]]
      |intros t H; repeat (destruct H as [<-|H]; [cbn; auto; repeat constructor; cbn; lia|]); destruct H]|]). destruct Iq.
  - intros p t H Ht. destruct (demo_views stream2 P p H) as [q [Iq [E1 [E2 E3]]]]. rewrite E1. rewrite E3 in Ht. clear - Iq Ht.
    change (101 mod 2 ^ 16) with 101.
    repeat (destruct Iq as [<-|Iq]; [cbn in Ht; repeat (destruct Ht as [<-|Ht]; [split;
      [cbn; first [exact I | intros pid E; first [discriminate E | injection E as <-; lia | repeat (destruct E as [E|E]; [subst; lia|]); repeat destruct E as [E|E]; subst; lia || contradiction]]
      |cbn; intros pat z E; first [discriminate E | injection E as _ <-; reflexivity]]|]); destruct Ht|]). destruct Iq.
  - intros p t H Ht. destruct (demo_views stream2 P p H) as [q [Iq [E1 [E2 E3]]]]. rewrite E1. rewrite E3 in Ht. clear - Iq Ht.
    repeat (destruct Iq as [<-|Iq]; [cbn in Ht; repeat (destruct Ht as [<-|Ht]; [cbn; intros N; first [reflexivity | contradiction N; reflexivity]|]); destruct Ht|]). destruct Iq.
Qed.

(** * record-service

    The recorder behind the service filter records, and writes messages, as in
    C33 - C36 and C60: [runs] is what those are about. *)
Theorem C63_record_service : forall view bytes local sid o ops s0 reads bs n code seen t s,
  valid_geometry (rco_chunk_size o) (rco_num_chunks o) (rco_start_pos o) -> rc_new o ops = Ok s0 ->
  Forall read_ok reads -> packets_of (bytes_of reads) bs -> (List.length (bytes_of reads) < n)%nat ->
  record_service_main view bytes sid o local s0 reads n = Some (Ok (code, (seen, (t, s)))) ->
  exists mid e h c, filtered (sid mod 2 ^ 16) None 0 anything [] tt (views view [] bs) mid e h tt /\
    runs o local bytes 1 ops mid c s /\
    match e with FilterSpec.Crashed _ => code = c /\ c <> 0 | _ => exit_code (sid mod 2 ^ 16) h c code end.
Proof.
  intros view bytes local sid o ops s0 reads bs n code seen t s G E0 R Pk Hn M.
  destruct (record_service_exact o local bytes view sid s0 reads bs n R Pk Hn) as [mid [e [h [F A]]]].
  specialize (A (S (List.length mid)) ltac:(lia)).
  destruct (FeedPackets (list_source packet) (recorder o local bytes 1) (S (List.length mid)) mid s0) as [[[c s1]|f]|] eqn:Er; [| |destruct A].
  - exists mid, e, h, c. split; [exact F|].
    assert (X : s1 = s /\ match e with FilterSpec.Crashed _ => code = c /\ c <> 0 | _ => exit_code (sid mod 2 ^ 16) h c code end).
    { destruct e; try (destruct A as [code' [se [t' [X A]]]]; rewrite A in M; injection M as <- _ _ <-; auto).
      destruct A as [[N [se [t' A]]]|A]; rewrite A in M; [injection M as <- _ _ <-; auto|discriminate]. }
    destruct X as [<- X]. split; [split; [exact G|exists (S (List.length mid)), s0; auto]|exact X].
  - rewrite A in M. discriminate.
Qed.
Print Assumptions C63_record_service.

(** It comes to its end, whatever the file operations return, even on PATs
    without the service. *)
Theorem C63_no_abort : forall o local bytes view, (forall n, Z.abs (local n) < 2 ^ 44) ->
  valid_geometry (rco_chunk_size o) (rco_num_chunks o) (rco_start_pos o) ->
  forall sid ops reads bs n, rco_sid o = sid mod 2 ^ 16 -> Forall read_ok reads -> packets_of (bytes_of reads) bs ->
  (List.length (bytes_of reads) < n)%nat ->
  (forall p t, In p (views view [] bs) -> In t (p_tabs p 0) -> tame (sid mod 2 ^ 16) None (p_pid p, tb_body t)) ->
  (forall p v, In p (views view [] bs) -> p_pcr p = Some v -> 0 <= v < 2 ^ 33 * 300) ->
  (forall p t, In p (views view [] bs) -> In t (p_tabs p 1) -> sane_table (tb_body t)) ->
  exists s0 code s, rc_new o ops = Ok s0 /\ record_service_main view bytes sid o local s0 reads n = Some (Ok (code, s)).
Proof. exact record_service_safe. Qed.
Print Assumptions C63_no_abort.

(** The recording of C33, in a file, and then a PAT without the service. *)
Definition stream3 : list packet := rstream ++ [rpkt 0 None [TPat (Some (mkPat 7 1 [(102, 0x1F1)]))]].
Example C63_case : exists s0 seen t s, rc_new ropt [] = Ok s0 /\
  record_service_main (demo_view stream3) demo_bytes 101 ropt (fun _ => 0) s0 (demo_reads stream3) 20000 = Some (Ok (1, (seen, (t, s)))) /\
  chunk_positions (messages (rc_trace s)) = [8192; 0; 8192].
Proof. eexists. eexists. eexists. eexists. split; [reflexivity|]. split; [vm_compute; reflexivity|]. vm_compute. reflexivity. Qed.

Example C63_case_conditions : let bs := demo_packets 0 stream3 in let v := views (demo_view stream3) [] bs in
  valid_geometry (rco_chunk_size ropt) (rco_num_chunks ropt) (rco_start_pos ropt) /\ rco_sid ropt = 101 mod 2 ^ 16 /\
  Forall read_ok (demo_reads stream3) /\ packets_of (bytes_of (demo_reads stream3)) bs /\ (List.length (bytes_of (demo_reads stream3)) < 20000)%nat /\
  (forall p t, In p v -> In t (p_tabs p 0) -> tame (101 mod 2 ^ 16) None (p_pid p, tb_body t)) /\
  (forall p z, In p v -> p_pcr p = Some z -> 0 <= z < 2 ^ 33 * 300) /\
  (forall p t, In p v -> In t (p_tabs p 1) -> sane_table (tb_body t)).
Proof.
  intros bs v. change (101 mod 2 ^ 16) with 101.
  assert (P : forall p, In p stream3 -> 0 <= p_pid p < 8192) by (intros p H; repeat (destruct H as [<-|H]; [cbn; lia|]); destruct H).
  destruct (demo_input stream3 0 ltac:(vm_compute; discriminate) ltac:(lia) P) as [A [_ [C D]]].
  split; [unfold valid_geometry; cbn; repeat split; try lia; try reflexivity; auto|]. split; [reflexivity|].
  split; [exact A|]. split; [exact C|]. split; [unfold demo_reads; rewrite D; apply Nat.ltb_lt; vm_compute; reflexivity|].
  split; [|split].
  - intros p t H Ht. destruct (demo_views stream3 P p H) as [q [Iq [E1 [E2 E3]]]]. rewrite E1. rewrite E3 in Ht. clear - Iq Ht.
    repeat (destruct Iq as [<-|Iq]; [cbn in Ht; repeat (destruct Ht as [<-|Ht];
      [cbn; first [exact I | right; reflexivity | intros pid E; first [discriminate E | injection E as <-; lia | repeat (destruct E as [E|E]; [subst; lia|]); repeat destruct E as [E|E]; subst; lia || contradiction]]|]); destruct Ht|]). destruct Iq.
  - intros p z H Hz. destruct (demo_views stream3 P p H) as [q [Iq [E1 [E2 E3]]]]. rewrite E2 in Hz. clear - Iq Hz.
    repeat (destruct Iq as [<-|Iq]; [cbn in Hz; first [discriminate Hz | injection Hz as <-; vm_compute; split; [discriminate|reflexivity]]|]). destruct Iq.
  - intros p t H Ht. destruct (demo_views stream3 P p H) as [q [Iq [E1 [E2 E3]]]]. rewrite E3 in Ht. clear - Iq Ht.
    repeat (destruct Iq as [<-|Iq]; [cbn in Ht; repeat (destruct Ht as [<-|Ht]; [cbn; auto; try (repeat constructor); vm_compute; repeat split; discriminate|]); destruct Ht|]). destruct Iq.
Qed.

(** * seek-start *)
Theorem C64_seek_start : forall view bytes, (forall p, zlen (bytes p) = 188) ->
  forall o reads bs writes n, Forall read_ok reads -> packets_of (bytes_of reads) bs -> Forall no_error writes ->
  (List.length (bytes_of reads) < n)%nat -> orderly o 0 (views view [] bs) -> sane_seek o ->
  exists r seen s w, seek o 0 [] None 0 (views view [] bs) r /\
    seek_start_main view bytes o reads writes n = Some (Ok (0, (seen, (s, w)))) /\
    so_out w = concat (map bytes (seek_output (views view [] bs) r)).
Proof. exact seek_start_exact. Qed.
Print Assumptions C64_seek_start.

(** In bytes: all packets, or one packet and then all packets from some packet
    on. *)
Theorem C64_bytes : forall view bytes, faithful view bytes ->
  forall o reads bs writes n, Forall read_ok reads -> Forall is_byte (bytes_of reads) -> packets_of (bytes_of reads) bs -> Forall no_error writes ->
  (List.length (bytes_of reads) < n)%nat -> orderly o 0 (views view [] bs) -> sane_seek o ->
  exists seen s w, seek_start_main view bytes o reads writes n = Some (Ok (0, (seen, (s, w)))) /\
    (so_out w = concat bs \/
     exists i j m p a, seek o 0 [] None 0 (views view [] bs) (Cut i j m) /\ 0 < j < zlen bs /\ znth i bs = Some p /\ zdrop j bs = a /\
       so_out w = p ++ concat a).
Proof. exact seek_start_bytes. Qed.
Print Assumptions C64_bytes.

Example C64_case : exists seen s w,
  seek_start_main (demo_view SeekProps.stream_s) demo_bytes SeekProps.opt_s (demo_reads SeekProps.stream_s) [] 3000 = Some (Ok (0, (seen, (s, w)))) /\
  exists p, znth 1 (demo_packets 0 SeekProps.stream_s) = Some p /\ so_out w = p ++ concat (zdrop 4 (demo_packets 0 SeekProps.stream_s)).
Proof. eexists. eexists. eexists. split; [vm_compute; reflexivity|]. eexists. split; vm_compute; reflexivity. Qed.

Example C64_case_conditions : orderly SeekProps.opt_s 0 (views (demo_view SeekProps.stream_s) [] (demo_packets 0 SeekProps.stream_s)) /\ sane_seek SeekProps.opt_s.
Proof.
  split; [|split; cbn; lia].
  assert (P : forall p, In p SeekProps.stream_s -> 0 <= p_pid p < 8192) by (intros p H; repeat (destruct H as [<-|H]; [cbn; lia|]); destruct H).
  pose proof (demo_alike _ P) as F.
  assert (N : forall a b, Forall2 alike a b -> forall n p, znth n a = Some p -> exists q, znth n b = Some q /\ alike p q).
  { intros a b Fa n p. unfold znth. destruct (n <? 0); [discriminate|]. generalize (Z.to_nat n). clear n. induction Fa as [|x y a b H Fa IH]; intros [|n] E; try discriminate; cbn in *.
    - injection E as <-. eauto.
    - eauto. }
  assert (Y : forall a b, Forall2 alike a b -> Forall2 alike b a).
  { clear. intros a b F. induction F as [|x y a b H F IH]; constructor; [destruct H as [A [B C]]; unfold alike; auto|exact IH]. }
  intros n p E. destruct (N _ _ F n p E) as [q [Eq [A1 [A2 A3]]]]. destruct (SeekProps.orderly_s n q Eq) as [O1 O2]. rewrite A1, A2, A3. split; [exact O1|].
  intros t Ht. destruct (O2 t Ht) as [M [B [[z [Ez Pz]] S]]]. split; [exact M|]. split; [exact B|]. split; [|exact S].
  destruct (N _ _ (Y _ _ F) _ _ Ez) as [z' [Ez' [Z1 _]]]. exists z'. split; [exact Ez'|congruence].
Qed.

(** * Options *)

(** --sid counts modulo 65536. *)
Theorem C65_sid_wraps : forall view bytes sid m reads writes n,
  filter_service_main view bytes (sid + 65536 * m) reads writes n = filter_service_main view bytes sid reads writes n.
Proof.
  intros. unfold filter_service_main, filter_service, load_service_filter, id16. change (2 ^ 16) with 65536.
  rewrite (Z.mul_comm 65536 m), Z.mod_add by lia. reflexivity.
Qed.
Print Assumptions C65_sid_wraps.

(** collect-eits: the sections that are looked at are those of the tables and
    services asked for, and no other one has any effect. *)
Theorem C65_collect_eits : forall sids xsids ns xs limit streaming actual others, ids_given sids ns -> ids_given xsids xs ->
  exists o, load_eit_collector sids xsids limit streaming actual others = Ok o /\
    eo_streaming o = streaming /\ (limit = None -> eo_time_limit o = 30000) /\ (forall v, limit = Some v -> eo_time_limit o = v) /\
    (forall x, schedule o x <->
      sn_valid x = true /\ sn_next x = false /\ 6 <= zlen (sn_payload x) /\
      (0x50 <= sn_tid x <= 0x5F /\ others = false \/ 0x60 <= sn_tid x <= 0x6F /\ actual = false) /\
      (ns = [] \/ In (sid_of x) ns) /\ ~ In (sid_of x) xs) /\
    (forall mjd s x, ~ schedule o x -> ec_deliver mjd o s (DSection x) = Ok s).
Proof. exact collect_eits_options. Qed.
Print Assumptions C65_collect_eits.

(** collect-eitpfs: --present leaves out the following sections, --following the
    present ones. *)
Theorem C65_collect_eitpfs : forall sids ns streaming present following, ids_given sids ns ->
  exists o, load_eitpf_collector sids streaming present following = Ok o /\ EitpfCollector.po_streaming o = streaming /\
    (forall x, PfSpec.pf_counts o x <->
      sn_valid x = true /\ sn_next x = false /\ sn_tid x = 0x4E /\ 6 <= zlen (sn_payload x) /\ (sn_number x = 0 \/ sn_number x = 1) /\
      (ns = [] \/ In (sid_of x) ns)) /\
    (forall x, PfSpec.pf_selected o x <-> sn_number x = 0 /\ following = false \/ sn_number x = 1 /\ present = false) /\
    (forall mjd s x, ~ PfSpec.pf_counts o x -> EitpfCollector.pf_handleSection mjd o s x = Ok s).
Proof. exact collect_eitpfs_options. Qed.
Print Assumptions C65_collect_eitpfs.

(** filter-program: ids count modulo 65536, times are Unix times, margins are 0
    unless given. *)
Theorem C65_filter_program : forall a audio video, Z.abs (pa_clock_time a) < 2 ^ 60 -> (forall w, pa_wait_until a = Some w -> Z.abs w < 2 ^ 60) ->
  LoadComponentTags (pa_audio_tags a) = Ok (Some audio) -> LoadComponentTags (pa_video_tags a) = Ok (Some video) ->
  exists o, load_program_filter a = Ok (Some o) /\
    ProgramFilter.pfo_sid o = pa_sid a mod 65536 /\ ProgramFilter.pfo_eid o = pa_eid a mod 65536 /\
    ProgramFilter.pfo_clock_pid o = pa_clock_pid a mod 65536 /\ ProgramFilter.pfo_clock_pcr o = pa_clock_pcr a /\
    ProgramFilter.pfo_clock_time o = 40587 * 86400000 + 9 * 3600000 + pa_clock_time a /\
    ProgramFilter.pfo_audio_tags o = audio /\ ProgramFilter.pfo_video_tags o = video /\
    (forall v, pa_start_margin a = Some v -> ProgramFilter.pfo_start_margin o = v) /\ (pa_start_margin a = None -> ProgramFilter.pfo_start_margin o = 0) /\
    (forall v, pa_end_margin a = Some v -> ProgramFilter.pfo_end_margin o = v) /\ (pa_end_margin a = None -> ProgramFilter.pfo_end_margin o = 0) /\
    ProgramFilter.pfo_wait_until o = option_map (fun w => 40587 * 86400000 + 9 * 3600000 + w) (pa_wait_until a) /\
    ProgramFilter.pfo_pre_streaming o = pa_pre_streaming a.
Proof. exact filter_program_options. Qed.
Print Assumptions C65_filter_program.

(** --sids 1024, "1024" being 49 48 50 52. *)
Example C65_case : ids_given (Some [[49; 48; 50; 52]]) [1024] /\
  exists o, load_eit_collector (Some [[49; 48; 50; 52]]) None None false true false = Ok o /\
    eo_actual o = true /\ eo_others o = false /\ eo_sids o = [1024] /\ eo_xsids o = [].
Proof.
  split.
  - split; [|repeat constructor; lia]. constructor; [|constructor].
    apply (numeral_more [49; 48; 50] 102 4); [|lia]. apply (numeral_more [49; 48] 10 2); [|lia]. apply (numeral_more [49] 1 0); [|lia].
    apply (numeral_one 1). lia.
  - eexists. split; [vm_compute; reflexivity|]. repeat split.
Qed.
Example C65_case_program : exists o, load_program_filter (mkProgramArgs 65637 5 256 0 1600000000000 None (Some [[48]]) (Some 2000) None None true) = Ok (Some o) /\
  ProgramFilter.pfo_sid o = 101 /\ ProgramFilter.pfo_start_margin o = 2000 /\ ProgramFilter.pfo_video_tags o = [0].
Proof. eexists. split; [vm_compute; reflexivity|]. repeat split. Qed.
