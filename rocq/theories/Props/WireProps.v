(** C106: filter-service on the bytes of a transport stream. *)
From Coq Require Import ZArith Lia List Bool.
From Verif Require Import Base.Outcome Base.Util Model.Sink Model.Ts Model.FileSource Model.Commands Model.Main
  Spec.SourceSpec Spec.StdoutSpec Spec.FilterSpec Spec.TwiceSpec Spec.PipeSpec Spec.MainSpec Spec.PipelineSpec Spec.BehindSpec Spec.WireSpec
  Proofs.SourceProofs Proofs.PipelineMain Proofs.BehindProofs Proofs.WireProofs Proofs.WirePmt.
Import ListNotations.
Open Scope Z_scope.

(** What is asked of a library in C61 - C105 holds of one that is defined. *)
Theorem C106_library : faithful (li_packet wire) (li_bytes wire) /\ true_pats (li_bytes wire) /\ keeps_apart wire /\ plain_bytes (li_bytes wire) /\ logo_bytes wire.
Proof. exact (conj wire_faithful (conj wire_pats (conj wire_apart (conj wire_plain wire_logos)))). Qed.
Print Assumptions C106_library.

(** A PAT that is written into a packet is read from it. *)
Theorem C106_pat : forall t, fits t -> ts_packet (pat_packet t) /\ pid_bytes (pat_packet t) = 0 /\ bodies (pat_packet t) = [TPat (Some t)].
Proof. exact (fun t H => conj (proj1 (pat_ts t)) (conj (proj2 (proj2 (pat_ts t))) (pat_back t H))). Qed.
Print Assumptions C106_pat.

(** A PMT too, on any PID. *)
Theorem C106_pmt : forall pid t, 0 <= pid < 8192 -> pmt_fits t ->
  ts_packet (pmt_packet pid t) /\ pid_bytes (pmt_packet pid t) = pid /\ bodies (pmt_packet pid t) = [TPmt (Some t)].
Proof. exact pmt_back. Qed.
Print Assumptions C106_pmt.

(** filter-service --sid=S: each packet of the output is one of the input, byte for
    byte, or a packet on PID 0 with an intact PAT of one section, which has the
    service S alone (and the NIT), with the PMT PID, the transport stream id and the
    version of the latest PAT in the input. *)
Theorem C106_filter_service : forall sid sys bs n e, has_input sys bs n -> Forall is_byte (input_bytes sys) -> Forall no_error (sy_writes sys) ->
  main wire sys (FilterService sid) n = Some (Ok e) -> well_placed (sid mod 2 ^ 16) (views (li_packet wire) [] bs) ->
  exists out, en_stdout e = concat out /\ packets_of (en_stdout e) out /\ served (sid mod 2 ^ 16) [] bs out.
Proof. exact wire_filter_service. Qed.
Print Assumptions C106_filter_service.

(** Another process that reads this output byte by byte sees what a command that
    has the filter within itself would see, so C94 holds without a word about the
    demultiplexers: filter-service, filter-program and record-service behind it. *)
Theorem C106_pipe : forall sid sys1 bs n1 e1, has_input sys1 bs n1 -> Forall is_byte (input_bytes sys1) -> Forall no_error (sy_writes sys1) ->
  main wire sys1 (FilterService sid) n1 = Some (Ok e1) ->
  well_placed (sid mod 2 ^ 16) (views (li_packet wire) [] bs) -> pat_first (sid mod 2 ^ 16) (views (li_packet wire) [] bs) ->
  (forall sys2 n2, reads_from sys2 (en_stdout e1) n2 -> Forall no_error (sy_writes sys2) ->
    main wire sys2 (FilterService sid) n2 = Some (Ok (mkEnded 0 (en_stdout e1) []))) /\
  (forall a sys n sys2 n2, pa_sid a = sid -> has_input sys bs n -> Forall no_error (sy_writes sys) ->
    reads_from sys2 (en_stdout e1) n2 -> Forall no_error (sy_writes sys2) ->
    match main wire sys (FilterProgram a) n, main wire sys2 (FilterProgram a) n2 with
    | Some (Ok e), Some (Ok e') => en_stdout e = en_stdout e' /\ pipe_code (en_code e1) (en_code e') (en_code e)
    | Some (Fail f), Some (Fail g) => f = g
    | _, _ => False
    end) /\
  (forall file cs nc start sys n sys2 n2, has_input sys bs n -> reads_from sys2 (en_stdout e1) n2 ->
    sy_local sys2 = sy_local sys -> sy_file_fd sys2 = sy_file_fd sys -> sy_ops sys2 = sy_ops sys -> sy_flushes sys2 = sy_flushes sys ->
    match main wire sys (RecordService sid file cs nc start) n, main wire sys2 (RecordService sid file cs nc start) n2 with
    | Some (Ok e), Some (Ok e') => en_trace e = en_trace e' /\ en_stdout e = en_stdout e' /\ pipe_code (en_code e1) (en_code e') (en_code e)
    | Some (Fail f), Some (Fail g) => f = g
    | _, _ => False
    end).
Proof.
  exact (fun sid sys1 bs n1 e1 I B W M P F =>
    let pip := wire_pipes sid sys1 bs n1 I B P F in
    conj (pipe_filter_service wire wire_view wire_plain sid sys1 bs n1 e1 I W M pip)
      (conj (pipe_filter_program wire wire_view wire_plain sid sys1 bs n1 e1 I W M pip)
        (pipe_record_service wire wire_view wire_plain sid sys1 bs n1 e1 I W M pip))).
Qed.
Print Assumptions C106_pipe.

(** ** Cases *)
(** A PAT as it is found in files: transport stream 1, service 1, PMT PID 0x1000. *)
Definition found : list Z :=
  fit [0x47; 0x40; 0x00; 0x10; 0x00; 0x00; 0xB0; 0x0D; 0x00; 0x01; 0xC1; 0x00; 0x00; 0x00; 0x01; 0xF0; 0x00; 0x2A; 0xB1; 0x04; 0xB2].
Example C106_case_found : bodies found = [TPat (Some (mkPat 1 0 [(1, 0x1000)]))].
Proof. vm_compute. reflexivity. Qed.
(** One bit is wrong. *)
Example C106_case_damaged : bodies (firstn 14 found ++ [3] ++ skipn 15 found) = [].
Proof. vm_compute. reflexivity. Qed.

(** A PMT with scrambling, pictures, sound with a tag, and data. *)
Definition scrambled : pmt :=
  mkPmt 0x0408 31 0x1FFF [0x1901] [(0x111, mkStream true false 0x02 false None); (0x112, mkStream false true 0x0F false (Some 0x10)); (0x1FF0, mkStream false false 0x0D false (Some 0xFF))].
Example C106_case_pmt_fits : pmt_fits scrambled.
Proof.
  unfold pmt_fits, scrambled. cbn [pmt_sid pmt_version pmt_pcr_pid pmt_ca_pids pmt_entries].
  split; [lia|split; [lia|split; [lia|split; [|split; [|unfold zlen; cbn [List.length]; lia]]]]].
  - apply Forall_cons; [lia|apply Forall_nil].
  - repeat (apply Forall_cons; [unfold plain_stream; cbn [fst snd es_video es_audio es_type es_subtitles es_tag];
      split; [lia|split; [lia|split; [reflexivity|split; [first [exact Logic.I|lia]|split; reflexivity]]]]|]). apply Forall_nil.
Qed.
Example C106_case_pmt : firstn 23 (pmt_packet 0x1FC8 scrambled) =
  [0x47; 0x5F; 0xC8; 0x10; 0x00; 0x02; 0xB0; 0x28; 0x04; 0x08; 0xFF; 0x00; 0x00; 0xFF; 0xFF; 0xF0; 0x06; 0x09; 0x04; 0x00; 0x05; 0xF9; 0x01] /\
  bodies (pmt_packet 0x1FC8 scrambled) = [TPmt (Some scrambled)].
Proof. vm_compute. split; reflexivity. Qed.

(** A PCR of 27,000,000 (a second) on PID 0x101, and packets with pictures and
    sound. *)
Definition pcr_packet : list Z := fit [0x47; 0x01; 0x01; 0x20; 183; 0x10; 0x00; 0x00; 0xAF; 0xC8; 0x7E; 0x00].
Definition data_packet (pid x : Z) : list Z := fit [0x47; pid / 256; pid mod 256; 0x10; x].
Example C106_case_pcr : pcr_bytes pcr_packet = Some 27000000.
Proof. vm_compute. reflexivity. Qed.

(** Two services; the PAT comes again with a new version and another PMT PID for
    service 1. *)
Definition broadcast : list (list Z) :=
  [data_packet 0x102 1;
   pat_packet (mkPat 7 3 [(0, 0x10); (1, 0x100); (2, 0x200)]);
   pmt_packet 0x200 (mkPmt 2 1 0x201 [] [(0x202, mkStream true false 0x02 false None)]);
   pmt_packet 0x100 (mkPmt 1 1 0x101 [0x301] [(0x102, mkStream true false 0x02 false (Some 0)); (0x103, mkStream false true 0x0F false (Some 16))]);
   pcr_packet; data_packet 0x102 2; data_packet 0x202 3; data_packet 0x103 4; data_packet 0x301 5;
   pat_packet (mkPat 7 4 [(0, 0x10); (2, 0x200); (1, 0x110)]); data_packet 0x100 6; data_packet 0x102 7; data_packet 0x11 8].
Definition broadcast_sys : system := mkSystem [] 0 (map ReadData broadcast) [] [] (fun _ => 0) 4 [].
Definition service_one : list (list Z) :=
  [pat_packet (mkPat 7 3 [(0, 0x10); (1, 0x100)]);
   nth 3 broadcast []; pcr_packet; data_packet 0x102 2; data_packet 0x103 4; data_packet 0x301 5;
   pat_packet (mkPat 7 4 [(0, 0x10); (1, 0x110)]); data_packet 0x102 7; data_packet 0x11 8].
Example C106_case_service : main wire broadcast_sys (FilterService 1) 4000 = Some (Ok (mkEnded 0 (concat service_one) [])).
Proof. vm_compute. reflexivity. Qed.

(** Nothing but PATs on PID 0, with proper PMT PIDs for service 1, and nothing on
    PIDs 1 and 0x14. *)
Definition proper (b : list Z) : bool :=
  negb (zmem (pid_bytes b) [1; 0x14]) &&
  (negb (pid_bytes b =? 0) ||
   forallb (fun x => match x with
                     | TPat (Some t) => match pmt_pid_of 1 t with Some q => negb (zmem q [0; 1; 0x14; 0x1FFF]) | None => true end
                     | _ => false
                     end) (bodies b)).
Lemma proper_views : forall bs h p, In p (views wire_view h bs) -> exists h' b, In b bs /\ p = wire_view h' b.
Proof.
  induction bs as [|b bs IH]; intros h p I; [destruct I|]. cbn [views] in I. destruct I as [<-|I]; [exists h, b; split; [left|]; reflexivity|].
  destruct (IH _ _ I) as (h' & c & Ic & E). exists h', c. split; [right; exact Ic|exact E].
Qed.
Lemma proper_ok : forall bs, forallb proper bs = true -> well_placed 1 (views wire_view [] bs) /\ pat_first 1 (views wire_view [] bs).
Proof.
  intros bs H. rewrite forallb_forall in H. split.
  - intros p t I It P. destruct (proper_views _ _ _ I) as (h & b & Ib & ->). cbn [wire_view p_tabs p_pid] in *.
    specialize (H b Ib). unfold proper in H. rewrite P in H. change (0 =? 0) with true in H. cbn [negb orb] in H. apply andb_true_iff in H as [_ H].
    rewrite forallb_forall in H. apply in_map_iff in It as (x & <- & Ix). cbn [tb_body]. specialize (H x Ix).
    split; [destruct x as [[?|]| | | | | | |]; try discriminate H; exact Logic.I|]. intros u q L. destruct (TwiceProofs.listing_inv (ServiceFilter.mkSfOption 1 None) _ _ _ L) as (E & _ & Q).
    injection E as ->. cbn [ServiceFilter.sfo_sid] in Q. rewrite Q in H. apply negb_true_iff in H. apply zmem_false. exact H.
  - intros pre p post t E P It _. exfalso. assert (I : In p (views wire_view [] bs)) by (rewrite E; apply in_elt).
    destruct (proper_views _ _ _ I) as (h & b & Ib & ->). cbn [wire_view p_pid] in P. specialize (H b Ib). unfold proper in H.
    apply andb_true_iff in H as [H _]. apply negb_true_iff in H. apply zmem_false in H. apply H. cbn. destruct P as [-> | ->]; auto.
Qed.

Example C106_case_conditions :
  has_input broadcast_sys broadcast 4000 /\ Forall is_byte (input_bytes broadcast_sys) /\ Forall no_error (sy_writes broadcast_sys) /\
  well_placed 1 (views (li_packet wire) [] broadcast) /\ pat_first 1 (views (li_packet wire) [] broadcast).
Proof.
  assert (B : Forall is_byte (input_bytes broadcast_sys)).
  { apply Forall_forall. intros x I. assert (X : forallb (fun x => (0 <=? x) && (x <? 256)) (input_bytes broadcast_sys) = true) by (vm_compute; reflexivity).
    rewrite forallb_forall in X. specialize (X x I). unfold is_byte. lia. }
  split; [|split; [exact B|split; [constructor|apply proper_ok; vm_compute; reflexivity]]].
  split; [|split].
  - apply Forall_forall. intros r I. apply in_map_iff in I as (b & <- & I).
    assert (X : forallb (fun b => zlen b <=? 16384) broadcast = true) by (vm_compute; reflexivity). rewrite forallb_forall in X. specialize (X b I). cbn [read_ok]. lia.
  - replace (input_bytes broadcast_sys) with (concat broadcast ++ []) by (vm_compute; reflexivity). apply aligned; [|vm_compute; reflexivity].
    apply Forall_forall. intros b I. assert (X : forallb (fun b => (zlen b =? 188) && (at_ b 0 =? 0x47)) broadcast = true) by (vm_compute; reflexivity).
    rewrite forallb_forall in X. specialize (X b I). apply andb_true_iff in X as [X Y]. split; [lia|].
    destruct b as [|x b]; [discriminate X|]. unfold sync_at. change (at_ (x :: b) 0) with x in Y. change (znth 0 (x :: b)) with (Some x). f_equal. lia.
  - apply Nat.ltb_lt. vm_compute. reflexivity.
Qed.

(** filter-service behind itself, and filter-program with and without
    filter-service before it. *)
Definition through_pipe (out : list Z) : system := mkSystem [] 0 [ReadData (firstn 1000 out); ReadData (skipn 1000 out)] [] [] (fun _ => 0) 4 [].
Example C106_case_pipe : main wire (through_pipe (concat service_one)) (FilterService 1) 4000 = Some (Ok (mkEnded 0 (concat service_one) [])).
Proof. vm_compute. reflexivity. Qed.
