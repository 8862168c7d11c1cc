(** Reading and writing packets. *)
From Coq Require Import ZArith Lia List Bool.
From Verif Require Import Base.Outcome Base.Util Model.Sink Model.Ts Model.FileSource Model.Main
  Spec.SourceSpec Spec.StdoutSpec Spec.FilterSpec Spec.TwiceSpec Spec.PipeSpec Spec.OthersSpec Spec.MainSpec Spec.PipelineSpec Spec.BehindSpec Spec.WireSpec
  Proofs.SourceProofs Proofs.FilterProofs Proofs.FilterMain Proofs.PipeProofs Proofs.PipelineMain Proofs.BehindProofs.
Import ListNotations.
Open Scope Z_scope.

(** ** Bytes *)
Lemma low_byte : forall v, is_byte (low v).
Proof. intros v. unfold is_byte, low. apply Z.mod_pos_bound. lia. Qed.
Lemma fit_length : forall l, List.length (fit l) = 188%nat.
Proof. intros l. unfold fit. rewrite firstn_length, app_length, repeat_length. lia. Qed.
Lemma Forall_firstn : forall A (P : A -> Prop) n l, Forall P l -> Forall P (firstn n l).
Proof. induction n as [|n IH]; intros [|x l] F; cbn; auto. inversion F; subst. auto. Qed.
Lemma Forall_skipn : forall A (P : A -> Prop) n l, Forall P l -> Forall P (skipn n l).
Proof. induction n as [|n IH]; intros [|x l] F; cbn; auto. inversion F; subst. auto. Qed.
Lemma fit_bytes : forall l, Forall is_byte l -> Forall is_byte (fit l).
Proof.
  intros l F. unfold fit. apply Forall_firstn. apply Forall_app. split; [exact F|]. apply Forall_forall. intros x I. apply repeat_spec in I. subst. unfold is_byte. lia.
Qed.
Lemma be32_bytes : forall c, Forall is_byte (be32 c).
Proof. intros c. unfold be32. repeat constructor; unfold is_byte; apply Z.mod_pos_bound; lia. Qed.
Lemma packet_bytes : forall pid s, Forall is_byte s -> Forall is_byte (packet_with pid s).
Proof.
  intros pid s F. unfold packet_with. apply fit_bytes. apply Forall_app. split; [|apply Forall_app; split; [exact F|apply be32_bytes]].
  pose proof (Z.mod_pos_bound (pid / 256) 32). repeat constructor; try apply low_byte; unfold is_byte; lia.
Qed.
Lemma section_bytes : forall tid ext version l, Forall is_byte l -> Forall is_byte (section_with tid ext version l).
Proof.
  intros tid ext version l F. unfold section_with, two. cbn [app].
  pose proof (Z.mod_pos_bound ((9 + zlen l) / 256) 16). pose proof (Z.mod_pos_bound version 32).
  repeat (apply Forall_cons; [try apply low_byte; unfold is_byte; lia|]). exact F.
Qed.
Lemma Forall_flat : forall A (f : A -> list Z), (forall x, Forall is_byte (f x)) -> forall l, Forall is_byte (flat_map f l).
Proof. intros A f H. induction l as [|x l IH]; cbn; [constructor|]. apply Forall_app. auto. Qed.
Lemma pair_are_bytes : forall e, Forall is_byte (pair_bytes e).
Proof.
  intros e. pose proof (Z.mod_pos_bound (snd e / 256) 32). unfold pair_bytes, two. cbn [app].
  repeat (apply Forall_cons; [try apply low_byte; unfold is_byte; lia|]). constructor.
Qed.
Lemma pat_bytes : forall t, Forall is_byte (pat_packet t).
Proof. intros t. apply packet_bytes, section_bytes, Forall_flat, pair_are_bytes. Qed.
Lemma pat_ts : forall t, ts_packet (pat_packet t) /\ sync_at (pat_packet t) 0 /\ pid_bytes (pat_packet t) = 0.
Proof.
  intros t. split; [split; [unfold zlen, pat_packet, packet_with; rewrite fit_length; reflexivity|apply pat_bytes]|].
  unfold pat_packet, packet_with, fit. cbn [app firstn]. split; reflexivity.
Qed.

Lemma digits_number : forall b, Forall is_byte b -> digits_onto (List.length b) (number_of b) [] = b.
Proof.
  intros b F. rewrite <- (app_nil_r b) at 3. generalize (@nil Z) as rest. revert F.
  induction b as [|x b IH] using rev_ind; intros F rest; [reflexivity|]. apply Forall_app in F as [F1 F2]. inversion F2 as [|? ? Bx _]; subst.
  rewrite app_length, Nat.add_comm. cbn [List.length Nat.add digits_onto]. unfold number_of. rewrite fold_left_app. cbn [fold_left]. fold (number_of b).
  unfold is_byte in Bx. rewrite Z.shiftl_mul_pow2, Z.shiftr_div_pow2 by lia. change (2 ^ 8) with 256. change 255 with (Z.ones 8).
  rewrite Z.land_ones by lia. change (2 ^ 8) with 256. rewrite Z.div_add_l, Z.div_small, Z.add_0_r by lia.
  rewrite Z.add_comm, Z.mod_add, Z.mod_small by lia. rewrite IH by auto. rewrite <- app_assoc. reflexivity.
Qed.
Lemma digits_size : forall n v rest, List.length (digits_onto n v rest) = (n + List.length rest)%nat.
Proof. induction n as [|n IH]; intros v rest; cbn [digits_onto]; [reflexivity|]. rewrite IH. cbn [List.length]. lia. Qed.

(** ** The library *)
Lemma wire_size : forall p, zlen (wire_bytes p) = 188.
Proof.
  intros p. unfold wire_bytes, zlen. destruct (p_content p); [rewrite digits_size; reflexivity| |];
    unfold pat_packet, pmt_packet, packet_with; rewrite fit_length; reflexivity.
Qed.
Lemma wire_own : forall h b, ts_packet b -> wire_bytes (wire_view h b) = b.
Proof.
  intros h b [L F]. assert (R : digits_onto 188 (number_of b) [] = b).
  { rewrite <- (digits_number b F) at 2. f_equal. unfold zlen in L. lia. }
  unfold wire_bytes, wire_view, content_of. cbn [p_content].
  destruct (bodies b) as [|[[t|]| | | | | | |] [|? ?]]; try exact R. destruct (list_eq_dec _ _ _); [assumption|exact R].
Qed.
Lemma wire_faithful : faithful wire_view wire_bytes.
Proof. split; [exact wire_own|]. split; [reflexivity|exact wire_size]. Qed.
Lemma wire_pats : true_pats wire_bytes.
Proof. intros p t. cbn [wire_bytes gen_pat p_content]. destruct (pat_ts t) as ((_ & A) & B & C). auto. Qed.
Lemma wire_apart : keeps_apart wire.
Proof.
  split; [intros h h' b _; reflexivity|]. split; [intros h h' b _; reflexivity|]. split; [intros h h' b _; reflexivity|].
  split; intros h b _; cbn [wire li_deliveries li_sections]; unfold wire_deliveries, event_sections; intros N.
  - intros N'. destruct (Z.eqb_spec (pid_bytes b) 0x12); [contradiction|]. destruct (Z.eqb_spec (pid_bytes b) 0x14); [contradiction|]. reflexivity.
  - destruct (Z.eqb_spec (pid_bytes b) 0x12); [contradiction|]. reflexivity.
Qed.
Lemma wire_plain : plain_bytes wire_bytes.
Proof. intros p. split; [apply wire_size|reflexivity]. Qed.

Lemma wire_logos : logo_bytes wire.
Proof. split; [intros h b l []|intros h l []]. Qed.

(** ** A PAT that is written and read *)
Lemma pairs_back : forall l, Forall (fun e => 0 <= fst e < 65536 /\ 0 <= snd e < 8192) l -> pairs (flat_map pair_bytes l) = l.
Proof.
  induction 1 as [|[a b] l [Ha Hb] F IH]; [reflexivity|]. cbn [flat_map pair_bytes two app pairs fst snd] in *. rewrite IH. f_equal. unfold low. f_equal.
  - rewrite (Z.mod_small (a / 256)) by (split; [apply Z.div_pos; lia|apply Z.div_lt_upper_bound; lia]). pose proof (Z.div_mod a 256). lia.
  - assert (X : 0 <= b / 256 < 32) by (split; [apply Z.div_pos; lia|apply Z.div_lt_upper_bound; lia]).
    rewrite (Z.mod_small (b / 256)) by exact X. replace (0xE0 + b / 256) with (b / 256 + 7 * 32) by lia. rewrite Z.mod_add, (Z.mod_small (b / 256)) by lia.
    pose proof (Z.div_mod b 256). lia.
Qed.
Lemma pairs_size : forall l, List.length (flat_map pair_bytes l) = (4 * List.length l)%nat.
Proof. induction l as [|e l IH]; [reflexivity|]. cbn [flat_map]. rewrite app_length, IH. cbn. lia. Qed.

Lemma stuffed : forall k fuel, split_sections fuel (repeat 0xFF k) = [].
Proof. intros [|k] [|fuel]; reflexivity. Qed.

Lemma fit_short : forall l, (List.length l <= 188)%nat -> fit l = l ++ repeat 0xFF (188 - List.length l).
Proof.
  intros l L. unfold fit. rewrite firstn_app, firstn_all2 by exact L. f_equal.
  assert (X : forall a b, (a <= b)%nat -> firstn a (repeat 0xFF b) = repeat 0xFF a).
  { induction a as [|a IH]; intros [|b] Hb; try lia; try reflexivity. cbn [repeat firstn]. f_equal. apply IH. lia. }
  apply X. lia.
Qed.
(** The bytes of the packet, written out. *)
Lemma pat_layout : forall t, fits t -> exists k,
  let l := flat_map pair_bytes (pat_entries t) in
  let s := [0; 0xB0; 9 + zlen l] ++ two (pat_tsid t) ++ [193 + 2 * pat_version t; 0; 0] ++ l in
  zlen l <= 168 /\ pat_packet t = [0x47; 64; 0; 0x10; 0] ++ (s ++ be32 (crc32 s)) ++ repeat 0xFF k.
Proof.
  intros t (T & V & L & F). pose proof (pairs_size (pat_entries t)) as Sz. set (l := flat_map pair_bytes (pat_entries t)) in *.
  assert (Zl : 0 <= zlen l <= 168) by (unfold zlen; lia).
  exists (183 - (8 + List.length l + 4))%nat. cbv zeta. split; [lia|]. unfold pat_packet, packet_with. fold l.
  assert (E : section_with 0 (pat_tsid t) (pat_version t) l = [0; 0xB0; 9 + zlen l] ++ two (pat_tsid t) ++ [193 + 2 * pat_version t; 0; 0] ++ l).
  { unfold section_with. cbv zeta. rewrite (Z.div_small (9 + zlen l)) by lia. unfold low at 2. rewrite (Z.mod_small (9 + zlen l)) by lia.
    rewrite (Z.mod_small (pat_version t)) by lia. reflexivity. }
  rewrite E. set (s := [0; 0xB0; 9 + zlen l] ++ two (pat_tsid t) ++ [193 + 2 * pat_version t; 0; 0] ++ l).
  assert (Ls : List.length (s ++ be32 (crc32 s)) = (8 + List.length l + 4)%nat) by (unfold s; rewrite app_length; unfold two; cbn [app List.length be32]; lia).
  change (64 + 0 / 256 mod 32) with 64. change (low 0) with 0.
  rewrite fit_short by (rewrite app_length, Ls; cbn [List.length]; lia). rewrite <- app_assoc. do 3 f_equal. rewrite app_length, Ls. cbn [List.length]. lia.
Qed.

Lemma split_one : forall fuel w k r, w ++ repeat 0xFF k = 0 :: r -> size_of (w ++ repeat 0xFF k) = List.length w -> split_sections (S fuel) (w ++ repeat 0xFF k) = [w].
Proof.
  intros fuel w k r Hd Sz.
  assert (X : split_sections (S fuel) (w ++ repeat 0xFF k) = firstn (List.length w) (w ++ repeat 0xFF k) :: split_sections fuel (skipn (List.length w) (w ++ repeat 0xFF k))).
  { rewrite <- Sz. assert (Lt : Nat.ltb (List.length (w ++ repeat 0xFF k)) (size_of (w ++ repeat 0xFF k)) = false) by (rewrite Sz; apply Nat.ltb_ge; rewrite app_length; lia).
    rewrite Hd in *. cbn [split_sections]. change (0 =? 0xFF) with false. cbv iota. rewrite Lt. reflexivity. }
  rewrite X, firstn_app, firstn_all, Nat.sub_diag. cbn [firstn]. rewrite app_nil_r, skipn_app, skipn_all, Nat.sub_diag. cbn [skipn app]. rewrite stuffed. reflexivity.
Qed.

Lemma pat_sections : forall t, fits t ->
  let l := flat_map pair_bytes (pat_entries t) in
  let s := [0; 0xB0; 9 + zlen l] ++ two (pat_tsid t) ++ [193 + 2 * pat_version t; 0; 0] ++ l in
  sections (pat_packet t) = [s ++ be32 (crc32 s)].
Proof.
  intros t Ft. destruct (pat_layout t Ft) as (k & Zl & E). cbv zeta in *. set (l := flat_map pair_bytes (pat_entries t)) in *.
  set (s := [0; 0xB0; 9 + zlen l] ++ two (pat_tsid t) ++ [193 + 2 * pat_version t; 0; 0] ++ l) in *.
  assert (Ls : List.length s = (8 + List.length l)%nat) by reflexivity.
  assert (Lw : List.length (s ++ be32 (crc32 s)) = (12 + List.length l)%nat) by (rewrite app_length, Ls; cbn [List.length be32]; lia).
  assert (I : intact (s ++ be32 (crc32 s)) = true).
  { unfold intact. rewrite Lw. replace (Nat.leb 12 (12 + List.length l)) with true by (symmetry; apply Nat.leb_le; lia). cbn [andb].
    replace (12 + List.length l - 4)%nat with (List.length s) by lia. rewrite firstn_app, firstn_all, Nat.sub_diag. cbn [firstn]. rewrite app_nil_r.
    rewrite skipn_app, skipn_all, Nat.sub_diag. cbn [skipn app]. destruct (list_eq_dec _ _ _); [reflexivity|contradiction]. }
  rewrite E. unfold sections, payload. change (starts_unit ([0x47; 64; 0; 0x10; 0] ++ (s ++ be32 (crc32 s)) ++ repeat 0xFF k)) with true.
  change (Z.testbit (at_ ([0x47; 64; 0; 0x10; 0] ++ (s ++ be32 (crc32 s)) ++ repeat 0xFF k) 3) 4) with true.
  change (adapted ([0x47; 64; 0; 0x10; 0] ++ (s ++ be32 (crc32 s)) ++ repeat 0xFF k)) with false. cbv iota. cbn [app skipn].
  change (Z.to_nat 0) with 0%nat. cbn [skipn].
  assert (Sz : size_of ((s ++ be32 (crc32 s)) ++ repeat 0xFF k) = List.length (s ++ be32 (crc32 s))).
  { rewrite Lw. unfold size_of. change (word ((s ++ be32 (crc32 s)) ++ repeat 0xFF k) 1) with (0xB0 * 256 + (9 + zlen l)).
    change (0xB0 * 256) with (11 * 4096). rewrite Z.add_comm, Z.mod_add by lia. pose proof (zlen_nonneg _ l). rewrite Z.mod_small by lia. unfold zlen. lia. }
  assert (Hd : exists r, (s ++ be32 (crc32 s)) ++ repeat 0xFF k = 0 :: r) by (eexists; reflexivity).
  destruct Hd as (r & Hd). rewrite (split_one 60 _ _ r Hd Sz). cbn [filter]. rewrite I. reflexivity.
Qed.

Lemma pat_back : forall t, fits t -> bodies (pat_packet t) = [TPat (Some t)].
Proof.
  intros t Ft. unfold bodies. rewrite (pat_sections t Ft). destruct Ft as (T & V & L & F).
  pose proof (pairs_back _ F) as Pb. cbv zeta. set (l := flat_map pair_bytes (pat_entries t)) in *.
  cbn [flat_map]. unfold read_table, read_eit. cbn [filter]. unfold two. cbn [app at_ nth].
  change (0 =? 0x00) with true. change (0 =? 0x4E) with false. cbv iota.
  match goal with |- context [read_pat ?w] => set (s := w) end.
  assert (Si : single s = true).
  { unfold single, s. cbn [at_ nth]. replace (193 + 2 * pat_version t) with (1 + 2 * (96 + pat_version t)) by lia. rewrite Z.odd_add_mul_2. reflexivity. }
  rewrite Si. cbn [app]. do 3 f_equal. unfold read_pat.
  assert (E1 : word s 3 = pat_tsid t).
  { unfold s, word. cbn [at_ nth]. unfold low. rewrite (Z.mod_small (pat_tsid t / 256)) by (split; [apply Z.div_pos; lia|apply Z.div_lt_upper_bound; lia]).
    pose proof (Z.div_mod (pat_tsid t) 256). lia. }
  assert (E2 : section_version s = pat_version t).
  { unfold section_version, s. cbn [at_ nth]. replace (193 + 2 * pat_version t) with ((96 + pat_version t) * 2 + 1) by lia.
    rewrite Z.div_add_l by lia. change (1 / 2) with 0. change 96 with (3 * 32). replace (3 * 32 + pat_version t + 0) with (pat_version t + 3 * 32) by lia.
    rewrite Z.mod_add, Z.mod_small by lia. reflexivity. }
  assert (E3 : inside 8 s = l).
  { unfold inside, s. cbn [List.length skipn]. rewrite app_length. cbn [List.length be32].
    replace (S (S (S (S (S (S (S (S (List.length l + 4)))))))) - 4 - 8)%nat with (List.length l) by lia.
    rewrite firstn_app, firstn_all, Nat.sub_diag. cbn [firstn]. apply app_nil_r. }
  rewrite E1, E2, E3, Pb. destruct t; reflexivity.
Qed.

Lemma wire_again : forall h h' b t, fits t -> wire_view h' (wire_bytes (gen_pat (wire_view h b) t)) = again (gen_pat (wire_view h b) t).
Proof.
  intros h h' b t Ft. cbn [wire_bytes gen_pat p_content]. pose proof (pat_back t Ft) as B. destruct (pat_ts t) as (_ & _ & P).
  unfold wire_view at 1. unfold again, gen_pat. cbn [p_content p_pid p_pusi p_pcr p_pts p_dts p_tabs p_regen wire_view repeat]. rewrite P.
  destruct (pat_layout t Ft) as (k & _ & E). cbv zeta in E.
  assert (C : content_of (pat_packet t) = GenPat t) by (unfold content_of; rewrite B; destruct (list_eq_dec _ _ _); [reflexivity|contradiction]).
  rewrite C, B. cbn [map].
  assert (H : pes_header (pat_packet t) = false) .
  { unfold pes_header. replace (at_ (payload (pat_packet t)) 2) with 0xB0 by (rewrite E; reflexivity). change (0xB0 =? 1) with false. rewrite !andb_false_r. reflexivity. }
  unfold pts_bytes, dts_bytes. rewrite H. cbn [andb].
  replace (pcr_bytes (pat_packet t)) with (@None Z) by (rewrite E; reflexivity).
  replace (starts_unit (pat_packet t)) with true by (rewrite E; reflexivity). reflexivity.
Qed.
Lemma wire_same : forall h h' b, ts_packet b -> wire_view h' (wire_bytes (wire_view h b)) = again (wire_view h b).
Proof. intros h h' b T. rewrite (wire_own h b T). reflexivity. Qed.

(** ** What is read fits *)
Lemma at_byte : forall b i, Forall is_byte b -> is_byte (at_ b i).
Proof.
  intros b i F. unfold at_. destruct (Nat.lt_ge_cases i (List.length b)) as [L|L]; [|rewrite nth_overflow by exact L; unfold is_byte; lia].
  rewrite Forall_forall in F. apply F, nth_In, L.
Qed.
Lemma word_range : forall b i, Forall is_byte b -> 0 <= word b i < 65536.
Proof. intros b i F. unfold word. pose proof (at_byte b i F). pose proof (at_byte b (S i) F). unfold is_byte in *. lia. Qed.

Lemma split_bytes : forall fuel l s, Forall is_byte l -> In s (split_sections fuel l) -> Forall is_byte s /\ (List.length s <= List.length l)%nat.
Proof.
  induction fuel as [|fuel IH]; intros l s F I; [destruct I|]. cbn [split_sections] in I. destruct l as [|x l]; [destruct I|].
  destruct (x =? 0xFF); [destruct I|]. destruct (Nat.ltb _ _); [destruct I|]. destruct I as [<-|I].
  - split; [apply Forall_firstn; exact F|]. rewrite firstn_length. lia.
  - destruct (IH _ s (Forall_skipn _ _ _ _ F) I) as [A B]. split; [exact A|]. rewrite skipn_length in B. lia.
Qed.
Lemma section_in : forall b s, ts_packet b -> In s (sections b) -> Forall is_byte s /\ (List.length s <= 183)%nat.
Proof.
  intros b s [L F] I. unfold sections in I. destruct (starts_unit b); [|destruct I]. unfold payload in I. destruct (Z.testbit (at_ b 3) 4); [|destruct I].
  assert (X : exists n, (4 <= n)%nat /\ (if adapted b then (5 + Z.to_nat (at_ b 4))%nat else 4%nat) = n) by (eexists; split; [|reflexivity]; destruct (adapted b); lia).
  destruct X as (n & Hn & En). rewrite En in I. clear En. destruct (skipn n b) as [|k l] eqn:E; [destruct I|].
  assert (Fl : Forall is_byte (k :: l)) by (rewrite <- E; apply Forall_skipn; exact F). inversion Fl as [|? ? Fk Fr]; subst.
  assert (Ll : (List.length (k :: l) <= 184)%nat) by (rewrite <- E, skipn_length; unfold zlen in L; lia).
  apply filter_In in I as [I _]. destruct (split_bytes _ _ _ (Forall_skipn _ _ _ _ Fr) I) as [A B]. split; [exact A|].
  rewrite skipn_length in B. cbn [List.length] in Ll. lia.
Qed.

Lemma pairs_read : forall n l, (List.length l <= n)%nat -> Forall is_byte l ->
  (4 * List.length (pairs l) <= List.length l)%nat /\ Forall (fun e => 0 <= fst e < 65536 /\ 0 <= snd e < 8192) (pairs l).
Proof.
  induction n as [|n IH]; intros l L F.
  - destruct l as [|? ?]; [|cbn in L; lia]. split; [cbn; lia|constructor].
  - destruct l as [|a [|b [|c [|d r]]]]; try (split; [cbn; lia|constructor]). cbn [pairs List.length] in *.
    inversion F as [|? ? Fa F1]; subst. inversion F1 as [|? ? Fb F2]; subst. inversion F2 as [|? ? Fc F3]; subst. inversion F3 as [|? ? Fd F4]; subst.
    destruct (IH r ltac:(lia) F4) as [A B]. split; [lia|]. constructor; [|exact B]. cbn [fst snd]. unfold is_byte in *.
    pose proof (Z.mod_pos_bound c 32). lia.
Qed.

Lemma read_fits : forall b t, ts_packet b -> In (TPat (Some t)) (bodies b) -> fits t.
Proof.
  intros b t T I. unfold bodies in I. apply in_app_iff in I as [I|I].
  - apply in_flat_map in I as (s & Is & It). destruct (section_in b s T Is) as [F L].
    assert (S12 : (12 <= List.length s)%nat).
    { unfold sections in Is. destruct (starts_unit b); [|destruct Is]. destruct (payload b); [destruct Is|]. apply filter_In in Is as [_ Is].
      unfold intact in Is. apply andb_true_iff in Is as [Is _]. apply Nat.leb_le in Is. exact Is. }
    unfold read_table in It.
    assert (E : t = read_pat s).
    { repeat match type of It with In _ (if ?c then _ else _) => destruct c | In _ (match ?c with _ => _ end) => destruct c end;
        cbn [In] in It; try contradiction; destruct It as [It|It]; try contradiction; try discriminate It. injection It as <-. reflexivity. }
    subst t. unfold read_pat, fits. cbn [pat_tsid pat_version pat_entries]. split; [apply word_range, F|].
    split; [unfold section_version; apply Z.mod_pos_bound; lia|].
    destruct (pairs_read (List.length (inside 8 s)) (inside 8 s) ltac:(lia)) as [A B].
    { unfold inside. apply Forall_firstn, Forall_skipn, F. }
    split; [|exact B]. assert (C : (List.length (inside 8 s) <= 171)%nat) by (unfold inside; rewrite firstn_length; lia). lia.
  - unfold read_eit in I. destruct (filter _ _) as [|s r]; [destruct I|]. destruct (_ =? _); [|destruct I]. destruct I as [I|[]]. discriminate.
Qed.

Lemma only_fits : forall sid t pid, fits t -> pmt_pid_of sid t = Some pid -> fits (only_service sid t pid).
Proof.
  intros sid t pid (T & V & L & F) P. unfold pmt_pid_of in P. destruct (Z.eqb_spec sid 0) as [|N]; [discriminate|].
  apply latest_some_in in P as ([a c] & I & E). apply in_rev in I. cbn [fst snd] in E. destruct (Z.eqb_spec a sid) as [->|]; [|discriminate]. injection E as ->.
  unfold fits, only_service. cbn [pat_tsid pat_version pat_entries]. split; [exact T|]. split; [exact V|]. rewrite Forall_forall in F. split.
  - rewrite app_length. cbn [List.length]. enough (List.length (filter (fun e => (fst e =? 0)%Z) (pat_entries t)) < List.length (pat_entries t))%nat by lia.
    clear - I N. induction (pat_entries t) as [|[x y] l IH]; [destruct I|]. cbn [filter fst].
    assert (G : (List.length (filter (fun e => (fst e =? 0)%Z) l) <= List.length l)%nat).
    { clear. induction l as [|[x y] l IH]; cbn [filter fst]; [lia|]. destruct (x =? 0); cbn [List.length]; lia. }
    destruct I as [I|I].
    + injection I as -> ->. destruct (Z.eqb_spec sid 0); [contradiction|]. cbn [List.length]. lia.
    + specialize (IH I). destruct (x =? 0); cbn [List.length]; lia.
  - apply Forall_app. split; [apply Forall_forall; intros e Ie; apply filter_In in Ie as [Ie _]; auto|]. constructor; [|constructor]. apply (F _ I).
Qed.

(** ** filter-service *)
Lemma latest_skip : forall A B (f : A -> option B) a b, (forall x, In x a -> f x = None) -> latest f (a ++ b) = latest f b.
Proof. induction a as [|x a IH]; intros b H; [reflexivity|]. cbn [app latest]. rewrite (H x (or_introl eq_refl)). apply IH. intros y Iy. apply H. right. exact Iy. Qed.
Lemma latest_onto : forall A B (f : A -> option B) a b c, latest f b = latest f c -> latest f (a ++ b) = latest f (a ++ c).
Proof. induction a as [|x a IH]; intros b c H; [exact H|]. cbn [app latest]. destruct (f x); [reflexivity|]. apply IH. exact H. Qed.

Section Served.
Variable sid : Z.

Lemma heard_latest : forall h b seen h', hears_zero sid h -> latest (listing sid) h = latest (listing sid) (tables_of seen) ->
  heard sid None 0 h (wire_view seen b) h' -> latest (listing sid) h' = latest (listing sid) (tables_of (b :: seen)).
Proof.
  intros h b seen h' Hz E H. cbn [tables_of flat_map]. fold (tables_of seen). destruct H as [[_ ->]|[N ->]]; cbn [wire_view p_pid p_tabs] in *.
  - rewrite map_map. cbn [tb_body]. apply latest_onto. exact E.
  - rewrite E. symmetry. apply latest_skip. intros x I. apply in_rev in I. apply in_map_iff in I as (y & <- & _).
    destruct (listing sid (pid_bytes b, y)) as [z|] eqn:Lz; [|reflexivity]. exfalso. apply N. pose proof (listing_zero _ _ _ Lz) as P. cbn [fst] in P. rewrite P.
    apply listens_zero. exact Hz.
Qed.

Lemma latest_fits : forall seen t pid, Forall ts_packet seen -> latest (listing sid) (tables_of seen) = Some (t, pid) -> fits (only_service sid t pid).
Proof.
  intros seen t pid F E. apply latest_some_in in E as (x & I & L). destruct (TwiceProofs.listing_inv (ServiceFilter.mkSfOption sid None) x t pid L) as (-> & _ & P).
  apply in_flat_map in I as (b & Ib & I). apply in_rev in I. apply in_map_iff in I as (y & Ey & Iy). injection Ey as _ ->.
  rewrite Forall_forall in F. apply only_fits; [apply (read_fits b t (F b Ib) Iy)|exact P].
Qed.

Lemma filter_served : forall h ps mid e he d de, filtered sid None 0 anything h d ps mid e he de ->
  forall bs seen, ps = views wire_view seen bs -> Forall ts_packet bs -> Forall ts_packet seen -> hears_zero sid h ->
  latest (listing sid) h = latest (listing sid) (tables_of seen) -> well_placed sid ps ->
  served sid seen bs (map wire_bytes mid) /\ forall h', views wire_view h' (map wire_bytes mid) = map again mid.
Proof.
  intros h ps mid e he d de F.
  assert (St : forall h p h' ps b bs seen, heard sid None 0 h p h' -> p :: ps = views wire_view seen (b :: bs) -> hears_zero sid h ->
    latest (listing sid) h = latest (listing sid) (tables_of seen) -> well_placed sid (p :: ps) ->
    p = wire_view seen b /\ ps = views wire_view (b :: seen) bs /\ hears_zero sid h' /\
    latest (listing sid) h' = latest (listing sid) (tables_of (b :: seen)) /\ well_placed sid ps).
  { intros h0 p h1 ps0 b bs seen H E Hz El W. cbn [views] in E. injection E as -> ->. split; [reflexivity|]. split; [reflexivity|].
    split; [apply (zero_kept sid h0 (wire_view seen b) h1 Hz H); intros x t [<-|[]]; apply W; left; reflexivity|].
    split; [exact (heard_latest _ _ _ _ Hz El H)|]. intros x t Ix. apply W. right. exact Ix. }
  assert (Se : forall h q b seen, decide sid None h (wire_view seen b) (Send q) -> latest (listing sid) h = latest (listing sid) (tables_of (b :: seen)) ->
    ts_packet b -> Forall ts_packet seen -> forall bs out, served sid (b :: seen) bs out -> (forall h', wire_view h' (wire_bytes q) = again q) /\ served sid seen (b :: bs) (wire_bytes q :: out)).
  { intros h0 q b seen D El Tb Ts bs out S. inversion D as [| | |t pid Q1 Q2 Q3 P Lp| | |Q1 Q2 Q3 P Pn]; subst; cbn [wire_view p_pid] in P.
    - rewrite El in Lp. assert (Ft : fits (only_service sid t pid)) by (apply (latest_fits (b :: seen)); [constructor; assumption|exact Lp]).
      split; [intros h'; apply wire_again; exact Ft|].
      cbn [wire_bytes gen_pat p_content]. destruct (pat_ts (only_service sid t pid)) as (T1 & _ & T3).
      apply (Sv_pat sid seen b _ bs out t pid); auto. apply pat_back. exact Ft.
    - split; [intros h'; apply wire_same; exact Tb|]. rewrite (wire_own seen b Tb). apply Sv_keep; assumption. }
  induction F as [h d|h d p h' ps out e he de H D F IH|h d p h' q d' ps out e he de H D Hk F IH|h d p h' q d' ps H D Hk|h d p h' q f ps H D Hk|h d p h' ps H D|h d p h' f ps H D];
    intros bs seen E Tb Ts Hz El W; (destruct bs as [|b bs]; [try discriminate E|]); try (split; [apply Sv_end|reflexivity]).
  - destruct (St _ _ _ _ _ _ _ H E Hz El W) as (-> & Ep & Hz' & El' & W'). inversion Tb as [|? ? T1 T2]; subst.
    destruct (IH bs (b :: seen) eq_refl T2 (Forall_cons _ T1 Ts) Hz' El' W') as [S V]. split; [apply Sv_drop; exact S|exact V].
  - destruct (St _ _ _ _ _ _ _ H E Hz El W) as (-> & Ep & Hz' & El' & W'). inversion Tb as [|? ? T1 T2]; subst.
    destruct (IH bs (b :: seen) eq_refl T2 (Forall_cons _ T1 Ts) Hz' El' W') as [S V].
    destruct (Se _ _ _ _ D El' T1 Ts _ _ S) as [A B]. split; [exact B|]. intros h0. cbn [map views]. rewrite A, V. reflexivity.
  - discriminate Hk.
  - discriminate Hk.
Qed.
End Served.

Section Wire.
Variable sid : Z.
Notation id := (sid mod 2 ^ 16).
Variables (sys1 : system) (bs : list (list Z)) (n1 : nat) (e1 : ended).
Hypothesis input : has_input sys1 bs n1.
Hypothesis are_bytes : Forall is_byte (input_bytes sys1).
Hypothesis writes1 : Forall no_error (sy_writes sys1).
Hypothesis first : main wire sys1 (FilterService sid) n1 = Some (Ok e1).
Hypothesis placed : well_placed id (views wire_view [] bs).

Lemma wire_ts : Forall ts_packet bs.
Proof. destruct input as (_ & Pk & _). exact (packets_are _ _ Pk are_bytes). Qed.
Lemma wire_synced : Forall (fun b => zlen b = 188 /\ sync_at b 0) bs.
Proof. destruct input as (_ & Pk & _). exact (packets_synced _ _ Pk). Qed.

Lemma wire_sent : forall mid e h, filtered id None 0 anything [] tt (views wire_view [] bs) mid e h tt ->
  served id [] bs (map wire_bytes mid) /\ views wire_view [] (map wire_bytes mid) = map again mid /\
  Forall (fun b => zlen b = 188 /\ sync_at b 0) (map wire_bytes mid) /\ Forall ts_packet (map wire_bytes mid).
Proof.
  intros mid e h F. destruct (filter_served id _ _ _ _ _ _ _ F bs [] eq_refl wire_ts) as [S V]; auto; [intros x t q []|].
  destruct (sent_filter _ _ _ _ _ _ wire_faithful wire_pats wire_ts wire_synced (filtered_thinned _ _ _ _ _ _ _ _ _ _ _ F)) as (_ & S2 & S3). auto.
Qed.

Lemma wire_filter_service : exists out, en_stdout e1 = concat out /\ packets_of (en_stdout e1) out /\ served id [] bs out.
Proof.
  destruct (behind_sent wire wire_faithful sid sys1 bs n1 e1 input writes1 first) as (mid & e & h & F & _ & _ & O).
  destruct (wire_sent mid e h F) as (S & _ & Sy & _). exists (map wire_bytes mid). split; [exact O|]. split; [|exact S].
  rewrite O, <- (app_nil_r (concat _)). apply aligned; [exact Sy|rewrite zlen_nil; lia].
Qed.

Hypothesis pat1st : pat_first id (views wire_view [] bs).

Lemma wire_pipes : pipes wire wire_view sid bs.
Proof.
  unfold pipes. cbn [wire li_packet li_bytes]. split; [exact placed|]. split.
  - intros p I. assert (X : exists h b, p = wire_view h b).
    { clear - I. revert I. generalize (@nil (list Z)). induction bs as [|b r IH]; intros h I; [destruct I|]. cbn [views] in I. destruct I as [<-|I]; eauto. }
    destruct X as (h & b & ->). split; [reflexivity|]. intros _. cbn. lia.
  - split; [exact pat1st|]. intros mid e h F. destruct (wire_sent mid e h F) as (_ & V & Sy & _). split; [|exact V].
    apply Forall_forall. intros p Ip. rewrite Forall_forall in Sy. apply (Sy (wire_bytes p)). apply in_map. exact Ip.
Qed.
End Wire.
