(** A PMT that is written and read. *)
From Coq Require Import ZArith Lia List Bool.
From Verif Require Import Base.Outcome Base.Util Model.Ts Spec.FilterSpec Spec.PipeSpec Spec.WireSpec Proofs.WireProofs.
Import ListNotations.
Open Scope Z_scope.

Lemma split_any : forall fuel w k x r, x <> 0xFF -> w ++ repeat 0xFF k = x :: r -> size_of (w ++ repeat 0xFF k) = List.length w ->
  split_sections (S fuel) (w ++ repeat 0xFF k) = [w].
Proof.
  intros fuel w k x r Nx Hd Sz.
  assert (X : split_sections (S fuel) (w ++ repeat 0xFF k) = firstn (List.length w) (w ++ repeat 0xFF k) :: split_sections fuel (skipn (List.length w) (w ++ repeat 0xFF k))).
  { rewrite <- Sz. assert (Lt : Nat.ltb (List.length (w ++ repeat 0xFF k)) (size_of (w ++ repeat 0xFF k)) = false) by (rewrite Sz; apply Nat.ltb_ge; rewrite app_length; lia).
    rewrite Hd in *. cbn [split_sections]. destruct (Z.eqb_spec x 0xFF); [contradiction|]. rewrite Lt. reflexivity. }
  rewrite X, firstn_app, firstn_all, Nat.sub_diag. cbn [firstn]. rewrite app_nil_r, skipn_app, skipn_all, Nat.sub_diag. cbn [skipn app]. rewrite stuffed. reflexivity.
Qed.

Definition written (tid ext version : Z) (l : list Z) : list Z := [tid; 0xB0; 9 + zlen l] ++ two ext ++ [193 + 2 * version; 0; 0] ++ l.

Lemma section_back : forall pid tid ext version l, 0 <= pid < 8192 -> 0 <= tid < 255 -> 0 <= version < 32 -> zlen l <= 171 ->
  let s := written tid ext version l in
  sections (packet_with pid (section_with tid ext version l)) = [s ++ be32 (crc32 s)] /\ pid_bytes (packet_with pid (section_with tid ext version l)) = pid.
Proof.
  intros pid tid ext version l P T V L s. pose proof (zlen_nonneg _ l) as L0.
  assert (E : section_with tid ext version l = s).
  { unfold section_with, s, written. cbv zeta. rewrite (Z.div_small (9 + zlen l)) by lia. unfold low at 1 2. rewrite (Z.mod_small (9 + zlen l)), (Z.mod_small tid) by lia.
    rewrite (Z.mod_small version) by lia. reflexivity. }
  rewrite E. unfold packet_with.
  assert (X : 0 <= pid / 256 < 32) by (split; [apply Z.div_pos; lia|apply Z.div_lt_upper_bound; lia]). rewrite (Z.mod_small (pid / 256)) by exact X.
  assert (Ls : List.length s = (8 + List.length l)%nat) by reflexivity.
  assert (Lw : List.length (s ++ be32 (crc32 s)) = (12 + List.length l)%nat) by (rewrite app_length, Ls; cbn [List.length be32]; lia).
  rewrite fit_short by (rewrite app_length, Lw; cbn [List.length]; unfold zlen in L; lia). rewrite <- app_assoc.
  match goal with |- context [repeat 0xFF ?n] => generalize n as k end. intros k. split.
  - assert (I : intact (s ++ be32 (crc32 s)) = true).
    { unfold intact. rewrite Lw. replace (Nat.leb 12 (12 + List.length l)) with true by (symmetry; apply Nat.leb_le; lia). cbn [andb].
      replace (12 + List.length l - 4)%nat with (List.length s) by lia. rewrite firstn_app, firstn_all, Nat.sub_diag. cbn [firstn]. rewrite app_nil_r.
      rewrite skipn_app, skipn_all, Nat.sub_diag. cbn [skipn app]. destruct (list_eq_dec _ _ _); [reflexivity|contradiction]. }
    assert (U : starts_unit ([0x47; 64 + pid / 256; low pid; 0x10; 0x00] ++ (s ++ be32 (crc32 s)) ++ repeat 0xFF k) = true).
    { unfold starts_unit. cbn [app at_ nth]. apply Z.testbit_true; [lia|]. change (2 ^ 6) with 64. replace (64 + pid / 256) with (1 * 64 + pid / 256) by lia.
      rewrite Z.div_add_l, (Z.div_small (pid / 256)) by lia. reflexivity. }
    unfold sections, payload. rewrite U.
    change (Z.testbit (at_ ([0x47; 64 + pid / 256; low pid; 0x10; 0] ++ (s ++ be32 (crc32 s)) ++ repeat 0xFF k) 3) 4) with true.
    change (adapted ([0x47; 64 + pid / 256; low pid; 0x10; 0] ++ (s ++ be32 (crc32 s)) ++ repeat 0xFF k)) with false. cbv iota. cbn [app skipn].
    change (Z.to_nat 0) with 0%nat. cbn [skipn].
    assert (Sz : size_of ((s ++ be32 (crc32 s)) ++ repeat 0xFF k) = List.length (s ++ be32 (crc32 s))).
    { rewrite Lw. unfold size_of. change (word ((s ++ be32 (crc32 s)) ++ repeat 0xFF k) 1) with (0xB0 * 256 + (9 + zlen l)).
      replace (0xB0 * 256 + (9 + zlen l)) with (9 + zlen l + 11 * 4096) by lia. rewrite Z.mod_add, Z.mod_small by lia. unfold zlen. lia. }
    assert (Hd : exists r, (s ++ be32 (crc32 s)) ++ repeat 0xFF k = tid :: r) by (eexists; reflexivity).
    destruct Hd as (r & Hd). rewrite (split_any 60 _ _ tid r ltac:(lia) Hd Sz). cbn [filter]. rewrite I. reflexivity.
  - cbn [app pid_bytes]. replace (64 + pid / 256) with (pid / 256 + 2 * 32) by lia. rewrite Z.mod_add, (Z.mod_small (pid / 256)) by lia.
    unfold low. pose proof (Z.div_mod pid 256). lia.
Qed.

Lemma low13 : forall v, 0 <= v < 8192 -> ((0xE0 + v / 256 mod 32) mod 32) * 256 + low v = v /\ ((0xE0 + v / 256 mod 32) * 256 + low v) mod 8192 = v.
Proof.
  intros v H. assert (X : 0 <= v / 256 < 32) by (split; [apply Z.div_pos; lia|apply Z.div_lt_upper_bound; lia]). rewrite (Z.mod_small (v / 256)) by exact X.
  unfold low. pose proof (Z.div_mod v 256 ltac:(lia)) as D. split.
  - replace (0xE0 + v / 256) with (v / 256 + 7 * 32) by lia. rewrite Z.mod_add, (Z.mod_small (v / 256)) by lia. lia.
  - replace ((0xE0 + v / 256) * 256 + v mod 256) with (v + 7 * 8192) by lia. rewrite Z.mod_add, Z.mod_small by lia. reflexivity.
Qed.

Lemma ca_back : forall l fuel, Forall (fun pid => 0 <= pid < 8192) l -> (List.length l <= fuel)%nat ->
  flat_map (fun d => if (fst d =? 0x09) && (4 <=? zlen (snd d)) then [word (snd d) 2 mod 8192] else []) (descs fuel (flat_map ca_bytes l)) = l.
Proof.
  induction l as [|v l IH]; intros fuel F L; [destruct fuel; reflexivity|]. inversion F as [|? ? Fv Fl]; subst. destruct fuel as [|fuel]; [cbn in L; lia|].
  cbn [flat_map ca_bytes app descs]. change (Z.to_nat 4) with 4%nat. cbn [firstn skipn flat_map fst snd].
  change ((0x09 =? 0x09) && (4 <=? zlen [0; 5; 0xE0 + v / 256 mod 32; low v])) with true. cbv iota. cbn [app]. unfold word at 1. cbn [at_ nth].
  rewrite (proj2 (low13 v Fv)). f_equal. apply IH; [exact Fl|cbn in L; lia].
Qed.
Lemma ca_size : forall l, List.length (flat_map ca_bytes l) = (6 * List.length l)%nat.
Proof. induction l as [|v l IH]; [reflexivity|]. cbn [flat_map]. rewrite app_length, IH. cbn [List.length ca_bytes]. lia. Qed.

Lemma streams_back : forall l fuel, Forall plain_stream l -> (List.length l <= fuel)%nat -> streams_in fuel (flat_map stream_bytes l) = l.
Proof.
  induction l as [|[v st] l IH]; intros fuel F L; [destruct fuel; reflexivity|]. inversion F as [|? ? Fv Fl]; subst. destruct fuel as [|fuel]; [cbn in L; lia|].
  destruct st as [vi au ty su tag]. destruct Fv as (Pv & Ty & Su & Tg & Vi & Au). cbn [fst snd es_type es_subtitles es_tag es_video es_audio] in *.
  cbn [flat_map stream_bytes fst snd es_type es_tag app].
  assert (Lt : low ty = ty) by (unfold low; apply Z.mod_small; lia).
  destruct tag as [tag|].
  - assert (Lg : low tag = tag) by (unfold low; apply Z.mod_small; lia). cbn [app streams_in]. change (Z.to_nat ((0xF0 * 256 + 3) mod 4096)) with 3%nat.
    cbv zeta. cbn [firstn skipn]. rewrite (proj1 (low13 v Pv)), Lt, Lg. rewrite IH by (auto; cbn in L; lia).
    change (tag_in [0x52; 1; tag]) with (Some tag). change (descs 64 [0x52; 1; tag]) with [(0x52, [tag])]. cbn [existsb fst].
    change (0x52 =? 0x59) with false. cbn [orb]. rewrite andb_false_r, <- Vi, <- Au, Su. reflexivity.
  - cbn [app streams_in]. change (Z.to_nat ((0xF0 * 256 + 0) mod 4096)) with 0%nat.
    cbv zeta. cbn [firstn skipn]. rewrite (proj1 (low13 v Pv)), Lt. rewrite IH by (auto; cbn in L; lia).
    change (tag_in []) with (@None Z). change (descs 64 []) with (@nil (Z * list Z)). cbn [existsb].
    rewrite andb_false_r, <- Vi, <- Au, Su. reflexivity.
Qed.
Lemma streams_size : forall l, (List.length (flat_map stream_bytes l) <= 8 * List.length l)%nat.
Proof. induction l as [|[v st] l IH]; [cbn; lia|]. cbn [flat_map]. rewrite app_length. unfold stream_bytes at 1. cbn [fst snd]. destruct (es_tag st); cbn [List.length app]; lia. Qed.

Lemma pmt_are_bytes : forall pid t, Forall is_byte (pmt_packet pid t).
Proof.
  intros pid t. unfold pmt_packet. cbv zeta. apply packet_bytes, section_bytes.
  pose proof (Z.mod_pos_bound (pmt_pcr_pid t / 256) 32 ltac:(lia)). pose proof (Z.mod_pos_bound (zlen (flat_map ca_bytes (pmt_ca_pids t)) / 256) 16 ltac:(lia)).
  apply Forall_app. split; [repeat (apply Forall_cons; [try apply low_byte; unfold is_byte; lia|]); constructor|].
  apply Forall_app. split; apply Forall_flat.
  - intros v. pose proof (Z.mod_pos_bound (v / 256) 32 ltac:(lia)). unfold ca_bytes. repeat (apply Forall_cons; [try apply low_byte; unfold is_byte; lia|]). constructor.
  - intros [v st]. pose proof (Z.mod_pos_bound (v / 256) 32 ltac:(lia)). unfold stream_bytes. cbn [fst snd]. apply Forall_app. split; [repeat (apply Forall_cons; [try apply low_byte; unfold is_byte; lia|]); constructor|].
    destruct (es_tag st); repeat (apply Forall_cons; [try apply low_byte; unfold is_byte; lia|]); constructor.
Qed.

Lemma pmt_back : forall pid t, 0 <= pid < 8192 -> pmt_fits t ->
  ts_packet (pmt_packet pid t) /\ pid_bytes (pmt_packet pid t) = pid /\ bodies (pmt_packet pid t) = [TPmt (Some t)].
Proof.
  intros pid t P (Si & V & Pc & Fc & Fs & L). split; [split; [unfold zlen, pmt_packet, packet_with; rewrite fit_length; reflexivity|apply pmt_are_bytes]|].
  unfold pmt_packet. cbv zeta. pose proof (ca_size (pmt_ca_pids t)) as Sc. pose proof (streams_size (pmt_entries t)) as Ss.
  assert (Bc := ca_back (pmt_ca_pids t) 64 Fc). assert (Bs := streams_back (pmt_entries t) 64 Fs).
  specialize (Bc ltac:(unfold zlen in L; lia)). specialize (Bs ltac:(unfold zlen in L; lia)).
  set (ca := flat_map ca_bytes (pmt_ca_pids t)) in *. set (es := flat_map stream_bytes (pmt_entries t)) in *.
  assert (Lc : 0 <= zlen ca <= 167) by (unfold zlen in *; lia). rewrite (Z.div_small (zlen ca)) by lia. change (0xF0 + 0 mod 16) with 0xF0.
  assert (Ll : low (zlen ca) = zlen ca) by (unfold low; apply Z.mod_small; lia). rewrite Ll.
  set (l := [0xE0 + pmt_pcr_pid t / 256 mod 32; low (pmt_pcr_pid t); 0xF0; zlen ca] ++ ca ++ es).
  assert (Le : zlen l <= 171) by (unfold l; rewrite !zlen_app; change (zlen [0xE0 + pmt_pcr_pid t / 256 mod 32; low (pmt_pcr_pid t); 0xF0; zlen ca]) with 4; unfold zlen in *; lia).
  destruct (section_back pid 2 (pmt_sid t) (pmt_version t) l P ltac:(lia) V Le) as [S I]. cbv zeta in S. split; [exact I|].
  unfold bodies. rewrite S. set (s := written 2 (pmt_sid t) (pmt_version t) l ++ be32 (crc32 (written 2 (pmt_sid t) (pmt_version t) l))).
  cbn [flat_map]. unfold read_table, read_eit. cbn [filter]. change (at_ s 0) with 2. change (2 =? 0x00) with false. change (2 =? 0x01) with false. change (2 =? 0x02) with true.
  change (2 =? 0x4E) with false. cbv iota.
  assert (E0 : single s = true).
  { unfold single. change (at_ s 5) with (193 + 2 * pmt_version t). change (at_ s 6) with 0. change (at_ s 7) with 0.
    replace (193 + 2 * pmt_version t) with (1 + 2 * (96 + pmt_version t)) by lia. rewrite Z.odd_add_mul_2. reflexivity. }
  assert (E1 : word s 3 = pmt_sid t).
  { change (word s 3) with (low (pmt_sid t / 256) * 256 + low (pmt_sid t)). unfold low. rewrite (Z.mod_small (pmt_sid t / 256)) by (split; [apply Z.div_pos; lia|apply Z.div_lt_upper_bound; lia]).
    pose proof (Z.div_mod (pmt_sid t) 256). lia. }
  assert (E2 : section_version s = pmt_version t).
  { unfold section_version. change (at_ s 5) with (193 + 2 * pmt_version t). replace (193 + 2 * pmt_version t) with ((96 + pmt_version t) * 2 + 1) by lia.
    rewrite Z.div_add_l by lia. change (1 / 2) with 0. replace (96 + pmt_version t + 0) with (pmt_version t + 3 * 32) by lia.
    rewrite Z.mod_add, Z.mod_small by lia. reflexivity. }
  assert (E3 : word s 8 mod 8192 = pmt_pcr_pid t).
  { change (word s 8) with ((0xE0 + pmt_pcr_pid t / 256 mod 32) * 256 + low (pmt_pcr_pid t)). exact (proj2 (low13 _ Pc)). }
  assert (E4 : Z.to_nat (word s 10 mod 4096) = List.length ca).
  { change (word s 10) with (0xF0 * 256 + zlen ca). replace (0xF0 * 256 + zlen ca) with (zlen ca + 15 * 4096) by lia. rewrite Z.mod_add, Z.mod_small by lia. unfold zlen. lia. }
  assert (E5 : inside 12 s = ca ++ es).
  { unfold inside. assert (Q : skipn 12 s = (ca ++ es) ++ be32 (crc32 (written 2 (pmt_sid t) (pmt_version t) l))) by reflexivity.
    assert (Q' : List.length s = (12 + List.length (ca ++ es) + 4)%nat) by (unfold s; rewrite app_length; cbn [be32 List.length]; reflexivity).
    rewrite Q, Q'. replace (12 + List.length (ca ++ es) + 4 - 4 - 12)%nat with (List.length (ca ++ es)) by lia.
    rewrite firstn_app, firstn_all, Nat.sub_diag. cbn [firstn]. apply app_nil_r. }
  rewrite E0. cbn [app]. do 3 f_equal. unfold read_pmt. cbv zeta. rewrite E1, E2, E3, E4, E5.
  rewrite firstn_app, firstn_all, Nat.sub_diag. cbn [firstn]. rewrite app_nil_r, skipn_app, skipn_all, Nat.sub_diag. cbn [skipn app].
  unfold ca_pids. rewrite Bc, Bs. destruct t; reflexivity.
Qed.
