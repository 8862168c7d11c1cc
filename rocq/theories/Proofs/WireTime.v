(** Times that are written and read. *)
From Coq Require Import ZArith Lia List Bool.
From Verif Require Import Base.Outcome Base.Util Model.Ts Spec.FilterSpec Spec.PipeSpec Spec.WireSpec Spec.WireTimeSpec Proofs.WireProofs Proofs.WirePmt.
Import ListNotations.
Open Scope Z_scope.

Lemma pcr_back : forall pid v, 0 <= v < 2 ^ 33 * 300 -> pcr_bytes (clock_packet pid v) = Some v.
Proof.
  intros pid v H. unfold pcr_bytes. change (adapted (clock_packet pid v)) with true. change (at_ (clock_packet pid v) 4) with 183. change (at_ (clock_packet pid v) 5) with 0x10.
  change (7 <=? 183) with true. change (Z.testbit 0x10 4) with true. cbn [andb]. f_equal.
  change (at_ (clock_packet pid v) 6) with (v / 300 / 2 ^ 25). change (at_ (clock_packet pid v) 7) with (v / 300 / 2 ^ 17 mod 256).
  change (at_ (clock_packet pid v) 8) with (v / 300 / 2 ^ 9 mod 256). change (at_ (clock_packet pid v) 9) with (v / 300 / 2 mod 256).
  change (at_ (clock_packet pid v) 10) with ((v / 300 mod 2) * 128 + 126 + v mod 300 / 256). change (at_ (clock_packet pid v) 11) with (v mod 300 mod 256).
  pose proof (Z.div_mod v 300 ltac:(lia)) as D. pose proof (Z.mod_pos_bound v 300 ltac:(lia)) as De. set (b := v / 300) in *. set (e := v mod 300) in *.
  assert (B2 : 0 <= b mod 2 < 2) by (apply Z.mod_pos_bound; lia). assert (E2 : 0 <= e / 256 < 2) by (split; [apply Z.div_pos; lia|apply Z.div_lt_upper_bound; lia]).
  assert (X : (b mod 2 * 128 + 126 + e / 256) / 128 = b mod 2 /\ (b mod 2 * 128 + 126 + e / 256) mod 2 = e / 256).
  { assert (C1 : b mod 2 = 0 \/ b mod 2 = 1) by lia. assert (C2 : e / 256 = 0 \/ e / 256 = 1) by lia. destruct C1 as [-> | ->], C2 as [-> | ->]; split; reflexivity. }
  destruct X as [-> ->].
  replace (b / 2 ^ 9) with (b / 2 / 256) by (rewrite Z.div_div by lia; reflexivity). replace (b / 2 ^ 17) with (b / 2 / 256 / 256) by (rewrite !Z.div_div by lia; reflexivity).
  replace (b / 2 ^ 25) with (b / 2 / 256 / 256 / 256) by (rewrite !Z.div_div by lia; reflexivity).
  pose proof (Z.div_mod b 2 ltac:(lia)). pose proof (Z.div_mod (b / 2) 256 ltac:(lia)). pose proof (Z.div_mod (b / 2 / 256) 256 ltac:(lia)).
  pose proof (Z.div_mod (b / 2 / 256 / 256) 256 ltac:(lia)). pose proof (Z.div_mod e 256 ltac:(lia)). lia.
Qed.

Lemma stamp_back : forall pre mark v post, 0 <= v < 2 ^ 33 -> stamp (pre ++ stamp_field mark v ++ post) (List.length pre) = v.
Proof.
  intros pre mark v post H. unfold stamp.
  assert (N : forall k, at_ (pre ++ stamp_field mark v ++ post) (k + List.length pre) = nth k (stamp_field mark v ++ post) 0).
  { intros k. unfold at_. rewrite app_nth2 by lia. f_equal. lia. }
  rewrite (N 1%nat), (N 2%nat), (N 3%nat), (N 4%nat). pose proof (N 0%nat) as N0. cbn [Nat.add] in N0. rewrite N0. cbn [stamp_field app nth].
  assert (T : 0 <= v / 2 ^ 30 < 8) by (split; [apply Z.div_pos; lia|apply Z.div_lt_upper_bound; lia]).
  replace (mark * 16 + v / 2 ^ 30 * 2 + 1) with ((mark * 8 + v / 2 ^ 30) * 2 + 1) by lia. rewrite !Z.div_add_l by lia. change (1 / 2) with 0.
  replace (mark * 8 + v / 2 ^ 30 + 0) with (v / 2 ^ 30 + mark * 8) by lia. rewrite Z.mod_add, (Z.mod_small (v / 2 ^ 30)) by lia.
  replace (v / 2 ^ 15) with (v / 2 ^ 7 / 256) by (rewrite Z.div_div by lia; reflexivity). replace (v / 2 ^ 22) with (v / 2 ^ 7 / 256 / 128) by (rewrite !Z.div_div by lia; reflexivity).
  replace (v / 2 ^ 30) with (v / 2 ^ 7 / 256 / 128 / 256) by (rewrite !Z.div_div by lia; reflexivity).
  pose proof (Z.div_mod v 128 ltac:(lia)). change (2 ^ 7) with 128. pose proof (Z.div_mod (v / 128) 256 ltac:(lia)). pose proof (Z.div_mod (v / 128 / 256) 128 ltac:(lia)).
  pose proof (Z.div_mod (v / 128 / 256 / 128) 256 ltac:(lia)). lia.
Qed.

Lemma start_flag : forall x, 0 <= x < 32 -> Z.testbit (64 + x) 6 = true.
Proof. intros x H. apply Z.testbit_true; [lia|]. change (2 ^ 6) with 64. replace (64 + x) with (1 * 64 + x) by lia. rewrite Z.div_add_l, (Z.div_small x) by lia. reflexivity. Qed.

Lemma pes_back : forall pid id pts dts, has_stamps id -> 0 <= pts < 2 ^ 33 -> 0 <= dts < 2 ^ 33 ->
  pts_bytes (pes_packet pid id pts dts) = Some pts /\ dts_bytes (pes_packet pid id pts dts) = Some dts.
Proof.
  intros pid id pts dts N P D. set (p := pes_packet pid id pts dts).
  assert (Q : payload p = [0; 0; 1; id; 0; 0; 0x80; 0xC0; 10] ++ stamp_field 3 pts ++ stamp_field 1 dts ++ repeat 0xFF 165) by reflexivity.
  assert (H : pes_header p = true).
  { unfold pes_header. assert (U : starts_unit p = true) by (unfold starts_unit; change (at_ p 1) with (64 + pid / 256 mod 32); apply start_flag, Z.mod_pos_bound; lia).
    rewrite U, Q. change (at_ ([0; 0; 1; id; 0; 0; 0x80; 0xC0; 10] ++ stamp_field 3 pts ++ stamp_field 1 dts ++ repeat 0xFF 165) 3) with id.
    destruct (zmem id _) eqn:Z; [exfalso; apply N; apply zmem_In; exact Z|]. reflexivity. }
  unfold pts_bytes, dts_bytes. rewrite H, Q. change (at_ ([0; 0; 1; id; 0; 0; 0x80; 0xC0; 10] ++ stamp_field 3 pts ++ stamp_field 1 dts ++ repeat 0xFF 165) 7) with 0xC0.
  change (Z.testbit 0xC0 7) with true. change (Z.testbit 0xC0 6) with true. cbn [andb]. split; f_equal.
  - exact (stamp_back [0; 0; 1; id; 0; 0; 0x80; 0xC0; 10] 3 pts _ P).
  - exact (stamp_back ([0; 0; 1; id; 0; 0; 0x80; 0xC0; 10] ++ stamp_field 3 pts) 1 dts _ D).
Qed.
Lemma pes_pts_back : forall pid id pts, has_stamps id -> 0 <= pts < 2 ^ 33 ->
  pts_bytes (pes_pts_packet pid id pts) = Some pts /\ dts_bytes (pes_pts_packet pid id pts) = None.
Proof.
  intros pid id pts N P. set (p := pes_pts_packet pid id pts).
  assert (Q : payload p = [0; 0; 1; id; 0; 0; 0x80; 0x80; 5] ++ stamp_field 2 pts ++ repeat 0xFF 170) by reflexivity.
  assert (H : pes_header p = true).
  { unfold pes_header. assert (U : starts_unit p = true) by (unfold starts_unit; change (at_ p 1) with (64 + pid / 256 mod 32); apply start_flag, Z.mod_pos_bound; lia).
    rewrite U, Q. change (at_ ([0; 0; 1; id; 0; 0; 0x80; 0x80; 5] ++ stamp_field 2 pts ++ repeat 0xFF 170) 3) with id.
    destruct (zmem id _) eqn:Z; [exfalso; apply N; apply zmem_In; exact Z|]. reflexivity. }
  unfold pts_bytes, dts_bytes. rewrite H, Q. change (at_ ([0; 0; 1; id; 0; 0; 0x80; 0x80; 5] ++ stamp_field 2 pts ++ repeat 0xFF 170) 7) with 0x80.
  change (Z.testbit 0x80 7) with true. change (Z.testbit 0x80 6) with false. cbn [andb]. split; [|reflexivity]. f_equal.
  exact (stamp_back [0; 0; 1; id; 0; 0; 0x80; 0x80; 5] 2 pts _ P).
Qed.

Lemma digits_back : forall x, 0 <= x < 100 -> decimal (digits x) = true /\ bcd (digits x) = x.
Proof.
  intros x H. assert (X : forallb (fun n => decimal (digits (Z.of_nat n)) && (bcd (digits (Z.of_nat n)) =? Z.of_nat n)) (seq 0 100) = true) by (vm_compute; reflexivity).
  rewrite forallb_forall in X. specialize (X (Z.to_nat x)). rewrite Z2Nat.id in X by lia. rewrite andb_true_iff, Z.eqb_eq in X. apply X. apply in_seq. lia.
Qed.
Lemma two_back : forall v, 0 <= v < 65536 -> low (v / 256) * 256 + low v = v.
Proof.
  intros v H. unfold low. rewrite (Z.mod_small (v / 256)) by (split; [apply Z.div_pos; lia|apply Z.div_lt_upper_bound; lia]). pose proof (Z.div_mod v 256). lia.
Qed.
Lemma clock_parts : forall t, t = (t / 3600) * 3600 + (t / 60 mod 60) * 60 + t mod 60.
Proof.
  intros t. replace (t / 3600) with (t / 60 / 60) by (rewrite Z.div_div by lia; reflexivity).
  pose proof (Z.div_mod t 60 ltac:(lia)). pose proof (Z.div_mod (t / 60) 60 ltac:(lia)). lia.
Qed.

Lemma time_back : forall ms, 0 <= ms < 65536 * 86400000 -> ms mod 1000 = 0 -> read_time (time_field ms) = Some ms.
Proof.
  intros ms H M. unfold time_field, two. cbv zeta. cbn [app read_time].
  pose proof (Z.div_mod ms 1000 ltac:(lia)) as D. rewrite M in D. set (t := ms / 1000) in *.
  assert (Dt : 0 <= t / 86400 < 65536) by (split; [apply Z.div_pos; lia|apply Z.div_lt_upper_bound; lia]).
  pose proof (Z.mod_pos_bound (t / 3600) 24 ltac:(lia)). pose proof (Z.mod_pos_bound (t / 60) 60 ltac:(lia)). pose proof (Z.mod_pos_bound t 60 ltac:(lia)).
  destruct (digits_back (t / 3600 mod 24)) as [-> ->]; [lia|]. destruct (digits_back (t / 60 mod 60)) as [-> ->]; [lia|]. destruct (digits_back (t mod 60)) as [-> ->]; [lia|].
  cbn [andb]. f_equal. rewrite two_back by exact Dt. pose proof (clock_parts t) as C. pose proof (Z.div_mod (t / 3600) 24 ltac:(lia)) as E.
  replace (t / 3600 / 24) with (t / 86400) in E by (rewrite Z.div_div by lia; reflexivity). lia.
Qed.

Lemma events_back : forall l fuel, Forall plain_event l -> (List.length l <= fuel)%nat -> events_in fuel (flat_map event_bytes l) = l.
Proof.
  induction l as [|e l IH]; intros fuel F L; [destruct fuel; reflexivity|]. inversion F as [|? ? (Ie & Se & Ms & De & Da) Fl]; subst. destruct fuel as [|fuel]; [cbn in L; lia|].
  pose proof (time_back _ Se Ms) as T. unfold time_field, two in T. cbv zeta in T. cbn [app] in T.
  cbn [flat_map]. unfold event_bytes at 1, time_field, two. cbv zeta. cbn [app events_in]. rewrite T.
  change (Z.to_nat ((0x80 * 256 + 0x00) mod 4096)) with 0%nat. cbn [skipn]. rewrite IH by (auto; cbn in L; lia).
  assert (0 <= ev_duration e / 3600 < 100) by (split; [apply Z.div_pos; lia|apply Z.div_lt_upper_bound; lia]).
  pose proof (Z.mod_pos_bound (ev_duration e / 60) 60 ltac:(lia)). pose proof (Z.mod_pos_bound (ev_duration e) 60 ltac:(lia)).
  destruct (digits_back (ev_duration e / 3600)) as [-> ->]; [lia|]. destruct (digits_back (ev_duration e / 60 mod 60)) as [-> ->]; [lia|].
  destruct (digits_back (ev_duration e mod 60)) as [-> ->]; [lia|]. cbn [andb app]. rewrite two_back by exact Ie. rewrite <- clock_parts. destruct e. cbn in *. subst. reflexivity.
Qed.

Lemma eit_back : forall t, eit_fits t -> pid_bytes (eit_packet t) = 0x12 /\ bodies (eit_packet t) = [TEit (Some t)].
Proof.
  intros t (Si & Ti & Oi & V & Fe & L). unfold eit_packet. assert (Le : List.length (flat_map event_bytes (eit_events t)) = (12 * List.length (eit_events t))%nat).
  { clear. induction (eit_events t) as [|e l IH]; [reflexivity|]. cbn [flat_map]. rewrite app_length, IH. cbn. lia. }
  assert (Be := events_back (eit_events t) 16 Fe ltac:(lia)). set (es := flat_map event_bytes (eit_events t)) in *.
  set (l := two (eit_tsid t) ++ two (eit_onid t) ++ [0; 0x4E] ++ es).
  assert (Ll : zlen l <= 171) by (unfold l, zlen; rewrite !app_length; cbn [two List.length]; lia).
  destruct (section_back 0x12 0x4E (eit_sid t) (eit_version t) l ltac:(lia) ltac:(lia) V Ll) as [S I]. cbv zeta in S. split; [exact I|].
  unfold bodies. rewrite S. set (s := written 0x4E (eit_sid t) (eit_version t) l ++ be32 (crc32 (written 0x4E (eit_sid t) (eit_version t) l))).
  cbn [flat_map]. unfold read_table, read_eit. cbn [filter]. change (at_ s 0) with 0x4E. change (0x4E =? 0x00) with false. change (0x4E =? 0x01) with false. change (0x4E =? 0x02) with false.
  change (0x4E =? 0x73) with false. change (0x4E =? 0x4E) with true. cbv iota. cbn [app]. change (at_ s 7) with 0. rewrite zlen_nil. change (0 =? 0) with true. cbv iota.
  assert (E1 : word s 3 = eit_sid t) by (change (word s 3) with (low (eit_sid t / 256) * 256 + low (eit_sid t)); apply two_back; exact Si).
  assert (E2 : section_version s = eit_version t).
  { unfold section_version. change (at_ s 5) with (193 + 2 * eit_version t). replace (193 + 2 * eit_version t) with ((96 + eit_version t) * 2 + 1) by lia.
    rewrite Z.div_add_l by lia. change (1 / 2) with 0. replace (96 + eit_version t + 0) with (eit_version t + 3 * 32) by lia. rewrite Z.mod_add, Z.mod_small by lia. reflexivity. }
  assert (E3 : word s 8 = eit_tsid t) by (change (word s 8) with (low (eit_tsid t / 256) * 256 + low (eit_tsid t)); apply two_back; exact Ti).
  assert (E4 : word s 10 = eit_onid t) by (change (word s 10) with (low (eit_onid t / 256) * 256 + low (eit_onid t)); apply two_back; exact Oi).
  assert (E5 : inside 14 s = es).
  { unfold inside. assert (Q : skipn 14 s = es ++ be32 (crc32 (written 0x4E (eit_sid t) (eit_version t) l))) by reflexivity.
    assert (Q' : List.length s = (14 + List.length es + 4)%nat) by (unfold s; rewrite app_length; cbn [be32 List.length]; reflexivity).
    rewrite Q, Q'. replace (14 + List.length es + 4 - 4 - 14)%nat with (List.length es) by lia. rewrite firstn_app, firstn_all, Nat.sub_diag. cbn [firstn]. apply app_nil_r. }
  cbn [flat_map]. rewrite E1, E2, E3, E4, E5, Be, app_nil_r. destruct t; reflexivity.
Qed.
