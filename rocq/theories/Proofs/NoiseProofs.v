(** Noise between packets. *)
From Coq Require Import ZArith Lia List Bool.
From Verif Require Import Base.Outcome Base.Util Model.FileSource Model.Main Spec.SourceSpec Spec.MainSpec Spec.NoiseSpec Proofs.SourceProofs Proofs.MainProofs.
Import ListNotations.
Open Scope Z_scope.

Lemma sync_app_l : forall a b i, i < zlen a -> (sync_at (a ++ b) i <-> sync_at a i).
Proof. intros a b i H. unfold sync_at. rewrite znth_app_l by exact H. reflexivity. Qed.
Lemma sync_app_r : forall a b i, 0 <= i -> (sync_at (a ++ b) (zlen a + i) <-> sync_at b i).
Proof. intros a b i H. unfold sync_at. rewrite znth_app_r by lia. replace (zlen a + i - zlen a) with i by lia. reflexivity. Qed.

Lemma four_synced : forall p1 p2 p3 p4 r, Forall whole [p1; p2; p3; p4] -> synced_at (p1 ++ p2 ++ p3 ++ p4 ++ r) 0.
Proof.
  intros p1 p2 p3 p4 r H. inversion H as [|x1 l1 [L1 S1] H1]; subst. inversion H1 as [|x2 l2 [L2 S2] H2]; subst.
  inversion H2 as [|x3 l3 [L3 S3] H3]; subst. inversion H3 as [|x4 l4 [L4 S4] H4]; subst.
  split; [|split; [|split]].
  - apply sync_app_l; [lia|exact S1].
  - replace (0 + 188) with (zlen p1 + 0) by lia. apply sync_app_r; [lia|]. apply sync_app_l; [lia|exact S2].
  - replace (0 + 376) with (zlen p1 + (zlen p2 + 0)) by lia. apply sync_app_r; [lia|]. apply sync_app_r; [lia|]. apply sync_app_l; [lia|exact S3].
  - replace (0 + 564) with (zlen p1 + (zlen p2 + (zlen p3 + 0))) by lia. apply sync_app_r; [lia|]. apply sync_app_r; [lia|]. apply sync_app_r; [lia|].
    apply sync_app_l; [lia|exact S4].
Qed.

Lemma packets_cons : forall p bs ps, zlen p = 188 -> packets_of (p ++ bs) ps -> sync_at p 0 -> exists qs, ps = p :: qs /\ packets_of bs qs.
Proof.
  intros p bs ps L H S. assert (S0 : sync_at (p ++ bs) 0) by (apply sync_app_l; [lia|exact S]). pose proof (zlen_nonneg _ bs) as N.
  remember (p ++ bs) as w eqn:E. destruct H as [w Hl|p' rest ps Lp Sp H|w i p' rest ps Hl Ns|w Hl Ns|w Hl Ns]; subst; try contradiction.
  - rewrite zlen_app in Hl. lia.
  - destruct (app_inj_len _ p' rest p bs) as [-> ->]; [lia|exact E|]. eauto.
Qed.

Lemma noisy_packets : forall bs ps, noisy bs ps -> packets_of bs ps.
Proof.
  induction 1 as [tail L|p bs ps [L S] _ IH|g p1 p2 p3 p4 r ps Lg W bs [Ns Nj] L _ IH].
  - constructor. exact L.
  - constructor; auto.
  - pose proof (four_synced _ _ _ _ r W) as Y. fold bs in Y. inversion W as [|x1 l1 [L1 S1] W1]; subst x1 l1.
    destruct (packets_cons p1 (p2 ++ p3 ++ p4 ++ r) ps L1 IH S1) as (qs & -> & H).
    apply (Pk_resync (g ++ bs) (zlen g) p1 (p2 ++ p3 ++ p4 ++ r)); auto; try lia.
    + rewrite sync_app_l by lia. exact Ns.
    + destruct Y as (Y0 & Y1 & Y2 & Y3). unfold synced_at. rewrite <- (Z.add_0_r (zlen g)) at 1. rewrite !sync_app_r by lia. auto.
    + rewrite zdrop_app_ge by lia. rewrite Z.sub_diag. apply zdrop_0. lia.
Qed.

Lemma noisy_app : forall a bs ps, Forall whole a -> noisy bs ps -> noisy (concat a ++ bs) (a ++ ps).
Proof. intros a bs ps H N. induction H as [|p a W _ IH]; [exact N|]. cbn [concat app]. rewrite <- app_assoc. constructor; auto. Qed.

Lemma noise_once : forall g b tail, 0 < zlen g < 376 -> Forall whole b -> (4 <= List.length b)%nat -> no_packets_in g (concat b ++ tail) ->
  940 <= zlen (g ++ concat b ++ tail) -> zlen tail < 188 -> noisy (g ++ concat b ++ tail) b.
Proof.
  intros g b tail Lg W Lb N L T. destruct b as [|p1 [|p2 [|p3 [|p4 r]]]]; cbn [List.length] in Lb; try lia.
  assert (E : concat (p1 :: p2 :: p3 :: p4 :: r) ++ tail = p1 ++ p2 ++ p3 ++ p4 ++ (concat r ++ tail)) by (cbn [concat]; rewrite <- !app_assoc; reflexivity).
  rewrite E in *. apply Noisy_noise; auto.
  - apply Forall_forall. intros p I. rewrite Forall_forall in W. apply W. cbn in *. tauto.
  - rewrite <- E. rewrite <- (app_nil_r (p1 :: p2 :: p3 :: p4 :: r)) at 2. apply noisy_app; [exact W|]. constructor. exact T.
Qed.

Lemma concat_whole : forall b, Forall whole b -> zlen (concat b) = 188 * Z.of_nat (List.length b).
Proof. induction 1 as [|p b [L _] _ IH]; [reflexivity|]. cbn [concat List.length]. rewrite zlen_app. lia. Qed.

Lemma clean_input : forall sys ps tail n, input_bytes sys = concat ps ++ tail -> zlen tail < 188 -> Forall whole ps -> Forall read_ok (sy_reads sys) ->
  (List.length (input_bytes sys) < n)%nat -> has_input sys ps n.
Proof. intros sys ps tail n E T W R L. split; [exact R|]. split; [|exact L]. rewrite E. apply aligned; auto. Qed.

(** The noise is followed by too little, or is too long. *)
Lemma lost_packets : forall a g, Forall whole a -> ~ sync_at g 0 -> (zlen g < 940 \/ forall j, 0 <= j < 376 -> ~ synced_at g j) -> packets_of (concat a ++ g) a.
Proof.
  intros a g W N H. induction W as [|p a [L S] _ IH].
  - cbn. destruct (Z.lt_ge_cases (zlen g) 188); [constructor; auto|]. destruct (Z.lt_ge_cases (zlen g) 940).
    + apply Pk_lost_end; auto.
    + destruct H as [H|H]; [lia|]. apply Pk_lost; auto.
  - cbn [concat]. rewrite <- app_assoc. constructor; auto.
Qed.

(** The commands. *)
Lemma main_noisy : forall lib sys path fd reads c ps n, let sys' := other_input sys path fd reads in
  Forall read_ok (sy_reads sys) -> Forall read_ok reads -> noisy (input_bytes sys) ps -> input_bytes sys' = concat ps ->
  (List.length (input_bytes sys) < n)%nat -> (List.length (input_bytes sys') < n)%nat -> main lib sys c n = main lib sys' c n.
Proof.
  intros lib sys path fd reads c ps n sys' R R' N E L L'. pose proof (noisy_packets _ _ N) as P. apply (main_same lib sys path fd reads c ps n); auto.
  fold sys'. rewrite E. rewrite <- (app_nil_r (concat ps)). apply aligned; [|reflexivity]. exact (packet_shape _ _ P).
Qed.

Lemma main_noise_once : forall lib sys path fd reads c a g b tail n, let sys' := other_input sys path fd reads in
  Forall read_ok (sy_reads sys) -> Forall read_ok reads -> Forall whole a -> Forall whole b ->
  input_bytes sys = concat a ++ g ++ concat b ++ tail -> input_bytes sys' = concat (a ++ b) -> zlen tail < 188 ->
  0 < zlen g < 376 -> no_packets_in g (concat b ++ tail) -> (if (zlen g <? 188)%Z then 5 <= List.length b else 4 <= List.length b)%nat ->
  (List.length (input_bytes sys) < n)%nat -> (List.length (input_bytes sys') < n)%nat -> main lib sys c n = main lib sys' c n.
Proof.
  intros lib sys path fd reads c a g b tail n sys' R R' Wa Wb E E' T Lg N Lb L L'. pose proof (zlen_nonneg _ tail) as T0.
  apply (main_noisy lib sys path fd reads c (a ++ b) n); auto. rewrite E. apply noisy_app; [exact Wa|].
  apply noise_once; auto; [destruct (_ <? _); lia|]. rewrite !zlen_app, concat_whole by exact Wb. destruct (Z.ltb_spec (zlen g) 188); lia.
Qed.

Lemma main_mangled : forall lib sys path fd reads c a p g b tail n, let sys' := other_input sys path fd reads in
  Forall read_ok (sy_reads sys) -> Forall read_ok reads -> Forall whole a -> whole p -> Forall whole b ->
  input_bytes sys = concat a ++ p ++ g ++ concat b ++ tail -> input_bytes sys' = concat (a ++ [p] ++ b) -> zlen tail < 188 ->
  0 < zlen g < 376 -> no_packets_in g (concat b ++ tail) -> (if (zlen g <? 188)%Z then 5 <= List.length b else 4 <= List.length b)%nat ->
  (List.length (input_bytes sys) < n)%nat -> (List.length (input_bytes sys') < n)%nat -> main lib sys c n = main lib sys' c n.
Proof.
  intros lib sys path fd reads c a p g b tail n sys' R R' Wa Wp Wb E E' T Lg N Lb L L'.
  apply (main_noise_once lib sys path fd reads c (a ++ [p]) g b tail n); auto.
  - apply Forall_app. auto.
  - rewrite E, concat_app. cbn [concat]. rewrite app_nil_r, <- app_assoc. reflexivity.
  - fold sys'. rewrite E', <- app_assoc. reflexivity.
Qed.

Lemma main_lost : forall lib sys path fd reads c a g n, let sys' := other_input sys path fd reads in
  Forall read_ok (sy_reads sys) -> Forall read_ok reads -> Forall whole a -> input_bytes sys = concat a ++ g -> input_bytes sys' = concat a ->
  ~ sync_at g 0 -> (zlen g < 940 \/ forall j, 0 <= j < 376 -> ~ synced_at g j) ->
  (List.length (input_bytes sys) < n)%nat -> (List.length (input_bytes sys') < n)%nat -> main lib sys c n = main lib sys' c n.
Proof.
  intros lib sys path fd reads c a g n sys' R R' W E E' N H L L'. apply (main_same lib sys path fd reads c a n); auto.
  - rewrite E. apply lost_packets; auto.
  - fold sys'. rewrite E', <- (app_nil_r (concat a)). apply aligned; [exact W|reflexivity].
Qed.
