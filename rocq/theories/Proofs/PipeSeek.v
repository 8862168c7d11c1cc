From Coq Require Import ZArith Lia List Bool.
From Verif Require Import Base.Outcome Base.Util Model.Sink Model.FileSource Model.StdoutSink Model.Ts Model.StartSeeker Model.Commands
  Spec.FeedSpec Spec.SourceSpec Spec.StdoutSpec Spec.FilterSpec Spec.TransSpec Spec.SeekSpec Spec.PipeSpec
  Proofs.FeedProofs Proofs.SourceProofs Proofs.StdoutProofs Proofs.SeekProofs Proofs.PipeProofs.
Import ListNotations.
Open Scope Z_scope.

Section Seek.
Variable view : list (list Z) -> list Z -> packet.
Variable bytes : packet -> list Z.

Lemma stdout_willing : (forall p, zlen (bytes p) = 188) -> forall w, fine w -> willing (to_stdout bytes) w.
Proof.
  intros Sz w F qs. destruct (stdout_hand bytes Sz qs w F) as [w1 [E [F1 _]]]. exists w1, (so_End w1), 0. repeat split. exact E.
Qed.

Lemma seek_start_exact : (forall p, zlen (bytes p) = 188) ->
  forall o reads bs writes n, Forall read_ok reads -> packets_of (bytes_of reads) bs -> Forall no_error writes ->
  (List.length (bytes_of reads) < n)%nat -> orderly o 0 (views view [] bs) -> sane_seek o ->
  exists r seen s w, seek o 0 [] None 0 (views view [] bs) r /\
    seek_start_main view bytes o reads writes n = Some (Ok (0, (seen, (s, w)))) /\
    so_out w = concat (map bytes (seek_output (views view [] bs) r)).
Proof.
  intros Sz o reads bs writes n R Pk W Hn O Sa. set (ps := views view [] bs) in *.
  assert (Hl : (List.length ps < n)%nat) by (unfold ps; rewrite views_length; pose proof (packets_length _ _ Pk); lia).
  pose proof (main_feed view (seek_start bytes o) reads bs (ss_init, so_init writes) n R Pk Hn) as M. fold ps in M.
  change (run_main view (seek_start bytes o) reads (ss_init, so_init writes) n) with (seek_start_main view bytes o reads writes n) in M.
  destruct (seek_run_all o 0 (to_stdout bytes) ps n (so_init writes) (so_init writes) eq_refl (stdout_willing Sz _ (fine_init writes W)) O Sa Hl)
    as [r [s [w1 [w2 [c [S [H [E [X F]]]]]]]]].
  destruct (stdout_hand bytes Sz (seek_output ps r) (so_init writes) (fine_init writes W)) as [w1' [H' [F1 O1]]].
  assert (Ew : w1 = w1') by (assert (H2 : hand (to_stdout bytes) (so_init writes) (seek_output ps r) = (seek_output ps r, Ok (w1, true))) by exact H; congruence).
  subst w1'. cbn in E, X. injection E as <-. injection X as <-.
  match type of M with match ?x with _ => _ end => pose proof (F : x = _) as F2; rewrite F2 in M end. destruct M as [seen M].
  exists r, seen, s, (so_End w1). split; [exact S|]. split; [exact M|].
  destruct F1 as [_ W1]. rewrite (end_ok w1 W1), O1. reflexivity.
Qed.

Lemma views_bytes : (forall h b, ts_packet b -> bytes (view h b) = b) -> forall bs h, Forall ts_packet bs -> map bytes (views view h bs) = bs.
Proof.
  intros Fb. induction bs as [|b bs IH]; intros h F; cbn [views map]; [reflexivity|]. inversion F; subst. rewrite Fb, IH by auto. reflexivity.
Qed.

Lemma map_znth : forall A B (f : A -> B) l i, znth i (map f l) = option_map f (znth i l).
Proof. intros. unfold znth. destruct (i <? 0); [reflexivity|]. apply nth_error_map. Qed.

Lemma map_zdrop : forall A B (f : A -> B) l i, zdrop i (map f l) = map f (zdrop i l).
Proof. intros. unfold zdrop. apply skipn_map. Qed.

Lemma seek_start_bytes : faithful view bytes ->
  forall o reads bs writes n, Forall read_ok reads -> Forall is_byte (bytes_of reads) -> packets_of (bytes_of reads) bs -> Forall no_error writes ->
  (List.length (bytes_of reads) < n)%nat -> orderly o 0 (views view [] bs) -> sane_seek o ->
  exists seen s w, seek_start_main view bytes o reads writes n = Some (Ok (0, (seen, (s, w)))) /\
    (so_out w = concat bs \/
     exists i j m p a, seek o 0 [] None 0 (views view [] bs) (Cut i j m) /\ 0 < j < zlen bs /\ znth i bs = Some p /\ zdrop j bs = a /\
       so_out w = p ++ concat a).
Proof.
  intros [Fb [Fp Fz]] o reads bs writes n R Bt Pk W Hn O Sa.
  destruct (seek_start_exact Fz o reads bs writes n R Pk W Hn O Sa) as [r [seen [s [w [S [M Ow]]]]]].
  exists seen, s, w. split; [exact M|]. pose proof (views_bytes Fb bs [] (packets_are _ _ Pk Bt)) as Vb.
  destruct r as [m|i j m]; cbn [seek_output] in Ow.
  - left. rewrite Ow, Vb. reflexivity.
  - right. destruct (seek_shape o 0 _ i j m O S) as [p [ts [ha [Nm [_ [_ [_ [Bj [Bi _]]]]]]]]].
    assert (Lm : m - 1 < zlen (views view [] bs)).
    { unfold znth in Nm. destruct (m - 1 <? 0) eqn:E; [discriminate|]. apply Z.ltb_ge in E.
      assert (Lt : (Z.to_nat (m - 1) < List.length (views view [] bs))%nat) by (apply nth_error_Some; congruence). unfold zlen. lia. }
    assert (Lb : zlen (views view [] bs) = zlen bs) by (unfold zlen; rewrite views_length; reflexivity).
    destruct (znth_some _ i (views view [] bs) ltac:(lia)) as [q Eq].
    assert (Eb : znth i bs = Some (bytes q)) by (rewrite <- Vb, map_znth, Eq; reflexivity).
    exists i, j, m, (bytes q), (zdrop j bs). split; [exact S|]. split; [lia|]. split; [exact Eb|]. split; [reflexivity|].
    rewrite Ow, Eq, map_app, concat_app. cbn [map concat]. rewrite app_nil_r. rewrite <- map_zdrop, Vb. reflexivity.
Qed.

End Seek.
