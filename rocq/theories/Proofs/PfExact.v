(** When collect-eitpfs ends, goes on and throws, exactly. *)
From Coq Require Import ZArith List Bool Sorted Lia.
From Verif Require Import Base.Outcome Base.Util Model.Sink Model.EitSection Model.EitCollector Model.EitpfCollector
  Proofs.EitSectionProofs Proofs.PfProofs Spec.EitSpec Spec.PfSpec.
Import ListNotations.
Open Scope Z_scope.

Section Pf.
Variable mjd : list Z -> option Z.
Hypothesis Hmjd : sane_mjd mjd.
Variable o : pf_option.

Definition svc_of_key (k : Z) : Z * Z * Z := (Z.shiftr k 48, Z.land (Z.shiftr k 32) 0xFFFF, Z.land (Z.shiftr k 16) 0xFFFF).

Lemma key_svc : forall x k, wire x -> pf_counts o x -> key_of x k -> svc_of_key k = service_of x.
Proof.
  intros x k W C (e & E & <-). pose proof (EitSection_inv _ _ (counts_payload _ _ C) E) as P.
  destruct (wire_ranges _ _ W (counts_payload _ _ C) P) as (R1 & R2 & R3).
  unfold svc_of_key. destruct (triple_fields e R1 R2 R3) as (-> & -> & ->).
  destruct P as (_ & P1 & _ & P2 & P3 & _). unfold service_of, sid_of. rewrite P1, P2, P3. reflexivity.
Qed.

Lemma key_order : forall a b, a < b -> svc_of_key a <> svc_of_key b -> before (svc_of_key a) (svc_of_key b).
Proof.
  intros a b L N. unfold before, svc_of_key in *.
  change 0xFFFF with (Z.ones 16) in *. rewrite !Z.land_ones in * by lia. rewrite !Z.shiftr_div_pow2 in * by lia.
  change (2 ^ 48) with (65536 * 65536 * 65536) in *. change (2 ^ 32) with (65536 * 65536) in *. change (2 ^ 16) with 65536 in *.
  rewrite <- !Z.div_div in * by lia.
  assert (Q : a / 65536 <= b / 65536) by (apply Z.div_le_mono; lia).
  set (x := a / 65536) in *. set (y := b / 65536) in *. clearbody x y. clear L a b.
  pose proof (Z.div_mod x 65536 ltac:(lia)). pose proof (Z.div_mod y 65536 ltac:(lia)).
  pose proof (Z.mod_pos_bound x 65536 ltac:(lia)). pose proof (Z.mod_pos_bound y 65536 ltac:(lia)).
  set (x1 := x / 65536) in *. set (y1 := y / 65536) in *. set (x0 := x mod 65536) in *. set (y0 := y mod 65536) in *.
  clearbody x1 y1 x0 y0.
  pose proof (Z.div_mod x1 65536 ltac:(lia)). pose proof (Z.div_mod y1 65536 ltac:(lia)).
  pose proof (Z.mod_pos_bound x1 65536 ltac:(lia)). pose proof (Z.mod_pos_bound y1 65536 ltac:(lia)).
  set (x2 := x1 / 65536) in *. set (y2 := y1 / 65536) in *. set (x3 := x1 mod 65536) in *. set (y3 := y1 mod 65536) in *.
  clearbody x2 y2 x3 y3.
  assert (D : ~ (x2 = y2 /\ x3 = y3 /\ x0 = y0)) by (intros (-> & -> & ->); apply N; reflexivity). lia.
Qed.

Definition svcs_of (m : list (Z * Z)) : list (Z * Z * Z) := map (fun p => svc_of_key (fst p)) m.

Lemma svcs_sorted : forall m lo, msorted lo m ->
  (forall k v, In (k, v) m -> exists y, wire y /\ pf_counts o y /\ key_of y k) ->
  StronglySorted before (svcs_of m).
Proof.
  induction m as [|[k v] m IH]; intros lo S Q; cbn [svcs_of map fst]; [constructor|]. destruct S as [S1 S2].
  constructor; [eapply IH; eauto; intros; eapply Q; right; eauto|].
  apply Forall_forall. intros t Ht. apply in_map_iff in Ht as ((k', v') & <- & Hin). cbn [fst].
  pose proof (msorted_lt _ _ _ _ _ S2 Hin) as L. apply key_order; [exact L|].
  destruct (Q k v (or_introl eq_refl)) as (y & Wy & Cy & Ky). destruct (Q k' v' (or_intror Hin)) as (z & Wz & Cz & Kz).
  rewrite (key_svc y k), (key_svc z k') by auto. intros E.
  apply (key_service o y z k Wy Wz Cy Cz Ky) in E. destruct E as (e & E1 & <-). destruct Kz as (e2 & E2 & <-).
  rewrite E1 in E2. injection E2 as <-. lia.
Qed.

Lemma exact_arrived : forall xs n m, pf_wires xs -> exact o xs n m -> arrived o xs n (svcs_of m).
Proof.
  intros xs n m W (M & A & B). split.
  - pose proof M as M'. apply is_map_msorted in M' as [lo S]. apply (svcs_sorted m lo S). intros k v H.
    apply (mfind_In _ m k v M) in H. destruct (A _ _ H) as (y & L & K & _).
    destruct (last_for_counts _ _ _ _ _ L) as (I & C & _). exists y. split; [apply W; auto|]. auto.
  - intros svc. split.
    + intros H. apply in_map_iff in H as ((k, v) & <- & H). apply (mfind_In _ m k v M) in H.
      destruct (A _ _ H) as (y & L & K & _). destruct (last_for_counts _ _ _ _ _ L) as (I & C & _).
      exists y. cbn [fst]. rewrite (key_svc y k) by auto. exact L.
    + intros (y & L). pose proof L as L'. destruct (last_for_counts _ _ _ _ _ L) as (I & C & <- & _).
      destruct (key_exists _ _ C) as (k & K). pose proof (B y L k K) as F. apply (mfind_In _ m _ _ M) in F.
      apply in_map_iff. exists (k, sn_version y). split; [cbn [fst]; apply key_svc; auto|exact F].
Qed.

Lemma same_compared : forall xs mp mf p, pf_wires xs -> exact o xs 0 mp -> exact o xs 1 mf ->
  (forall k v, In (k, v) p -> In (k, v) mp) ->
  exists w, compared o xs (svcs_of p) w /\
    pf_same p mf = match w with Same => Ok true | Differ => Ok false | Lost => Fail Uncaught end.
Proof.
  intros xs mp mf p W (Mp & Ap & Bp) (Mf & Af & Bf). induction p as [|[k v] p IH]; intros Sub.
  - exists Same. split; [constructor|reflexivity].
  - destruct IH as (w & Cw & Ew); [intros; apply Sub; right; auto|]. cbn [svcs_of map fst pf_same].
    pose proof (Sub k v (or_introl eq_refl)) as H. apply (mfind_In _ mp k v Mp) in H.
    destruct (Ap _ _ H) as (y & Ly & Ky & Vy). destruct (last_for_counts _ _ _ _ _ Ly) as (Iy & Cy & _).
    rewrite (key_svc y k (W y Iy) Cy Ky). destruct (mfind k mf) as [u|] eqn:F.
    + destruct (Af _ _ F) as (z & Lz & Kz & Vz). destruct (last_for_counts _ _ _ _ _ Lz) as (Iz & Cz & _).
      assert (S : service_of y = service_of z) by (apply (key_service o y z k); auto). rewrite <- S in Lz.
      destruct (Z.eqb_spec u v) as [E|E]; cbn [negb].
      * exists w. split; [|exact Ew]. eapply Cmp_same; eauto. congruence.
      * exists Differ. split; [|reflexivity]. eapply Cmp_differ; eauto. congruence.
    + exists Lost. split; [|reflexivity]. apply Cmp_lost. intros z Lz.
      destruct (last_for_counts _ _ _ _ _ Lz) as (Iz & Cz & S & _).
      assert (Kz : key_of z k) by (apply (key_service o y z k); auto).
      rewrite <- S in Lz. rewrite (Bf z Lz k Kz) in F. discriminate.
Qed.

Lemma len_svcs : forall m, List.length (svcs_of m) = List.length m.
Proof. intros. apply map_length. Qed.

Lemma pf_exact : forall xs s p, pf_wires (xs ++ p) -> pf_handle_all mjd o pf_init xs = Ok s ->
  (forall x, In x p -> consistent x) ->
  exists s' present following, pf_handle_all mjd o pf_init (xs ++ p) = Ok s' /\
    arrived o (xs ++ p) 0 present /\ arrived o (xs ++ p) 1 following /\
    (short o present following -> pf_HandlePacket mjd o s p = Ok (s', true)) /\
    (~ short o present following -> ~ (po_present o = true /\ po_following o = true) ->
       pf_HandlePacket mjd o s p = Ok (s', false)) /\
    (~ short o present following -> po_present o = true -> po_following o = true ->
       exists v, compared o (xs ++ p) present v /\
         pf_HandlePacket mjd o s p = match v with Same => Ok (s', false) | Differ => Ok (s', true) | Lost => Fail Uncaught end).
Proof.
  intros xs s p W H C. destruct (pf_takes mjd o Hmjd p xs s W H C) as (s' & R).
  assert (H' : pf_handle_all mjd o pf_init (xs ++ p) = Ok s') by (rewrite handle_all_app, H; exact R).
  pose proof (pinv_run mjd o _ _ W H') as [P F].
  exists s', (svcs_of (pf_present s')), (svcs_of (pf_following s')). split; [exact H'|].
  split; [apply exact_arrived; auto|]. split; [apply exact_arrived; auto|].
  unfold pf_HandlePacket. rewrite R. cbn [bind]. unfold pf_Done, short. rewrite !len_svcs.
  destruct (same_compared _ _ _ (pf_present s') W P F) as (w & Cw & Ew); [auto|].
  rewrite Ew. unfold zlen.
  destruct (po_streaming o); cbn [bind negb]; [split; [reflexivity|split; intros N; exfalso; apply N; auto]|].
  destruct (po_present o); cbn [andb].
  - destruct (Z.eqb_spec (Z.of_nat (List.length (pf_present s'))) (Z.of_nat (List.length (po_sids o)))) as [E1|E1]; cbn [negb].
    2:{ split; [reflexivity|]. split; intros N; exfalso; apply N; right; left; split; auto; lia. }
    destruct (po_following o); cbn [andb].
    + destruct (Z.eqb_spec (Z.of_nat (List.length (pf_following s'))) (Z.of_nat (List.length (po_sids o)))) as [E2|E2]; cbn [negb].
      2:{ split; [reflexivity|]. split; intros N; exfalso; apply N; right; right; split; auto; lia. }
      split; [intros [N|[[_ N]|[_ N]]]; [discriminate|lia|lia]|]. split; [intros _ N; exfalso; apply N; auto|].
      intros _ _ _. exists w. split; [exact Cw|]. destruct w; reflexivity.
    + split; [intros [N|[[_ N]|[N _]]]; [discriminate|lia|discriminate]|]. split; [reflexivity|]. intros; discriminate.
  - destruct (po_following o); cbn [andb].
    + destruct (Z.eqb_spec (Z.of_nat (List.length (pf_following s'))) (Z.of_nat (List.length (po_sids o)))) as [E2|E2]; cbn [negb].
      2:{ split; [reflexivity|]. split; intros N; exfalso; apply N; right; right; split; auto; lia. }
      split; [intros [N|[[N _]|[_ N]]]; [discriminate|discriminate|lia]|]. split; [reflexivity|]. intros; discriminate.
    + split; [intros [N|[[N _]|[N _]]]; discriminate|]. split; [reflexivity|]. intros; discriminate.
Qed.

End Pf.

(** The specification leaves no choice. *)
Lemma sorted_unique : forall A (R : A -> A -> Prop) (l1 l2 : list A), (forall x, ~ R x x) -> (forall x y, R x y -> ~ R y x) ->
  StronglySorted R l1 -> StronglySorted R l2 -> (forall x, In x l1 <-> In x l2) -> l1 = l2.
Proof.
  intros A R l1. induction l1 as [|a l1 IH]; intros [|b l2] I N S1 S2 E; auto.
  - exfalso. apply (proj2 (E b)). left; auto.
  - exfalso. apply (proj1 (E a)). left; auto.
  - inversion S1 as [|? ? S1' F1]; subst. inversion S2 as [|? ? S2' F2]; subst.
    rewrite Forall_forall in F1, F2.
    assert (a = b).
    { destruct (proj1 (E a) (or_introl eq_refl)) as [->|Ha]; auto.
      destruct (proj2 (E b) (or_introl eq_refl)) as [->|Hb]; auto.
      exfalso. exact (N _ _ (F1 _ Hb) (F2 _ Ha)). }
    subst b. f_equal. apply IH; auto. intros x. split; intros Hx.
    + destruct (proj1 (E x) (or_intror Hx)) as [->|]; auto. exfalso. exact (I _ (F1 _ Hx)).
    + destruct (proj2 (E x) (or_intror Hx)) as [->|]; auto. exfalso. exact (I _ (F2 _ Hx)).
Qed.

Lemma arrived_unique : forall o xs n a b, arrived o xs n a -> arrived o xs n b -> a = b.
Proof.
  intros o xs n a b [Sa Ea] [Sb Eb]. apply (sorted_unique _ before); auto.
  - intros [[? ?] ?] H. unfold before in H. lia.
  - intros [[? ?] ?] [[? ?] ?] H K. unfold before in *. lia.
  - intros x. rewrite Ea, Eb. tauto.
Qed.

Lemma compared_unique : forall o xs l v w, compared o xs l v -> compared o xs l w -> v = w.
Proof.
  intros o xs l v w H.
  assert (U : forall svc n a b, last_for o xs svc n a -> last_for o xs svc n b -> a = b) by
    (intros; eapply (last_for_unique (fun _ => None) o); eauto).
  revert w. induction H as [|svc r v y z Hy Hz E H IH|svc r y z Hy Hz E|svc r N]; intros w K;
    inversion K as [|? ? ? y' z' Hy' Hz' E'|? ? y' z' Hy' Hz' E'|? ? N']; subst; auto;
    try (rewrite (U _ _ _ _ Hy Hy'), (U _ _ _ _ Hz Hz') in E; contradiction); exfalso; firstorder.
Qed.
