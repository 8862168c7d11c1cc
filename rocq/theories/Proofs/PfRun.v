(** Proofs about whole runs of collect-eitpf. *)
From Coq Require Import ZArith List Bool Lia.
From Verif Require Import Base.Outcome Base.Util Model.Sink Model.EitSection Model.EitpfCollector
  Proofs.EitSectionProofs Proofs.PfProofs Spec.EitSpec Spec.PfSpec Spec.FeedSpec.
Import ListNotations.
Open Scope Z_scope.

Section Run.
Variable mjd : list Z -> option Z.
Variable o : pf_option.
Hypothesis Hmjd : sane_mjd mjd.

Lemma last_for_dec : forall xs svc n, (exists y, last_for o xs svc n y) \/ forall y, ~ last_for o xs svc n y.
Proof.
  induction xs as [|x xs IH] using rev_ind; intros svc n.
  - right. intros y (pre & post & E & _). destruct pre; discriminate.
  - assert (D : (pf_counts o x /\ service_of x = svc /\ sn_number x = n) \/ ~ (pf_counts o x /\ service_of x = svc /\ sn_number x = n)).
    { destruct (counts_dec mjd o x) as [C|C]; [|tauto]. destruct (Z.eq_dec (sn_number x) n); [|tauto].
      destruct svc as [[a b] c]. destruct (service_of x) as [[a' b'] c'].
      destruct (Z.eq_dec a' a); [|right; intros (_ & E & _); congruence]. destruct (Z.eq_dec b' b); [|right; intros (_ & E & _); congruence].
      destruct (Z.eq_dec c' c); [|right; intros (_ & E & _); congruence]. left. subst. auto. }
    destruct D as [[C [S N]]|D].
    + left. exists x, xs, []. split; [reflexivity|]. do 3 (split; [assumption|]). intros z [].
    + destruct (IH svc n) as [[y L]|L].
      * left. destruct L as (pre & post & E & C & S & N & A). exists y, pre, (post ++ [x]). rewrite E, <- app_assoc. split; [reflexivity|].
        do 3 (split; [assumption|]). intros z Hz. apply in_app_iff in Hz as [Hz|[<-|[]]]; [auto|]. intros Cz Sz Nz. apply D. auto.
      * right. intros y (pre & post & E & C & S & N & A). destruct post as [|z post _] using rev_ind.
        { apply app_inj_tail in E as [_ ->]. apply D. auto. }
        rewrite app_comm_cons, app_assoc in E. apply app_inj_tail in E as [-> ->]. apply (L y). exists pre, post.
        split; [reflexivity|]. do 3 (split; [assumption|]). intros w Hw. apply A. apply in_app_iff. auto.
Qed.

Lemma changed_dec : forall xs x, changed o xs x \/ ~ changed o xs x.
Proof.
  intros xs x. destruct (last_for_dec xs (service_of x) (sn_number x)) as [[y L]|L].
  - destruct (Z.eq_dec (sn_version y) (sn_version x)) as [E|N].
    + right. intros H. exact (H y L E).
    + left. intros z Lz. rewrite (last_for_unique mjd o _ _ _ _ _ Lz L). exact N.
  - left. intros y Ly. destruct (L y Ly).
Qed.

Lemma selected_dec : forall x, pf_selected o x \/ ~ pf_selected o x.
Proof.
  intros x. unfold pf_selected. destruct (Z.eq_dec (sn_number x) 0), (Z.eq_dec (sn_number x) 1), (po_present o), (po_following o);
    try tauto; right; intros [[A B]|[A B]]; (congruence || contradiction).
Qed.

(** The documents of the sections handled. *)
Lemma pf_news : forall xs, pf_wires xs -> (forall x, In x xs -> consistent x) ->
  exists s ys, pf_handle_all mjd o pf_init xs = Ok s /\ news o xs ys /\ Forall2 (describes mjd) ys (pf_out s).
Proof.
  induction xs as [|x xs IH] using rev_ind; intros W C.
  - exists pf_init, []. split; [reflexivity|]. split; constructor.
  - assert (W1 : pf_wires xs) by (intros y Hy; apply W; apply in_app_iff; auto).
    destruct IH as (s & ys & H & N & D); [exact W1|intros y Hy; apply C; apply in_app_iff; auto|].
    assert (Ix : In x (xs ++ [x])) by (apply in_app_iff; right; left; auto).
    destruct (pf_output mjd o Hmjd xs s x W1 (W x Ix) H) as [A B].
    assert (Dec : (pf_counts o x /\ changed o xs x /\ pf_selected o x) \/ ~ (pf_counts o x /\ changed o xs x /\ pf_selected o x)).
    { destruct (counts_dec mjd o x), (changed_dec xs x), (selected_dec x); tauto. }
    destruct Dec as [[C1 [C2 C3]]|Nn].
    + destruct (proj1 (A C1 C2 C3) (C x Ix)) as (s' & d & E & O & Dd). exists s', (ys ++ [x]).
      split; [rewrite handle_all_app, H; cbn [bind pf_handle_all]; rewrite E; reflexivity|].
      split; [apply N_new; auto|]. rewrite O. apply Forall2_app; auto.
    + destruct (B Nn) as (s' & E & O). exists s', ys.
      split; [rewrite handle_all_app, H; cbn [bind pf_handle_all]; rewrite E; reflexivity|].
      split; [apply N_old; auto|]. rewrite O. exact D.
Qed.

Definition all_complete (xs : list section) : Prop := forall sid, In sid (po_sids o) -> complete o xs sid.

Lemma pf_loop : forall ps xs s n, pf_wires (xs ++ concat ps) -> (forall x, In x (xs ++ concat ps) -> consistent x) ->
  pf_handle_all mjd o pf_init xs = Ok s -> (length ps < n)%nat ->
  (po_streaming o = true ->
     exists s', feed_loop (list_source _) (pf_sink mjd o) n ps s = Some (Ok s') /\ pf_handle_all mjd o pf_init (xs ++ concat ps) = Ok s') /\
  (po_streaming o = false -> one_stream o (xs ++ concat ps) -> po_sids o <> [] -> NoDup (po_sids o) ->
   po_present o = true \/ po_following o = true ->
     exists s' handled rest, feed_loop (list_source _) (pf_sink mjd o) n ps s = Some (Ok s') /\ ps = handled ++ rest /\
       pf_handle_all mjd o pf_init (xs ++ concat handled) = Ok s' /\
       (forall k, (0 < k < length handled)%nat -> ~ all_complete (xs ++ concat (firstn k handled))) /\
       (rest <> [] -> all_complete (xs ++ concat handled))).
Proof.
  induction ps as [|p ps IH]; intros xs s n W C H Hn; (destruct n as [|n]; [cbn in Hn; lia|]); cbn [feed_loop list_source sr_next concat] in *.
  - rewrite app_nil_r in *. split.
    + intros _. exists s. auto.
    + intros _ _ _ _ _. exists s, [], []. cbn. rewrite app_nil_r. repeat split; auto; intros; try lia. congruence.
  - rewrite app_assoc in W, C.
    assert (Wp : pf_wires (xs ++ p)) by (intros y Hy; apply W; apply in_app_iff; auto).
    assert (Cp : forall x, In x (xs ++ p) -> consistent x) by (intros y Hy; apply C; apply in_app_iff; auto).
    destruct (pf_news (xs ++ p) Wp Cp) as (s1 & _ & H1 & _).
    assert (Hp : pf_handle_all mjd o s p = Ok s1) by (rewrite handle_all_app, H in H1; exact H1).
    destruct (IH (xs ++ p) s1 n W C H1 ltac:(cbn in Hn; lia)) as [I1 I2]. cbn [pf_sink sk_handle]. unfold pf_HandlePacket. rewrite Hp. cbn [bind].
    rewrite app_assoc. split.
    + intros St. unfold pf_Done. rewrite St. cbn [bind negb]. apply I1. exact St.
    + intros St O Ne ND Sel.
      assert (Op : one_stream o (xs ++ p)).
      { intros a b Ha Hb. apply O; apply in_app_iff; auto. }
      destruct (pf_done mjd o (xs ++ p) s1 Wp Op H1 Ne ND St Sel) as (done & Ed & Q). rewrite Ed. cbn [bind].
      destruct done; cbn [negb].
      * exists s1, [p], ps. cbn [concat]. rewrite app_nil_r. split; [reflexivity|]. split; [reflexivity|]. split; [exact H1|].
        split; [intros k Hk; cbn in Hk; lia|]. intros _. exact (proj1 Q eq_refl).
      * destruct (I2 St O Ne ND Sel) as (s' & handled & rest & E & -> & Eh & A & B).
        exists s', (p :: handled), rest. cbn [concat]. rewrite app_assoc. split; [exact E|]. split; [reflexivity|]. split; [exact Eh|].
        split; [|exact B]. intros k Hk. destruct k as [|[|k]]; [lia| |].
        -- cbn [firstn concat]. rewrite app_nil_r. intros X. discriminate (proj2 Q X).
        -- cbn [firstn concat]. rewrite app_assoc. change (match handled with [] => [] | a :: l => a :: firstn k l end) with (firstn (S k) handled).
           apply A. cbn in Hk. lia.
Qed.

Lemma pf_run : forall ps n, pf_wires (concat ps) -> (forall x, In x (concat ps) -> consistent x) -> (length ps < n)%nat ->
  po_streaming o = true \/
  (po_streaming o = false /\ one_stream o (concat ps) /\ po_sids o <> [] /\ NoDup (po_sids o) /\ (po_present o = true \/ po_following o = true)) ->
  exists s ys handled rest, FeedPackets (list_source _) (pf_sink mjd o) n ps pf_init = Some (Ok (0, s)) /\
    ps = handled ++ rest /\ news o (concat handled) ys /\ Forall2 (describes mjd) ys (pf_out s) /\
    (po_streaming o = true -> rest = []) /\
    (po_streaming o = false -> forall k, (0 < k < length handled)%nat -> ~ all_complete (concat (firstn k handled))) /\
    (rest <> [] -> all_complete (concat handled)).
Proof.
  intros ps n W C Hn Hyp. destruct (pf_loop ps [] pf_init n W C eq_refl Hn) as [L1 L2].
  unfold FeedPackets. change (sk_start (pf_sink mjd o) pf_init) with (Ok (pf_init, true)). cbv iota beta.
  assert (F : forall l, incl l (concat ps) -> forall s, pf_handle_all mjd o pf_init l = Ok s -> exists ys, news o l ys /\ Forall2 (describes mjd) ys (pf_out s)).
  { intros l Hl s E. destruct (pf_news l) as (s' & ys & E' & N & D); [intros x Hx; apply W; auto|intros x Hx; apply C; auto|].
    rewrite E in E'. injection E' as <-. eauto. }
  destruct Hyp as [St|(St & O & Ne & ND & Sel)].
  - destruct (L1 St) as (s & E & H). rewrite E. cbn [app] in H. destruct (F _ (incl_refl _) s H) as (ys & N & D).
    exists s, ys, ps, []. rewrite app_nil_r. split; [reflexivity|]. do 4 (split; [auto|]). split; [congruence|congruence].
  - destruct (L2 St O Ne ND Sel) as (s & handled & rest & E & -> & H & A & B). rewrite E. cbn [app] in H.
    destruct (F (concat handled)) with (s := s) as (ys & N & D); [rewrite concat_app; intros x Hx; apply in_app_iff; auto|exact H|].
    exists s, ys, handled, rest. split; [reflexivity|]. do 3 (split; [auto|]). split; [congruence|]. split; auto.
Qed.

End Run.
