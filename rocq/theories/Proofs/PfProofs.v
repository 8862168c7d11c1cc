(** Proofs about collect-eitpf. *)
From Coq Require Import ZArith List Bool Lia.
From Verif Require Import Base.Outcome Base.Util Model.Sink Model.EitSection Model.EitCollector Model.EitpfCollector
  Proofs.EitSectionProofs Spec.EitSpec Spec.PfSpec.
Import ListNotations.
Open Scope Z_scope.

Section Pf.
Variable mjd : list Z -> option Z.
Variable o : pf_option.

Definition key_of (x : section) (k : Z) : Prop := exists e, EitSection x = Ok e /\ service_triple e = k.

Lemma counts_dec : forall x, pf_counts o x \/ ~ pf_counts o x.
Proof.
  intros x. unfold pf_counts.
  destruct (sn_valid x); [|right; intros (H & _); discriminate].
  destruct (sn_next x); [right; intros (_ & H & _); discriminate|].
  destruct (Z.eq_dec (sn_tid x) 0x4E); [|right; tauto].
  destruct (Z_le_dec 6 (zlen (sn_payload x))) as [Hl|Hl]; [|right; tauto].
  destruct (Z.eq_dec (sn_number x) 0); [|destruct (Z.eq_dec (sn_number x) 1); [|right; tauto]];
    (destruct (po_sids o) as [|a r]; [left; tauto|]);
    (destruct (in_dec Z.eq_dec (sid_of x) (a :: r)); [left; tauto|right; intros (_ & _ & _ & _ & _ & [H|H]); [discriminate|contradiction]]).
Qed.

(** What handleSection does to a section that does not count, and to one that
    does. *)
Lemma pf_ignored : forall s x, ~ pf_counts o x -> pf_handleSection mjd o s x = Ok s.
Proof.
  intros s x N. unfold pf_handleSection.
  destruct (sn_valid x) eqn:V; cbn [negb]; [|reflexivity].
  destruct (Z.eqb_spec (sn_tid x) 0x4E) as [T|T]; cbn [negb]; [|reflexivity].
  unfold EIT_PAYLOAD_FIXED_SIZE. destruct (Z.ltb_spec (zlen (sn_payload x)) 6) as [L|L]; [reflexivity|].
  destruct (sn_next x) eqn:Nx; [reflexivity|].
  destruct (EitSection_parsed x L) as (e & He & P). rewrite He. cbn [bind].
  destruct P as (_ & P1 & _ & _ & _ & _ & P7 & _). rewrite P1, P7.
  change (sn_ext x) with (sid_of x).
  destruct (negb (ss_IsEmpty (po_sids o)) && negb (ss_Contain (po_sids o) (sid_of x))) eqn:S; [reflexivity|].
  assert (Hin : po_sids o = [] \/ In (sid_of x) (po_sids o)).
  { destruct (po_sids o) as [|z l] eqn:E; [auto|]. right. cbn [ss_IsEmpty negb andb] in S.
    apply negb_false_iff in S. apply zmem_In in S. exact S. }
  destruct (Z.eqb_spec (sn_number x) 0); [exfalso; apply N; unfold pf_counts; auto 10|].
  destruct (Z.eqb_spec (sn_number x) 1); [exfalso; apply N; unfold pf_counts; auto 10|].
  reflexivity.
Qed.

Definition map_for (s : pf_state) (n : Z) : list (Z * Z) := if n =? 0 then pf_present s else pf_following s.

Definition sel (n : Z) : bool := if n =? 0 then po_present o else po_following o.

Lemma pf_counted : forall s x, pf_counts o x -> exists e, EitSection x = Ok e /\ parsed x e /\
  pf_handleSection mjd o s x =
  (if pf_IsCollected e (map_for s (sn_number x)) then Ok s
   else let* out := pf_write mjd (pf_out s) e (sel (sn_number x)) in
        Ok (if sn_number x =? 0
            then mkPf (minsert (service_triple e) (ei_version e) (pf_present s)) (pf_following s) out
            else mkPf (pf_present s) (minsert (service_triple e) (ei_version e) (pf_following s)) out)).
Proof.
  intros s x (V & Nx & T & L & K & S).
  destruct (EitSection_parsed x L) as (e & He & P). exists e. do 2 (split; [assumption|]).
  unfold pf_handleSection. rewrite V, T, Nx, He. cbn [negb Z.eqb Pos.eqb bind].
  unfold EIT_PAYLOAD_FIXED_SIZE. destruct (Z.ltb_spec (zlen (sn_payload x)) 6); [lia|].
  destruct P as (_ & P1 & _ & _ & _ & _ & P7 & _). rewrite P1, P7. change (sn_ext x) with (sid_of x).
  assert (C : negb (ss_IsEmpty (po_sids o)) && negb (ss_Contain (po_sids o) (sid_of x)) = false).
  { destruct S as [S|S]; [rewrite S; reflexivity|].
    apply zmem_In in S. unfold ss_Contain. rewrite S. apply andb_false_r. }
  rewrite C. unfold map_for, sel. destruct K as [K|K]; rewrite K; cbn [Z.eqb Pos.eqb];
    destruct (pf_IsCollected e _); reflexivity.
Qed.

(** * Invariant *)

(** The map for kind [n] holds exactly the versions of the last sections. *)
Definition exact (xs : list section) (n : Z) (m : list (Z * Z)) : Prop :=
  is_map m /\
  (forall k v, mfind k m = Some v ->
     exists y, last_for o xs (service_of y) n y /\ key_of y k /\ sn_version y = v) /\
  (forall y, last_for o xs (service_of y) n y -> forall k, key_of y k -> mfind k m = Some (sn_version y)).

Definition pinv (xs : list section) (s : pf_state) : Prop :=
  exact xs 0 (pf_present s) /\ exact xs 1 (pf_following s).

Lemma exact_init : forall n, exact [] n [].
Proof.
  intros n. split; [exact I|]. split.
  - intros k v H. discriminate.
  - intros y (pre & post & H & _). destruct pre; discriminate.
Qed.

Lemma counts_payload : forall x, pf_counts o x -> 6 <= zlen (sn_payload x).
Proof. intros x (_ & _ & _ & H & _). exact H. Qed.

Lemma key_service : forall a b k, wire a -> wire b -> pf_counts o a -> pf_counts o b ->
  key_of a k -> (key_of b k <-> service_of a = service_of b).
Proof.
  intros a b k Wa Wb Ca Cb (ea & Ea & Ka).
  pose proof (EitSection_inv _ _ (counts_payload _ Ca) Ea) as Pa.
  destruct (EitSection_parsed b (counts_payload _ Cb)) as (eb & Eb & Pb).
  pose proof (wire_key a b ea eb Wa Wb (counts_payload _ Ca) (counts_payload _ Cb) Pa Pb) as W.
  split.
  - intros (e' & E' & K'). apply W. congruence.
  - intros H. exists eb. split; [auto|]. apply W in H. congruence.
Qed.

Lemma key_exists : forall x, pf_counts o x -> exists k, key_of x k.
Proof.
  intros x C. destruct (EitSection_parsed x (counts_payload _ C)) as (e & E & _).
  exists (service_triple e), e. auto.
Qed.

Lemma last_for_here : forall xs x n, pf_counts o x -> sn_number x = n ->
  last_for o (xs ++ [x]) (service_of x) n x.
Proof.
  intros xs x n C N. exists xs, []. do 4 (split; [solve [auto]|]). intros z [].
Qed.

Lemma last_for_other : forall xs x svc n y,
  ~ (pf_counts o x /\ service_of x = svc /\ sn_number x = n) ->
  (last_for o (xs ++ [x]) svc n y <-> last_for o xs svc n y).
Proof.
  intros xs x svc n y N. split.
  - intros (pre & post & E & C & S & K & L).
    destruct post as [|z post] using rev_ind.
    + apply app_inj_tail in E as [-> ->]. tauto.
    + rewrite app_comm_cons, app_assoc in E. apply app_inj_tail in E as [-> ->].
      exists pre, post. do 4 (split; [solve [auto]|]). intros w Hw. apply L. apply in_or_app; auto.
  - intros (pre & post & -> & C & S & K & L).
    exists pre, (post ++ [x]). split; [rewrite <- app_assoc; reflexivity|]. do 3 (split; [solve [auto]|]).
    intros w Hw Cw Sw Kw. apply in_app_or in Hw as [Hw|[<-|[]]]; [exact (L w Hw Cw Sw Kw)|tauto].
Qed.

Lemma last_for_unique : forall xs svc n y z, last_for o xs svc n y -> last_for o xs svc n z -> y = z.
Proof.
  intros xs. induction xs as [|x xs IH] using rev_ind; intros svc n y z Hy Hz.
  - destruct Hy as (pre & post & H & _). destruct pre; discriminate.
  - destruct (counts_dec x) as [C|C].
    + destruct (Z.eq_dec (sn_number x) n) as [N|N].
      * assert (D : service_of x = svc \/ service_of x <> svc).
        { destruct (service_of x) as [[a b] c]. destruct svc as [[a' b'] c'].
          destruct (Z.eq_dec a a'); destruct (Z.eq_dec b b'); destruct (Z.eq_dec c c'); subst; auto; right; congruence. }
        destruct D as [D|D].
        -- assert (X : forall w, last_for o (xs ++ [x]) svc n w -> w = x).
           { intros w (pre & post & E & Cw & Sw & Kw & L).
             destruct post as [|v post] using rev_ind.
             - apply app_inj_tail in E as [_ ->]. reflexivity.
             - rewrite app_comm_cons, app_assoc in E. apply app_inj_tail in E as [_ ->].
               exfalso. apply (L v); auto. apply in_or_app; right; left; auto. }
           rewrite (X y Hy), (X z Hz). reflexivity.
        -- rewrite last_for_other in Hy, Hz by tauto. eauto.
      * rewrite last_for_other in Hy, Hz by tauto. eauto.
    + rewrite last_for_other in Hy, Hz by tauto. eauto.
Qed.

Lemma last_for_counts : forall xs svc n y, last_for o xs svc n y ->
  In y xs /\ pf_counts o y /\ service_of y = svc /\ sn_number y = n.
Proof.
  intros xs svc n y (pre & post & -> & C & S & N & _).
  split; [apply in_or_app; right; left; auto|auto].
Qed.

(** A section that does not count, or of the other kind, changes nothing. *)
Lemma exact_other : forall xs x n m, ~ (pf_counts o x /\ sn_number x = n) -> exact xs n m -> exact (xs ++ [x]) n m.
Proof.
  intros xs x n m N (M & A & B). split; [exact M|]. split.
  - intros k v H. destruct (A k v H) as (y & L & K). exists y. split; [|exact K].
    apply last_for_other; [tauto|exact L].
  - intros y L. apply B. apply last_for_other in L; [exact L|tauto].
Qed.

Lemma exact_counted : forall xs x m k, pf_wires xs -> wire x -> pf_counts o x -> key_of x k ->
  exact xs (sn_number x) m -> exact (xs ++ [x]) (sn_number x) (minsert k (sn_version x) m).
Proof.
  intros xs x m k W Wx C Kx (M & A & B). split; [apply is_map_minsert; exact M|]. split.
  - intros k' v H. rewrite mfind_minsert in H. destruct (Z.eqb_spec k' k) as [->|Hk].
    + injection H as <-. exists x. split; [apply last_for_here; auto|]. auto.
    + destruct (A k' v H) as (y & L & Ky & V). exists y. split; [|auto].
      apply last_for_other; [|exact L]. intros (_ & S & _).
      destruct (last_for_counts _ _ _ _ L) as (Hy & Cy & _ & _).
      pose proof (proj2 (key_service x y k Wx (W y Hy) C Cy Kx) S) as (e1 & E1 & F1).
      destruct Ky as (e2 & E2 & F2). congruence.
  - intros y L k' Ky. rewrite mfind_minsert.
    destruct (last_for_counts _ _ _ _ L) as (Hy & Cy & _ & _).
    assert (Wy : wire y) by (apply in_app_or in Hy as [Hy|[<-|[]]]; auto).
    destruct (Z.eqb_spec k' k) as [->|Hk].
    + assert (S : service_of x = service_of y) by (apply (key_service x y k Wx Wy C Cy Kx); exact Ky).
      f_equal. f_equal. apply (last_for_unique (xs ++ [x]) (service_of x) (sn_number x)).
      * apply last_for_here; auto.
      * rewrite S. exact L.
    + apply B; [|exact Ky]. apply last_for_other in L; [exact L|]. intros (_ & S & _).
      apply Hk. pose proof (proj2 (key_service x y k Wx Wy C Cy Kx) S) as (e1 & E1 & F1).
      destruct Ky as (e2 & E2 & F2). congruence.
Qed.

(** A repeated version changes nothing either. *)
Lemma exact_same : forall xs x m k, pf_wires xs -> wire x -> pf_counts o x -> key_of x k ->
  mfind k m = Some (sn_version x) ->
  exact xs (sn_number x) m -> exact (xs ++ [x]) (sn_number x) m.
Proof.
  intros xs x m k W Wx C Kx H E.
  pose proof (exact_counted xs x m k W Wx C Kx E) as (M & A & B).
  assert (Q : forall k', mfind k' (minsert k (sn_version x) m) = mfind k' m).
  { intros k'. rewrite mfind_minsert. destruct (Z.eqb_spec k' k) as [->|]; congruence. }
  split; [apply E|]. split.
  - intros k' v Hk. apply A. rewrite Q. exact Hk.
  - intros y L k' Ky. rewrite <- Q. apply B; auto.
Qed.

Lemma handle_all_app : forall a b s,
  pf_handle_all mjd o s (a ++ b) = let* s1 := pf_handle_all mjd o s a in pf_handle_all mjd o s1 b.
Proof.
  induction a as [|d a IH]; intros b s; cbn [app pf_handle_all bind]; [reflexivity|].
  destruct (pf_handleSection mjd o s d); cbn [bind]; [apply IH|reflexivity].
Qed.

Lemma handle_all_snoc : forall a x s s', pf_handle_all mjd o s (a ++ [x]) = Ok s' ->
  exists s1, pf_handle_all mjd o s a = Ok s1 /\ pf_handleSection mjd o s1 x = Ok s'.
Proof.
  intros a x s s' H. rewrite handle_all_app in H. apply bind_ok in H as (s1 & H1 & H2).
  exists s1. split; auto. cbn [pf_handle_all] in H2. apply bind_ok in H2 as (s2 & H2 & H3). congruence.
Qed.

Lemma collected_find : forall e m, pf_IsCollected e m = true <-> mfind (service_triple e) m = Some (ei_version e).
Proof.
  intros e m. unfold pf_IsCollected. destruct (mfind (service_triple e) m) as [v|]; [|split; discriminate].
  rewrite Z.eqb_eq. split; congruence.
Qed.

Lemma pinv_run : forall xs s, pf_wires xs -> pf_handle_all mjd o pf_init xs = Ok s -> pinv xs s.
Proof.
  intros xs. induction xs as [|x xs IH] using rev_ind; intros s W H.
  - cbn in H. injection H as <-. split; apply exact_init.
  - destruct (handle_all_snoc _ _ _ _ H) as (s1 & H1 & H2).
    assert (W1 : pf_wires xs) by (intros y Hy; apply W; apply in_or_app; auto).
    assert (Wx : wire x) by (apply W; apply in_or_app; right; left; auto).
    destruct (IH _ W1 H1) as [P F].
    destruct (counts_dec x) as [C|C].
    2:{ rewrite pf_ignored in H2 by auto. injection H2 as <-.
        split; (apply exact_other; [tauto|assumption]). }
    destruct (pf_counted s1 x C) as (e & He & Pe & Eq). rewrite Eq in H2. clear Eq.
    assert (K : key_of x (service_triple e)) by (exists e; auto).
    assert (V : ei_version e = sn_version x) by apply Pe.
    assert (N : sn_number x = 0 \/ sn_number x = 1) by (destruct C as (_ & _ & _ & _ & N & _); exact N).
    destruct (pf_IsCollected e (map_for s1 (sn_number x))) eqn:E.
    + injection H2 as <-. apply collected_find in E. rewrite V in E.
      unfold map_for in E.
      destruct N as [N|N]; rewrite N in E; cbn [Z.eqb] in E; split;
        try (apply exact_other; [lia|assumption]).
      * rewrite <- N in *. apply exact_same with (service_triple e); auto.
      * rewrite <- N in *. apply exact_same with (service_triple e); auto.
    + apply bind_ok in H2 as (out & _ & H2). injection H2 as <-. rewrite V.
      destruct N as [N|N]; rewrite N; cbn [Z.eqb]; split; cbn [pf_present pf_following];
        try (apply exact_other; [lia|assumption]).
      * rewrite <- N in *. apply exact_counted; auto.
      * rewrite <- N in *. apply exact_counted; auto.
Qed.

Hypothesis Hmjd : sane_mjd mjd.

(** * When a section is output *)

Lemma sel_iff : forall x, pf_counts o x -> (sel (sn_number x) = true <-> pf_selected o x).
Proof.
  intros x C. unfold sel, pf_selected. destruct C as (_ & _ & _ & _ & [N|N] & _); rewrite N; cbn [Z.eqb];
    split; intros H; auto; destruct H as [[A B]|[A B]]; auto; lia.
Qed.

Lemma pf_output : forall xs s x, pf_wires xs -> wire x -> pf_handle_all mjd o pf_init xs = Ok s ->
  (pf_counts o x -> changed o xs x -> pf_selected o x ->
     (consistent x -> exists s' d, pf_handleSection mjd o s x = Ok s' /\ pf_out s' = pf_out s ++ [d] /\ describes mjd x d) /\
     (~ consistent x -> pf_handleSection mjd o s x = Fail Undefined)) /\
  (~ (pf_counts o x /\ changed o xs x /\ pf_selected o x) ->
     exists s', pf_handleSection mjd o s x = Ok s' /\ pf_out s' = pf_out s).
Proof.
  intros xs s x W Wx H. pose proof (pinv_run _ _ W H) as [P F].
  assert (Ex : pf_counts o x -> exact xs (sn_number x) (map_for s (sn_number x))).
  { intros (_ & _ & _ & _ & [N|N] & _); rewrite N; auto. }
  assert (Col : pf_counts o x -> forall e, EitSection x = Ok e -> parsed x e ->
            (pf_IsCollected e (map_for s (sn_number x)) = true <-> ~ changed o xs x)).
  { intros C e He Pe. destruct (Ex C) as (M & A & B). rewrite collected_find.
    assert (K : key_of x (service_triple e)) by (exists e; auto).
    assert (V : ei_version e = sn_version x) by apply Pe. rewrite V. split.
    - intros Hf Hch. destruct (A _ _ Hf) as (y & L & Ky & Vy).
      destruct (last_for_counts _ _ _ _ L) as (Hy & Cy & _ & _).
      assert (S : service_of x = service_of y) by (apply (key_service x y _ Wx (W y Hy) C Cy K); exact Ky).
      apply (Hch y); auto. rewrite S. exact L.
    - intros Hch. destruct (mfind (service_triple e) (map_for s (sn_number x))) as [v|] eqn:Hf.
      + destruct (Z.eq_dec v (sn_version x)) as [->|Hne]; [reflexivity|exfalso].
        apply Hch. intros y L.
        destruct (A _ _ Hf) as (y' & L' & Ky' & Vy').
        destruct (last_for_counts _ _ _ _ L') as (Hy' & Cy' & _ & _).
        assert (S : service_of x = service_of y') by (apply (key_service x y' _ Wx (W y' Hy') C Cy' K); exact Ky').
        rewrite <- S in L'. rewrite (last_for_unique _ _ _ _ _ L L'). congruence.
      + exfalso. apply Hch. intros y L.
        destruct (last_for_counts _ _ _ _ L) as (Hy & Cy & Sy & Ny).
        assert (Ky : key_of y (service_triple e)) by (apply (key_service x y _ Wx (W y Hy) C Cy K); auto).
        rewrite <- Sy in L. rewrite (B y L _ Ky) in Hf. discriminate. }
  split.
  - intros C Hch Hsel. destruct (pf_counted s x C) as (e & He & Pe & Eq). rewrite Eq.
    destruct (pf_IsCollected e (map_for s (sn_number x))) eqn:E.
    { apply (Col C e He Pe) in E. contradiction. }
    apply (sel_iff x C) in Hsel. unfold pf_write. rewrite Hsel.
    destruct (doc_cases mjd Hmjd x e Wx (counts_payload _ C) He) as [(Cx & d & Hd & D)|(Nx & Hf)].
    + split; [intros _|contradiction]. rewrite Hd. cbn [bind].
      destruct (sn_number x =? 0); do 2 eexists; (split; [reflexivity|]); (split; [reflexivity|exact D]).
    + split; [contradiction|intros _]. rewrite Hf. reflexivity.
  - intros Hn. destruct (counts_dec x) as [C|C]; [|exists s; split; [apply pf_ignored; auto|auto]].
    destruct (pf_counted s x C) as (e & He & Pe & Eq). rewrite Eq.
    destruct (pf_IsCollected e (map_for s (sn_number x))) eqn:E; [eauto|].
    assert (Hs : sel (sn_number x) = false).
    { destruct (sel (sn_number x)) eqn:S; [exfalso|reflexivity]. apply (sel_iff x C) in S.
      apply Hn. split; [auto|]. split; [|auto].
      intros y L. pose proof (proj2 (Col C e He Pe)) as X.
      destruct (Z.eq_dec (sn_version y) (sn_version x)) as [Q|Q]; [|exact Q].
      rewrite X in E; [discriminate|]. intros Hch. apply (Hch y L Q). }
    unfold pf_write. rewrite Hs. cbn [bind]. destruct (sn_number x =? 0); eauto.
Qed.

(** * The end of the collection *)

Lemma msorted_lt : forall V (m : list (Z * V)) lo k v, msorted lo m -> In (k, v) m -> lo < k.
Proof.
  induction m as [|[k' v'] m IH]; intros lo k v H Hin; [destruct Hin|].
  destruct H as [H1 H2]. destruct Hin as [[= <- <-]|Hin]; [auto|]. specialize (IH _ _ _ H2 Hin). lia.
Qed.

Lemma keys_NoDup : forall V (m : list (Z * V)), is_map m -> NoDup (map fst m).
Proof.
  intros V m H. apply is_map_msorted in H as [lo H]. revert lo H.
  induction m as [|[k v] m IH]; intros lo H; cbn [map fst]; [constructor|].
  destruct H as [H1 H2]. constructor; [|eauto].
  intros Hin. apply in_map_iff in Hin as ((k', v') & E & Hin). cbn in E. subst.
  apply (msorted_lt _ _ _ _ _ H2) in Hin. lia.
Qed.

Definition sid_of_key (k : Z) : Z := Z.land (Z.shiftr k 16) 0xFFFF.

Lemma key_sid : forall x k, wire x -> pf_counts o x -> key_of x k -> sid_of_key k = sid_of x.
Proof.
  intros x k W C (e & E & <-). pose proof (EitSection_inv _ _ (counts_payload _ C) E) as P.
  destruct (wire_ranges _ _ W (counts_payload _ C) P) as (R1 & R2 & R3).
  unfold sid_of_key. destruct (triple_fields e R1 R2 R3) as (_ & _ & ->). apply P.
Qed.

Lemma pf_same_cases : forall p f,
  (forall k v, In (k, v) p -> mfind k f <> None) ->
  (pf_same p f = Ok true /\ (forall k v, In (k, v) p -> mfind k f = Some v)) \/
  (pf_same p f = Ok false /\ exists k v, In (k, v) p /\ mfind k f <> Some v).
Proof.
  induction p as [|[k v] p IH]; intros f H; cbn [pf_same].
  - left. split; [reflexivity|]. intros ? ? [].
  - destruct (mfind k f) as [w|] eqn:E; [|exfalso; apply (H k v); [left; auto|exact E]].
    destruct (Z.eqb_spec w v) as [->|Hne]; cbn [negb].
    + destruct (IH f) as [[A B]|[A B]].
      * intros k' v' Hin. apply (H k' v'). right; auto.
      * left. split; [exact A|]. intros k' v' [[= <- <-]|Hin]; auto.
      * right. split; [exact A|]. destruct B as (k' & v' & B1 & B2). exists k', v'. split; [right; auto|auto].
    + right. split; [reflexivity|]. exists k, v. split; [left; auto|]. rewrite E. congruence.
Qed.

Lemma received_all : forall xs n m, pf_wires xs -> one_stream o xs -> exact xs n m ->
  po_sids o <> [] -> NoDup (po_sids o) ->
  (zlen m = zlen (po_sids o) <->
   forall sid, In sid (po_sids o) -> exists y, last_for o xs (service_of y) n y /\ sid_of y = sid).
Proof.
  intros xs n m W O (M & A & B) Hne ND.
  set (L := map (fun p => sid_of_key (fst p)) m).
  assert (Mem : forall k v, In (k, v) m -> exists y, last_for o xs (service_of y) n y /\ key_of y k /\ sid_of_key k = sid_of y).
  { intros k v Hin. apply mfind_In in Hin; auto. destruct (A k v Hin) as (y & Ly & Ky & _).
    exists y. do 2 (split; [assumption|]). destruct (last_for_counts _ _ _ _ Ly) as (Hy & Cy & _).
    apply key_sid; auto. }
  assert (NDL : NoDup L).
  { unfold L. pose proof (keys_NoDup _ _ M) as NK.
    assert (G : forall q, NoDup (map fst q) -> (forall k v, In (k, v) q -> In (k, v) m) ->
              NoDup (map (fun p : Z * Z => sid_of_key (fst p)) q)).
    { induction q as [|[k v] q IH]; intros N1 N2; cbn [map fst]; [constructor|].
      cbn [map fst] in N1. inversion N1 as [|? ? N3 N4]; subst. constructor.
      - intros Hin. apply in_map_iff in Hin as ((k', v') & E & Hin). cbn [fst] in E.
        destruct (Mem k v) as (y & Ly & Ky & Sy); [apply N2; left; auto|].
        destruct (Mem k' v') as (y' & Ly' & Ky' & Sy'); [apply N2; right; auto|].
        destruct (last_for_counts _ _ _ _ Ly) as (Hy & Cy & _ & _).
        destruct (last_for_counts _ _ _ _ Ly') as (Hy' & Cy' & _ & _).
        assert (S : service_of y = service_of y') by (apply O; auto; congruence).
        assert (K2 : key_of y' k) by (apply (key_service y y' k (W y Hy) (W y' Hy') Cy Cy' Ky); exact S).
        destruct Ky' as (e1 & E1 & F1). destruct K2 as (e2 & E2 & F2).
        assert (Q : k = k') by congruence. rewrite <- Q in Hin.
        apply N3. apply in_map_iff. exists (k, v'). split; [reflexivity|exact Hin].
      - apply IH; auto. intros k' v' Hin. apply N2. right; auto. }
    apply G; auto. }
  assert (Inc : incl L (po_sids o)).
  { intros sid Hin. unfold L in Hin. apply in_map_iff in Hin as ((k, v) & E & Hin). cbn [fst] in E.
    destruct (Mem k v Hin) as (y & Ly & Ky & Sy).
    destruct (last_for_counts _ _ _ _ Ly) as (Hy & Cy & _ & _).
    destruct Cy as (_ & _ & _ & _ & _ & [Cy|Cy]); [contradiction|]. congruence. }
  assert (Len : zlen m = zlen L) by (unfold zlen, L; rewrite map_length; reflexivity).
  rewrite Len. split.
  - intros E sid Hsid.
    assert (Hi : In sid L).
    { refine (NoDup_length_incl NDL _ Inc sid Hsid). unfold zlen in E. lia. }
    unfold L in Hi. apply in_map_iff in Hi as ((k, v) & E2 & Hin). cbn [fst] in E2.
    destruct (Mem k v Hin) as (y & Ly & Ky & Sy). exists y. split; [auto|congruence].
  - intros H.
    assert (I2 : incl (po_sids o) L).
    { intros sid Hsid. destruct (H sid Hsid) as (y & Ly & Sy).
      destruct (last_for_counts _ _ _ _ Ly) as (Hy & Cy & _ & _).
      destruct (key_exists y Cy) as (k & Ky).
      unfold L. apply in_map_iff. exists (k, sn_version y). split.
      - cbn [fst]. rewrite (key_sid y k); auto.
      - apply mfind_In; [exact M|]. apply B; auto. }
    pose proof (NoDup_incl_length NDL Inc). pose proof (NoDup_incl_length ND I2). unfold zlen. lia.
Qed.

Lemma pf_done : forall xs s, pf_wires xs -> one_stream o xs -> pf_handle_all mjd o pf_init xs = Ok s ->
  po_sids o <> [] -> NoDup (po_sids o) -> po_streaming o = false ->
  po_present o = true \/ po_following o = true ->
  exists done, pf_Done o s = Ok done /\
    (done = true <-> forall sid, In sid (po_sids o) -> complete o xs sid).
Proof.
  intros xs s W O H Hne ND St Sel. pose proof (pinv_run _ _ W H) as [P F].
  pose proof (received_all xs 0 _ W O P Hne ND) as RP.
  pose proof (received_all xs 1 _ W O F Hne ND) as RF.
  assert (Svc : forall y, service_of y = (nid_of y, tsid_of y, sid_of y)) by reflexivity.
  assert (Cp : forall sid, complete o xs sid -> po_present o = true ->
            exists y, last_for o xs (service_of y) 0 y /\ sid_of y = sid).
  { intros sid (nid & tsid & C1 & _) E. destruct (C1 E) as (y & Ly). exists y.
    destruct (last_for_counts _ _ _ _ Ly) as (_ & _ & S & _). rewrite S. split; [exact Ly|].
    rewrite Svc in S. congruence. }
  assert (Cf : forall sid, complete o xs sid -> po_following o = true ->
            exists y, last_for o xs (service_of y) 1 y /\ sid_of y = sid).
  { intros sid (nid & tsid & _ & C1 & _) E. destruct (C1 E) as (y & Ly). exists y.
    destruct (last_for_counts _ _ _ _ Ly) as (_ & _ & S & _). rewrite S. split; [exact Ly|].
    rewrite Svc in S. congruence. }
  unfold pf_Done. rewrite St.
  destruct (po_present o) eqn:Ep; cbn [andb].
  - destruct (Z.eqb_spec (zlen (pf_present s)) (zlen (po_sids o))) as [Ez|Ez]; cbn [negb].
    2:{ exists false. split; [reflexivity|]. split; [discriminate|]. intros C. exfalso. apply Ez. apply RP.
        intros sid Hs. apply Cp; auto. }
    destruct (po_following o) eqn:Ef; cbn [andb].
    + destruct (Z.eqb_spec (zlen (pf_following s)) (zlen (po_sids o))) as [Ew|Ew]; cbn [negb].
      2:{ exists false. split; [reflexivity|]. split; [discriminate|]. intros C. exfalso. apply Ew. apply RF.
          intros sid Hs. apply Cf; auto. }
      pose proof (proj1 RP Ez) as AP. pose proof (proj1 RF Ew) as AF.
      destruct P as (Mp & P1 & P2). destruct F as (Mf & F1 & F2).
      (* the two last sections of one service *)
      assert (Pair : forall k v, In (k, v) (pf_present s) -> exists y z, last_for o xs (service_of y) 0 y /\
                last_for o xs (service_of y) 1 z /\ key_of y k /\ sn_version y = v /\
                mfind k (pf_following s) = Some (sn_version z) /\ In (sid_of y) (po_sids o)).
      { intros k v Hin. apply mfind_In in Hin; auto. destruct (P1 k v Hin) as (y & Ly & Ky & Vy).
        destruct (last_for_counts _ _ _ _ Ly) as (Hy & Cy & _ & _).
        assert (Hs : In (sid_of y) (po_sids o)) by (destruct Cy as (_ & _ & _ & _ & _ & [Cy|Cy]); [contradiction|auto]).
        destruct (AF (sid_of y) Hs) as (z & Lz & Sz).
        destruct (last_for_counts _ _ _ _ Lz) as (Hz & Cz & _ & _).
        assert (S : service_of y = service_of z) by (apply O; auto).
        exists y, z. split; [auto|]. split; [rewrite S; auto|]. do 2 (split; [solve [auto]|]). split; [|auto].
        apply F2; auto. apply (key_service y z k (W y Hy) (W z Hz) Cy Cz Ky). exact S. }
      destruct (pf_same_cases (pf_present s) (pf_following s)) as [[E B]|[E (k & v & B1 & B2)]].
      * intros k v Hin. destruct (Pair k v Hin) as (y & z & _ & _ & _ & _ & Hf & _). congruence.
      * exists true. split; [exact E|]. split; [|reflexivity]. intros _ sid Hsid.
        destruct (AP sid Hsid) as (y & Ly & Sy).
        destruct (last_for_counts _ _ _ _ Ly) as (Hy & Cy & _ & _).
        destruct (key_exists y Cy) as (k & Ky).
        assert (Hin : In (k, sn_version y) (pf_present s)) by (apply mfind_In; auto).
        destruct (Pair _ _ Hin) as (y' & z & Ly' & Lz & Ky' & Vy' & Hf & _).
        destruct (last_for_counts _ _ _ _ Ly') as (Hy' & Cy' & _ & _).
        assert (S' : service_of y = service_of y') by (apply (key_service y y' k (W y Hy) (W y' Hy') Cy Cy' Ky); exact Ky').
        pose proof (B _ _ Hin) as Hv. rewrite Hf in Hv. injection Hv as Hv.
        exists (nid_of y), (tsid_of y). rewrite <- Sy.
        change (nid_of y, tsid_of y, sid_of y) with (service_of y). rewrite <- S' in Lz.
        split; [eauto|]. split; [eauto|].
        intros a b _ _ La Lb. rewrite (last_for_unique _ _ _ _ _ La Ly), (last_for_unique _ _ _ _ _ Lb Lz).
        congruence.
      * exists false. split; [exact E|]. split; [discriminate|]. intros C. exfalso.
        destruct (Pair k v B1) as (y & z & Ly & Lz & Ky & Vy & Hf & Hs).
        destruct (C (sid_of y) Hs) as (nid & tsid & C1 & C2 & C3).
        destruct (C1 Ep) as (y' & Ly').
        destruct (last_for_counts _ _ _ _ Ly') as (Hy' & Cy' & Sy' & _).
        destruct (last_for_counts _ _ _ _ Ly) as (Hy & Cy & _ & _).
        assert (S : service_of y = service_of y').
        { apply O; auto. rewrite Svc in Sy'. congruence. }
        assert (S2 : (nid, tsid, sid_of y) = service_of y) by congruence.
        rewrite S2 in C3. pose proof (C3 y z Ep Ef Ly Lz) as V. apply B2. rewrite Hf. congruence.
    + exists true. split; [reflexivity|]. split; [|reflexivity]. intros _ sid Hsid.
      destruct (proj1 RP Ez sid Hsid) as (y & Ly & Sy).
      exists (nid_of y), (tsid_of y). rewrite <- Sy. change (nid_of y, tsid_of y, sid_of y) with (service_of y).
      split; [eauto|]. split; [congruence|]. congruence.
  - destruct (po_following o) eqn:Ef; cbn [andb]; [|destruct Sel; discriminate].
    destruct (Z.eqb_spec (zlen (pf_following s)) (zlen (po_sids o))) as [Ew|Ew]; cbn [negb].
    2:{ exists false. split; [reflexivity|]. split; [discriminate|]. intros C. exfalso. apply Ew. apply RF.
        intros sid Hs. apply Cf; auto. }
    exists true. split; [reflexivity|]. split; [|reflexivity]. intros _ sid Hsid.
    destruct (proj1 RF Ew sid Hsid) as (y & Ly & Sy).
    exists (nid_of y), (tsid_of y). rewrite <- Sy. change (nid_of y, tsid_of y, sid_of y) with (service_of y).
    split; [congruence|]. split; [eauto|]. congruence.
Qed.

(** Consistent sections are taken. *)
Lemma pf_takes : forall p xs s, pf_wires (xs ++ p) -> pf_handle_all mjd o pf_init xs = Ok s ->
  (forall x, In x p -> consistent x) -> exists s', pf_handle_all mjd o s p = Ok s'.
Proof.
  induction p as [|x p IH]; intros xs s W H C; [exists s; reflexivity|].
  cbn [pf_handle_all].
  assert (W1 : pf_wires xs) by (intros y Hy; apply W; apply in_or_app; auto).
  assert (Wx : wire x) by (apply W; apply in_or_app; right; left; auto).
  destruct (pf_output xs s x W1 Wx H) as [A B].
  assert (E : exists s1, pf_handleSection mjd o s x = Ok s1).
  { destruct (pf_handleSection mjd o s x) as [s1|f] eqn:E; [eauto|exfalso].
    assert (Q : exists s1, Fail f = Ok s1) by
      (destruct (counts_dec x) as [Cx|Cx];
       [destruct (pf_counted s x Cx) as (e & He & Pe & Eq);
        rewrite E in Eq;
        destruct (doc_cases mjd Hmjd x e Wx (counts_payload _ Cx) He) as [(_ & d & Hd & _)|(Nx & _)];
        [destruct (pf_IsCollected e _); [exists s; auto|];
         unfold pf_write in Eq; destruct (sel (sn_number x)); [rewrite Hd in Eq|]; cbn [bind] in Eq; eauto
        |exfalso; apply Nx; apply C; left; auto]
       |rewrite pf_ignored in E by auto; discriminate]).
    destruct Q; discriminate. }
  destruct E as (s1 & E). rewrite E. cbn [bind].
  apply (IH (xs ++ [x]) s1).
  - rewrite <- app_assoc. exact W.
  - rewrite handle_all_app, H. cbn [bind pf_handle_all]. rewrite E. reflexivity.
  - intros y Hy. apply C. right; auto.
Qed.

Lemma pf_packet : forall xs s p, pf_wires (xs ++ p) -> one_stream o (xs ++ p) ->
  pf_handle_all mjd o pf_init xs = Ok s -> (forall x, In x p -> consistent x) ->
  po_sids o <> [] -> NoDup (po_sids o) -> po_streaming o = false ->
  po_present o = true \/ po_following o = true ->
  exists s' go, pf_HandlePacket mjd o s p = Ok (s', go) /\ pf_handle_all mjd o pf_init (xs ++ p) = Ok s' /\
    (go = false <-> forall sid, In sid (po_sids o) -> complete o (xs ++ p) sid).
Proof.
  intros xs s p W O H C Hne ND St Sel.
  destruct (pf_takes p xs s W H C) as (s' & R). unfold pf_HandlePacket. rewrite R. cbn [bind].
  assert (H' : pf_handle_all mjd o pf_init (xs ++ p) = Ok s') by (rewrite handle_all_app, H; exact R).
  destruct (pf_done (xs ++ p) s' W O H' Hne ND St Sel) as (done & Hd & Q). rewrite Hd. cbn [bind].
  exists s', (negb done). split; [reflexivity|]. split; [exact H'|].
  rewrite negb_false_iff. exact Q.
Qed.

End Pf.
