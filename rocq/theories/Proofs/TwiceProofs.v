(** The service filter behind the service filter (C80). *)
From Coq Require Import ZArith Lia List Bool.
From Verif Require Import Base.Outcome Base.Util Model.Sink Model.Ts Model.ServiceFilter Spec.TransSpec Spec.FilterSpec Spec.TwiceSpec
  Proofs.FilterProofs Proofs.PipeProofs.
Import ListNotations.
Open Scope Z_scope.

Section Twice.
Variable opt : service_filter_option.
Notation sid := (sfo_sid opt).
Notation limit := (sfo_time_limit opt).

Definition psi_of (q : Z) : list Z :=
  zadd q (zadd PID_CDT (zadd PID_BIT (zadd PID_TOT (zadd PID_RST (zadd PID_EIT (zadd PID_SDT (zadd PID_NIT (zadd PID_CAT (zadd PID_PAT []))))))))).

Lemma In_psi_of : forall q x, In x (psi_of q) <-> x = q \/ In x si_pids.
Proof.
  intros q x. unfold psi_of. rewrite !In_zadd. unfold si_pids, PID_CDT, PID_BIT, PID_TOT, PID_RST, PID_EIT, PID_SDT, PID_NIT, PID_CAT, PID_PAT. cbn [In]. intuition.
Qed.

Lemma listing_inv : forall x u q, listing sid x = Some (u, q) -> x = (0, TPat (Some u)) /\ pat_tsid u <> 0 /\ pmt_pid_of sid u = Some q.
Proof.
  intros [pid b] u q H. unfold listing, usable_pat in H. destruct b as [[t|]|m|m|m|m|m|m|]; try discriminate.
  destruct (Z.eqb_spec pid 0) as [->|]; [|discriminate]. destruct (Z.eqb_spec (pat_tsid t) 0) as [|N]; [discriminate|]. cbn in H.
  destruct (pmt_pid_of sid t) as [q'|] eqn:E; [|discriminate]. injection H as -> ->. auto.
Qed.
Lemma sid_nonzero : forall u q, pmt_pid_of sid u = Some q -> sid <> 0.
Proof. intros u q H E. unfold pmt_pid_of in H. rewrite E in H. discriminate. Qed.

Lemma HandlePat_listing : forall s u q, listing sid (0, TPat (Some u)) = Some (u, q) ->
  sf_HandlePat opt s 0 (Some u) = Ok (mkSf (zadd q (if negb (sf_pmt_pid s =? PID_NULL) then zrem (sf_pmt_pid s) (sf_demux s) else sf_demux s))
    (Some (only_service sid u q)) (psi_of q) (sf_content s) (sf_emm s) q (sf_done s) (sf_error s)).
Proof.
  intros s u q H. apply listing_inv in H as [_ [N E]]. unfold sf_HandlePat. unfold PID_PAT. cbn [Z.eqb negb]. rewrite (proj2 (Z.eqb_neq _ _) N).
  rewrite pmts_find, E. rewrite (pmts_single sid u q) by (rewrite pmts_find; exact E). change (zlen [(sid, q)] =? 1) with true.
  unfold assert. cbn [mfind]. rewrite Z.eqb_refl. reflexivity.
Qed.

Lemma only_again : forall u q, listing sid (0, TPat (Some u)) = Some (u, q) ->
  listing sid (0, TPat (Some (only_service sid u q))) = Some (only_service sid u q, q) /\ only_service sid (only_service sid u q) q = only_service sid u q.
Proof.
  intros u q H. apply listing_inv in H as [_ [N E]]. pose proof (sid_nonzero u q E) as Z0.
  assert (E' : pmt_pid_of sid (only_service sid u q) = Some q).
  { unfold pmt_pid_of. rewrite (proj2 (Z.eqb_neq _ _) Z0). cbn [pat_entries only_service]. rewrite rev_app_distr. cbn [rev app latest fst snd]. rewrite Z.eqb_refl. reflexivity. }
  split.
  - unfold listing, usable_pat. cbn [only_service pat_tsid]. fold (only_service sid u q). rewrite (proj2 (Z.eqb_neq _ _) N). cbn [Z.eqb negb andb]. rewrite E'. reflexivity.
  - unfold only_service. cbn [pat_tsid pat_version pat_entries]. f_equal. rewrite filter_app. cbn [filter fst]. rewrite (proj2 (Z.eqb_neq _ _) Z0), app_nil_r. f_equal.
    induction (pat_entries u) as [|e l IH]; [reflexivity|]. cbn [filter]. destruct (fst e =? 0) eqn:F; [cbn [filter]; rewrite F, IH; reflexivity|exact IH].
Qed.

Definition shaped (s : sf_state) : Prop :=
  (forall x, In x (sf_demux s) <-> x = 0 \/ x = 1 \/ (x = 0x14 /\ limit <> None) \/ (sf_pat s <> None /\ x = sf_pmt_pid s)) /\
  match sf_pat s with
  | None => sf_psi s = [] /\ sf_content s = [] /\ sf_emm s = [] /\ sf_pmt_pid s = PID_NULL
  | Some t => exists u, listing sid (0, TPat (Some u)) = Some (u, sf_pmt_pid s) /\ t = only_service sid u (sf_pmt_pid s) /\
      ~ In (sf_pmt_pid s) [0; 1; 0x14; 0x1FFF] /\ sf_psi s = psi_of (sf_pmt_pid s)
  end.

Definition same (a b : sf_state) : Prop :=
  sf_pat b = sf_pat a /\ sf_psi b = sf_psi a /\ sf_content b = sf_content a /\ sf_emm b = sf_emm a /\ sf_pmt_pid b = sf_pmt_pid a /\ sf_done b = sf_done a.

Lemma shaped_init : shaped (sf_init opt).
Proof.
  unfold shaped, sf_init. cbn [sf_pat sf_demux sf_psi sf_content sf_emm sf_pmt_pid]. split; [|auto].
  intros x. destruct limit as [l|].
  - rewrite !In_zadd. unfold PID_TOT, PID_CAT, PID_PAT. cbn [In]. assert (Some l <> None) by discriminate. intuition congruence.
  - rewrite !In_zadd. unfold PID_CAT, PID_PAT. cbn [In]. intuition congruence.
Qed.

Lemma shaped_listing : forall s u q, shaped s -> listing sid (0, TPat (Some u)) = Some (u, q) -> ~ In q [0; 1; 0x14; 0x1FFF] ->
  shaped (mkSf (zadd q (if negb (sf_pmt_pid s =? PID_NULL) then zrem (sf_pmt_pid s) (sf_demux s) else sf_demux s))
    (Some (only_service sid u q)) (psi_of q) (sf_content s) (sf_emm s) q (sf_done s) (sf_error s)).
Proof.
  intros s u q [D S] L N. split; cbn [sf_pat sf_demux sf_psi sf_content sf_emm sf_pmt_pid].
  - intros x. rewrite In_zadd.
    assert (W : In x (if negb (sf_pmt_pid s =? PID_NULL) then zrem (sf_pmt_pid s) (sf_demux s) else sf_demux s) <-> x = 0 \/ x = 1 \/ (x = 0x14 /\ limit <> None)).
    { destruct (sf_pat s) as [t|] eqn:P.
      - destruct S as [v [_ [_ [Nq _]]]]. rewrite (proj2 (Z.eqb_neq (sf_pmt_pid s) PID_NULL)) by (intros E; apply Nq; rewrite E; unfold PID_NULL; cbn; auto).
        cbn [negb]. rewrite In_zrem, D. assert (Some t <> None) by discriminate. cbn [In] in Nq.
        split; [intros [A [B|[B|[B|[_ B]]]]]; auto; contradiction|]. intros B. split; [intros ->; destruct B as [B|[B|[B _]]]; rewrite B in Nq; intuition lia|tauto].
      - destruct S as [_ [_ [_ ->]]]. rewrite Z.eqb_refl. cbn [negb]. rewrite D. intuition congruence. }
    rewrite W. assert (Some (only_service sid u q) <> None) by discriminate. intuition.
  - exists u. auto.
Qed.

(** ** Tables on PIDs other than 0 *)
Definition harmless (pid : Z) (b : body) : Prop := a_cat (pid, b) = None /\ service_pmt sid (pid, b) = None.

Lemma table_same : forall a b pid tb, pid <> 0 -> same a b -> shaped a -> shaped b -> (sf_pat a = None -> harmless pid (tb_body tb)) ->
  match sf_handleTable opt a pid tb with
  | Fail f => sf_handleTable opt b pid tb = Fail f
  | Ok a' => shaped a' /\ sf_pat a' = sf_pat a /\ exists b', sf_handleTable opt b pid tb = Ok b' /\ same a' b' /\ shaped b' /\ sf_error b' = sf_error b
  end.
Proof.
  intros a b pid tb Np Sm Sa Sb Hm. pose proof Sm as [E1 [E2 [E3 [E4 [E5 E6]]]]]. unfold sf_handleTable, harmless, a_cat, service_pmt in *. cbn [snd] in *.
  destruct (tb_body tb) as [t|t|t|t|t|t|t|]; try (split; [exact Sa|]; split; [reflexivity|]; exists b; auto; fail).
  - unfold sf_HandlePat. rewrite (proj2 (Z.eqb_neq pid PID_PAT)) by exact Np. cbn [negb]. split; [exact Sa|]. split; [reflexivity|]. exists b; auto.
  - unfold sf_HandleCat. destruct t as [t|]; [|split; [exact Sa|]; split; [reflexivity|]; exists b; auto; fail].
    assert (P : sf_pat a <> None) by (intros P; destruct (Hm P); discriminate).
    assert (X : forall s, sf_pat s <> None -> shaped s -> shaped (mkSf (sf_demux s) (sf_pat s) (sf_psi s) (sf_content s)
            (fold_left (fun f pid => zadd pid f) (cat_ca_pids t) []) (sf_pmt_pid s) (sf_done s) (sf_error s))).
    { intros s Ps [D S]. split; [exact D|]. cbn [sf_pat]. destruct (sf_pat s); [exact S|contradiction]. }
    split; [exact (X a P Sa)|]. split; [reflexivity|]. eexists. split; [reflexivity|]. split; [unfold same; cbn; auto 7|]. split; [apply X; [rewrite E1; exact P|exact Sb]|reflexivity].
  - unfold sf_HandlePmt. destruct t as [t|]; [|split; [exact Sa|]; split; [reflexivity|]; exists b; auto; fail].
    destruct (Z.eqb_spec (pmt_sid t) sid) as [Es|Es]; cbn [negb]; [|split; [exact Sa|]; split; [reflexivity|]; exists b; auto; fail].
    assert (P : sf_pat a <> None) by (intros P; destruct (Hm P); discriminate).
    set (f3 := fold_left _ (pmt_streams t) _).
    assert (X : forall s, sf_pat s <> None -> shaped s -> shaped (mkSf (sf_demux s) (sf_pat s) (sf_psi s) f3 (sf_emm s) (sf_pmt_pid s) (sf_done s) (sf_error s))).
    { intros s Ps [D S]. split; [exact D|]. cbn [sf_pat]. destruct (sf_pat s); [exact S|contradiction]. }
    split; [exact (X a P Sa)|]. split; [reflexivity|]. eexists. split; [reflexivity|]. split; [unfold same; cbn; auto 7|]. split; [apply X; [rewrite E1; exact P|exact Sb]|reflexivity].
  - unfold sf_HandleTot. destruct t as [t|]; [|split; [exact Sa|]; split; [reflexivity|]; exists b; auto; fail].
    destruct limit as [l|] eqn:El; [|reflexivity]. destruct (t <? l); [split; [exact Sa|]; split; [reflexivity|]; exists b; auto; fail|].
    assert (X : forall s, shaped s -> shaped (mkSf (sf_demux s) (sf_pat s) (sf_psi s) (sf_content s) (sf_emm s) (sf_pmt_pid s) true (sf_error s))) by (intros s S; exact S).
    split; [exact (X a Sa)|]. split; [reflexivity|]. eexists. split; [reflexivity|]. split; [unfold same; cbn; auto 7|]. split; [apply X; exact Sb|reflexivity].
Qed.

Lemma tables_same : forall tabs a b pid, pid <> 0 -> same a b -> shaped a -> shaped b -> (sf_pat a = None -> forall tb, In tb tabs -> harmless pid (tb_body tb)) ->
  match handle_tables (sf_handleTable opt) a pid tabs with
  | Fail f => handle_tables (sf_handleTable opt) b pid tabs = Fail f
  | Ok a' => shaped a' /\ sf_pat a' = sf_pat a /\ exists b', handle_tables (sf_handleTable opt) b pid tabs = Ok b' /\ same a' b' /\ shaped b' /\ sf_error b' = sf_error b
  end.
Proof.
  induction tabs as [|tb tabs IH]; intros a b pid Np Sm Sa Sb Hm; cbn [handle_tables].
  - split; [exact Sa|]. split; [reflexivity|]. exists b. auto.
  - pose proof (table_same a b pid tb Np Sm Sa Sb (fun P => Hm P tb (or_introl eq_refl))) as T.
    destruct (sf_handleTable opt a pid tb) as [a1|f]; cbn [bind].
    + destruct T as [Sa1 [P1 [b1 [-> [Sm1 [Sb1 Er1]]]]]]. cbn [bind].
      pose proof (IH a1 b1 pid Np Sm1 Sa1 Sb1) as T. rewrite P1 in T. specialize (T (fun P t I => Hm P t (or_intror I))).
      destruct (handle_tables (sf_handleTable opt) a1 pid tabs) as [a2|f]; [|exact T]. destruct T as [Sa2 [P2 [b2 [E2 [Sm2 [Sb2 Er2]]]]]].
      split; [exact Sa2|]. split; [exact P2|]. exists b2. rewrite Er2. auto.
    + rewrite T. reflexivity.
Qed.

(** Before the first PAT, harmless tables change nothing but [done]. *)
Lemma tables_before : forall tabs a pid a', pid <> 0 -> (forall tb, In tb tabs -> harmless pid (tb_body tb)) ->
  handle_tables (sf_handleTable opt) a pid tabs = Ok a' -> sf_done a' = false -> a' = a.
Proof.
  assert (Mono : forall tabs a pid a', handle_tables (sf_handleTable opt) a pid tabs = Ok a' -> sf_done a = true -> sf_done a' = true).
  { induction tabs as [|tb tabs IH]; intros a pid a' H D; cbn [handle_tables] in H; [injection H as <-; exact D|].
    apply bind_ok in H as [a1 [H1 H]]. apply (IH a1 pid a' H). clear -H1 D. unfold sf_handleTable in H1.
    destruct (tb_body tb) as [t|t|t|t|t|t|t|]; try (injection H1 as <-; exact D).
    - unfold sf_HandlePat in H1. destruct (pid =? PID_PAT); cbn [negb] in H1; [|injection H1 as <-; exact D]. destruct t as [t|]; [|injection H1 as <-; exact D].
      destruct (pat_tsid t =? 0); [injection H1 as <-; exact D|]. destruct (mfind sid (pat_pmts t)); [|injection H1 as <-; reflexivity].
      apply assert_ok in H1 as [_ H1]. apply assert_ok in H1 as [_ H1]. injection H1 as <-. exact D.
    - unfold sf_HandleCat in H1. destruct t; injection H1 as <-; exact D.
    - unfold sf_HandlePmt in H1. destruct t; [|injection H1 as <-; exact D]. destruct (negb _); injection H1 as <-; exact D.
    - unfold sf_HandleTot in H1. destruct t; [|injection H1 as <-; exact D]. destruct limit; [|discriminate]. destruct (_ <? _); injection H1 as <-; [exact D|reflexivity]. }
  induction tabs as [|tb tabs IH]; intros a pid a' Np Hm H D; cbn [handle_tables] in H; [injection H as <-; reflexivity|].
  apply bind_ok in H as [a1 [H1 H]]. assert (a1 = a \/ sf_done a1 = true) as [->|D1].
  { destruct (Hm tb (or_introl eq_refl)) as [C P]. clear -H1 C P Np. unfold sf_handleTable, a_cat, service_pmt in *. cbn [snd] in *.
    destruct (tb_body tb) as [t|t|t|t|t|t|t|]; try (injection H1 as <-; auto; fail).
    - unfold sf_HandlePat in H1. rewrite (proj2 (Z.eqb_neq pid PID_PAT)) in H1 by exact Np. injection H1 as <-. auto.
    - unfold sf_HandleCat in H1. destruct t; [discriminate|injection H1 as <-; auto].
    - unfold sf_HandlePmt in H1. destruct t as [t|]; [|injection H1 as <-; auto]. destruct (pmt_sid t =? sid); [discriminate|]. injection H1 as <-. auto.
    - unfold sf_HandleTot in H1. destruct t; [|injection H1 as <-; auto]. destruct limit; [|discriminate]. destruct (_ <? _); injection H1 as <-; auto. }
  - apply (IH a pid a' Np); [intros t I; apply Hm; right; exact I|exact H|exact D].
  - rewrite (Mono tabs a1 pid a' H D1) in D. discriminate.
Qed.

(** ** Tables on PID 0 *)
Definition pat_tables (tabs : list table) : Prop := forall t, In t tabs ->
  match tb_body t with TCat _ | TPmt _ | TTot _ => False | _ => True end /\
  forall u q, listing sid (0, tb_body t) = Some (u, q) -> ~ In q [0; 1; 0x14; 0x1FFF].

Lemma pats_zero : forall tabs a, pat_tables tabs -> shaped a -> exists a', handle_tables (sf_handleTable opt) a 0 tabs = Ok a' /\ shaped a' /\
  sf_content a' = sf_content a /\ sf_emm a' = sf_emm a /\ (sf_done a = true -> sf_done a' = true) /\ (sf_pat a <> None -> sf_pat a' <> None) /\
  ((exists t, In t tabs /\ listing sid (0, tb_body t) <> None) -> sf_pat a' <> None) /\
  ((forall t, In t tabs -> listing sid (0, tb_body t) = None) -> sf_done a' = false -> a' = a).
Proof.
  induction tabs as [|tb tabs IH]; intros a Ht Sa; cbn [handle_tables].
  - exists a. split; [reflexivity|]. split; [exact Sa|]. repeat split; auto. intros [t [[] _]].
  - assert (X : exists a1, sf_handleTable opt a 0 tb = Ok a1 /\ shaped a1 /\ sf_content a1 = sf_content a /\ sf_emm a1 = sf_emm a /\ (sf_done a = true -> sf_done a1 = true) /\
      (sf_pat a <> None -> sf_pat a1 <> None) /\ (listing sid (0, tb_body tb) <> None -> sf_pat a1 <> None) /\ (listing sid (0, tb_body tb) = None -> sf_done a1 = false -> a1 = a)).
    { destruct (Ht tb (or_introl eq_refl)) as [K Q]. unfold sf_handleTable.
      destruct (tb_body tb) as [t|t|t|t|t|t|t|] eqn:B; try contradiction; try (exists a; repeat split; auto; try apply Sa; intros N; exfalso; apply N; reflexivity).
      destruct (listing sid (0, TPat t)) as [[u q]|] eqn:L.
      - pose proof (listing_inv _ _ _ L) as [E [_ _]]. injection E as ->. rewrite (HandlePat_listing a u q L). eexists. split; [reflexivity|].
        split; [apply shaped_listing; [exact Sa|exact L|exact (Q u q eq_refl)]|]. cbn. repeat split; auto; discriminate.
      - destruct t as [t|]; [|exists a; split; [reflexivity|]; split; [exact Sa|]; repeat split; auto; intros N; exfalso; apply N; reflexivity].
        unfold sf_HandlePat, PID_PAT. cbn [Z.eqb negb]. unfold listing, usable_pat in L. cbn [Z.eqb andb] in L.
        destruct (pat_tsid t =? 0); [exists a; split; [reflexivity|]; split; [exact Sa|]; repeat split; auto; intros N; exfalso; apply N; reflexivity|].
        cbn [negb] in L. rewrite pmts_find. destruct (pmt_pid_of sid t); [discriminate|]. eexists. split; [reflexivity|]. split; [exact Sa|]. cbn. repeat split; auto; try discriminate. }
    destruct X as [a1 [E1 [S1 [C1 [M1 [D1 [P1 [L1 N1]]]]]]]]. rewrite E1. cbn [bind].
    destruct (IH a1 (fun t I => Ht t (or_intror I)) S1) as [a2 [E2 [S2 [C2 [M2 [D2 [P2 [L2 N2]]]]]]]]. exists a2. split; [exact E2|]. split; [exact S2|].
    split; [congruence|]. split; [congruence|]. split; [auto|]. split; [auto|]. split.
    + intros [t [[<-|I] N]]; [auto|]. apply L2. eauto.
    + intros N D. assert (a2 = a1) by (apply N2; [intros t I; apply N; right; exact I|exact D]). subst a2.
      apply N1; [apply N; left; reflexivity|exact D].
Qed.

(** The second filter takes any number of copies of the PAT of the first one. *)
Lemma pats_again : forall r b u q, shaped b -> listing sid (0, TPat (Some u)) = Some (u, q) -> ~ In q [0; 1; 0x14; 0x1FFF] ->
  (r = 0%nat -> sf_pat b = Some (only_service sid u q) /\ sf_pmt_pid b = q) ->
  exists b', handle_tables (sf_handleTable opt) b 0 (repeat (mkTable (TPat (Some (only_service sid u q))) 0) r) = Ok b' /\ shaped b' /\
    sf_pat b' = Some (only_service sid u q) /\ sf_pmt_pid b' = q /\ sf_psi b' = psi_of q /\ sf_content b' = sf_content b /\ sf_emm b' = sf_emm b /\
    sf_done b' = sf_done b /\ sf_error b' = sf_error b.
Proof.
  induction r as [|r IH]; intros b u q Sb L Nq Hz; cbn [repeat handle_tables].
  - destruct (Hz eq_refl) as [P Q]. exists b. split; [reflexivity|]. split; [exact Sb|]. split; [exact P|]. split; [exact Q|].
    destruct Sb as [_ S]. rewrite P in S. destruct S as [v [_ [_ [_ S]]]]. rewrite Q in S. auto.
  - destruct (only_again u q L) as [L' E']. unfold sf_handleTable at 1. cbn [tb_body]. rewrite (HandlePat_listing b _ q L'). cbn [bind]. rewrite E'.
    match goal with |- context [handle_tables _ ?x _ _] => set (b1 := x) end.
    assert (S1 : shaped b1) by (subst b1; rewrite <- E'; apply shaped_listing; assumption).
    destruct (IH b1 u q S1 L Nq) as [b2 X]; [subst b1; cbn; auto|]. exists b2. exact X.
Qed.

(** ** One packet *)
Variable k : sink packet.

Lemma drop_same : forall a b pid, same a b -> sf_CheckFilterForDrop b pid = sf_CheckFilterForDrop a pid.
Proof. intros a b pid [_ [E2 [E3 [E4 _]]]]. unfold sf_CheckFilterForDrop. rewrite E2, E3, E4. reflexivity. Qed.

Lemma listened_kept : forall a x, shaped a -> sf_pat a <> None -> In x (sf_demux a) -> sf_CheckFilterForDrop a x = false.
Proof.
  intros a x [D S] P I. apply D in I. destruct (sf_pat a) as [t|]; [|contradiction]. destruct S as [u [_ [_ [_ S]]]].
  assert (In x (sf_psi a)) by (rewrite S; apply In_psi_of; unfold si_pids; cbn [In]; destruct I as [->|[->|[[-> _]|[_ ->]]]]; auto 20).
  apply zmem_In in H. unfold sf_CheckFilterForDrop. rewrite H. destruct (zmem x (sf_content a)); reflexivity.
Qed.

Lemma twice_step : forall a b d p, same a b -> shaped a -> shaped b -> sf_done a = false -> sf_error b = false ->
  (p_pid p = 0 -> pat_tables (p_tabs p 0)) -> (p_pid p <> 0 -> p_tabs p 1 = p_tabs p 0) -> (announces sid p -> (1 <= p_regen p 1)%nat) ->
  (sf_pat a = None -> p_pid p = 1 \/ p_pid p = 0x14 -> forall t, In t (p_tabs p 0) -> harmless (p_pid p) (tb_body t)) ->
  match sf_HandlePacket 0 opt k (a, d) p with
  | Fail f => sf_HandlePacket 0 opt (service_filter 1 opt k) (a, (b, d)) p = Fail f
  | Ok ((a', d'), ok) => exists b', sf_HandlePacket 0 opt (service_filter 1 opt k) (a, (b, d)) p = Ok ((a', (b', d')), ok) /\ sf_error b' = false /\
      (ok = true -> same a' b' /\ shaped a' /\ shaped b' /\ sf_done a' = false /\ (sf_pat a <> None \/ announces sid p -> sf_pat a' <> None))
  end.
Proof.
  intros a b d p Sm Sa Sb Da Eb H0 Ht Hr Hf. unfold sf_HandlePacket at 1 2 3. unfold demux_feed.
  pose proof Sm as [E1 [E2 [E3 [E4 [E5 E6]]]]].
  assert (Dm : zmem (p_pid p) (sf_demux b) = zmem (p_pid p) (sf_demux a)).
  { apply eq_true_iff_eq. rewrite !zmem_In. rewrite (proj1 Sa), (proj1 Sb), E1, E5. reflexivity. }
  destruct (Z.eq_dec (p_pid p) 0) as [P0|P0].
  - (* PID 0 *)
    assert (M : zmem (p_pid p) (sf_demux a) = true) by (apply zmem_In; apply (proj1 Sa); auto).
    rewrite M. rewrite P0. destruct (pats_zero (p_tabs p 0) a (H0 P0) Sa) as [a1 [X1 [S1 [C1 [M1 [D1 [Q1 [L1 N1]]]]]]]].
    rewrite X1. cbn [bind]. destruct (sf_done a1) eqn:Dn; [exists b; split; [reflexivity|]; split; [exact Eb|discriminate]|].
    destruct (sf_CheckFilterForDrop a1 0) eqn:Dr.
    { assert (Pn : sf_pat a1 = None).
      { destruct (sf_pat a1) eqn:P; [|reflexivity]. rewrite (listened_kept a1 0 S1) in Dr; [discriminate|rewrite P; discriminate|]. apply (proj1 S1). auto. }
      assert (a1 = a) as ->.
      { apply N1; [|reflexivity]. intros t I. destruct (listing sid (0, tb_body t)) eqn:L; [|reflexivity]. exfalso. apply L1; [|exact Pn]. exists t. rewrite L. split; [exact I|discriminate]. }
      exists b. split; [reflexivity|]. split; [exact Eb|]. intros _. split; [exact Sm|]. split; [exact Sa|]. split; [exact Sb|]. split; [exact Dn|].
      intros [Q|[_ Q]]; [exact Q|]. exact (L1 Q). }
    change (0 =? PID_PAT) with true. cbv iota. destruct (sf_pat a1) as [t|] eqn:Pt; [|reflexivity].
    pose proof S1 as [_ S1']. rewrite Pt in S1'. destruct S1' as [u [L [-> [Nq Ps]]]]. set (q := sf_pmt_pid a1) in *.
    assert (Mb : zmem 0 (sf_demux b) = true) by (apply zmem_In; apply (proj1 Sb); auto).
    cbn [service_filter sk_handle sk_state]. unfold sf_HandlePacket, demux_feed. cbn [gen_pat p_pid p_tabs]. change PID_PAT with 0. rewrite Mb.
    destruct (pats_again (p_regen p 1) b u q Sb L Nq) as [b1 [Y1 [Y2 [Y3 [Y4 [Y5 [Y6 [Y7 [Y8 Y9]]]]]]]]].
    { intros Z0. assert (a1 = a) as Ea.
      { apply N1; [|reflexivity]. intros t I. destruct (listing sid (0, tb_body t)) eqn:Lt; [|reflexivity]. exfalso.
        assert (1 <= p_regen p 1)%nat by (apply Hr; split; [exact P0|]; exists t; rewrite Lt; split; [exact I|discriminate]). lia. }
      rewrite E1, E5. subst q. rewrite <- Ea. auto. }
    change PID_PAT with 0 in *. rewrite Y1. cbn [bind]. rewrite Y8, E6, Da.
    assert (Sm1 : same a1 b1).
    { unfold same. rewrite Y3, Y4, Y5, Y6, Y7, Y8, Pt, Ps, C1, M1, E3, E4, E6, Da, Dn. subst q. auto 7. }
    rewrite (drop_same a1 b1 0 Sm1), Dr. cbn [Z.eqb]. rewrite Y3.
    change (gen_pat (gen_pat p (only_service sid u q)) (only_service sid u q)) with (gen_pat p (only_service sid u q)).
    destruct (sk_handle k d (gen_pat p (only_service sid u q))) as [[d1 ok]|f]; cbn [bind]; [|reflexivity].
    exists b1. split; [reflexivity|]. split; [rewrite Y9; exact Eb|]. intros _. split; [exact Sm1|]. split; [exact S1|]. split; [exact Y2|]. split; [exact Dn|]. intros _. rewrite Pt. discriminate.
  - (* other PIDs *)
    assert (Na : forall s, sf_pat s <> None \/ announces sid p -> sf_pat s <> None) by (intros s [N|[N _]]; [exact N|contradiction]).
    set (tabs := if zmem (p_pid p) (sf_demux a) then p_tabs p 0 else []).
    assert (Hh : sf_pat a = None -> forall t, In t tabs -> harmless (p_pid p) (tb_body t)).
    { intros P t I. subst tabs. destruct (zmem (p_pid p) (sf_demux a)) eqn:M; [|destruct I]. apply zmem_In in M. apply (proj1 Sa) in M.
      apply Hf; [exact P| |exact I]. destruct M as [M|[M|[[M _]|[M _]]]]; [contradiction|auto|auto|contradiction]. }
    pose proof (tables_same tabs a b (p_pid p) P0 Sm Sa Sb Hh) as T.
    destruct (handle_tables (sf_handleTable opt) a (p_pid p) tabs) as [a1|f] eqn:X1; [|reflexivity]. cbn [bind].
    destruct T as [S1 [Q1 [b1 [Y1 [Sm1 [Sb1 Er1]]]]]].
    destruct (sf_done a1) eqn:Dn; [exists b; split; [reflexivity|]; split; [exact Eb|discriminate]|].
    destruct (sf_CheckFilterForDrop a1 (p_pid p)) eqn:Dr.
    + (* dropped: no tables were heard, or none that matter *)
      assert (a1 = a) as ->.
      { destruct (sf_pat a) as [t|] eqn:P.
        - destruct (zmem (p_pid p) (sf_demux a)) eqn:M.
          + exfalso. assert (Mi : In (p_pid p) (sf_demux a1)).
            { apply (proj1 S1). apply zmem_In in M. apply (proj1 Sa) in M. destruct M as [M|[M|[M|[M1 M2]]]]; auto. right; right; right. split; [rewrite Q1; discriminate|].
              rewrite M2. destruct S1 as [_ S1]. destruct Sa as [_ Sa]. rewrite P in Sa. rewrite Q1 in S1. destruct Sa as [u [_ [A _]]]. destruct S1 as [v [_ [B _]]].
              rewrite B in A. unfold only_service in A. injection A as _ _ A. apply app_inj_tail in A as [_ A]. congruence. }
            rewrite (listened_kept a1 _ S1) in Dr; [discriminate|rewrite Q1; discriminate|exact Mi].
          + subst tabs. cbn in X1. congruence.
        - apply (tables_before tabs a (p_pid p) a1 P0 (Hh eq_refl) X1 Dn). }
      exists b. split; [reflexivity|]. split; [exact Eb|]. intros _. split; [exact Sm|]. split; [exact Sa|]. split; [exact Sb|]. split; [exact Dn|]. apply Na.
    + rewrite (proj2 (Z.eqb_neq (p_pid p) PID_PAT)) by exact P0.
      destruct (negb (p_pid p =? PID_NULL)) eqn:Nn; cbn [assert]; [|reflexivity].
      cbn [service_filter sk_handle sk_state]. unfold sf_HandlePacket, demux_feed. rewrite Dm, (Ht P0). fold tabs. rewrite Y1. cbn [bind].
      assert (D1 : sf_done b1 = false) by (destruct Sm1 as [_ [_ [_ [_ [_ W]]]]]; congruence). rewrite D1.
      rewrite (drop_same a1 b1 _ Sm1), Dr. rewrite (proj2 (Z.eqb_neq (p_pid p) PID_PAT)) by exact P0. rewrite Nn. cbn [assert].
      destruct (sk_handle k d p) as [[d1 ok]|f]; cbn [bind]; [|reflexivity].
      exists b1. split; [reflexivity|]. split; [congruence|]. intros _. split; [exact Sm1|]. split; [exact S1|]. split; [exact Sb1|]. split; [exact Dn|]. rewrite Q1. apply Na.
Qed.
(** ** The whole stream *)
Lemma announces_dec : forall p, announces sid p \/ ~ announces sid p.
Proof.
  intros p. destruct (Z.eq_dec (p_pid p) 0) as [P|P]; [|right; intros [E _]; contradiction].
  destruct (existsb (fun t => match listing sid (0, tb_body t) with Some _ => true | None => false end) (p_tabs p 0)) eqn:E.
  - left. split; [exact P|]. apply existsb_exists in E as [t [I E]]. exists t. split; [exact I|]. intros N. rewrite N in E. discriminate.
  - right. intros [_ [t [I N]]]. apply N. destruct (listing sid (0, tb_body t)) as [x|] eqn:L; [|reflexivity].
    assert (existsb (fun t => match listing sid (0, tb_body t) with Some _ => true | None => false end) (p_tabs p 0) = true) by (apply existsb_exists; exists t; rewrite L; auto).
    congruence.
Qed.

Lemma pat_first_tail : forall p ps, ~ announces sid p -> pat_first sid (p :: ps) -> pat_first sid ps.
Proof.
  intros p ps N F pre x post t E P I C. destruct (F (p :: pre) x post t) as [y [[<-|Iy] Ay]]; auto; [rewrite E; reflexivity|contradiction|eauto].
Qed.

Lemma twice_hand : forall ps a b d, same a b -> shaped a -> shaped b -> sf_done a = false -> sf_error b = false ->
  well_placed sid ps -> hears_again sid ps -> sf_pat a <> None \/ pat_first sid ps ->
  match snd (hand (service_filter 0 opt k) (a, d) ps) with
  | Fail f => snd (hand (service_filter 0 opt (service_filter 1 opt k)) (a, (b, d)) ps) = Fail f
  | Ok ((a', d'), ok) => exists b', snd (hand (service_filter 0 opt (service_filter 1 opt k)) (a, (b, d)) ps) = Ok ((a', (b', d')), ok) /\ sf_error b' = false
  end.
Proof.
  induction ps as [|p ps IH]; intros a b d Sm Sa Sb Da Eb W H F; cbn [hand].
  - exists b. auto.
  - pose proof (twice_step a b d p Sm Sa Sb Da Eb) as T.
    assert (T' := T (fun P t I => W p t (or_introl eq_refl) I P) (proj1 (H p (or_introl eq_refl))) (proj2 (H p (or_introl eq_refl)))). clear T.
    assert (Hf : sf_pat a = None -> p_pid p = 1 \/ p_pid p = 0x14 -> forall t, In t (p_tabs p 0) -> harmless (p_pid p) (tb_body t)).
    { intros Pn Pp t I. destruct F as [F|F]; [contradiction|]. unfold harmless.
      pose proof (F [] p ps t eq_refl Pp I) as G.
      destruct (a_cat (p_pid p, tb_body t)) eqn:E1; [destruct G as [x [[] _]]; left; discriminate|].
      destruct (service_pmt sid (p_pid p, tb_body t)) eqn:E2; [destruct G as [x [[] _]]; right; discriminate|]. auto. }
    specialize (T' Hf). change (sk_handle (service_filter 0 opt k)) with (sf_HandlePacket 0 opt k).
    change (sk_handle (service_filter 0 opt (service_filter 1 opt k))) with (sf_HandlePacket 0 opt (service_filter 1 opt k)).
    destruct (sf_HandlePacket 0 opt k (a, d) p) as [[[a1 d1] [|]]|f].
    + destruct T' as [b1 [E [Er T']]]. rewrite E. destruct (T' eq_refl) as [Sm1 [Sa1 [Sb1 [D1 P1]]]].
      assert (F1 : sf_pat a1 <> None \/ pat_first sid ps).
      { destruct (announces_dec p) as [A|A]; [left; apply P1; auto|]. destruct F as [F|F]; [left; apply P1; auto|right; exact (pat_first_tail p ps A F)]. }
      specialize (IH a1 b1 d1 Sm1 Sa1 Sb1 D1 Er (fun q t I => W q t (or_intror I)) (fun q I => H q (or_intror I)) F1).
      destruct (hand (service_filter 0 opt k) (a1, d1) ps) as [o1 r1]. destruct (hand (service_filter 0 opt (service_filter 1 opt k)) (a1, (b1, d1)) ps) as [o2 r2]. exact IH.
    + destruct T' as [b1 [E [Er _]]]. rewrite E. cbn [snd]. eauto.
    + rewrite T'. reflexivity.
Qed.

Lemma twice_feed : forall ps n d, (List.length ps < n)%nat -> well_placed sid ps -> hears_again sid ps -> pat_first sid ps ->
  match FeedPackets (list_source packet) (service_filter 0 opt k) n ps (sf_init opt, d) with
  | None => False
  | Some (Fail f) => FeedPackets (list_source packet) (service_filter 0 opt (service_filter 1 opt k)) n ps (sf_init opt, (sf_init opt, d)) = Some (Fail f)
  | Some (Ok (c, (s, d'))) => exists s', FeedPackets (list_source packet) (service_filter 0 opt (service_filter 1 opt k)) n ps (sf_init opt, (sf_init opt, d)) = Some (Ok (c, (s, (s', d'))))
  end.
Proof.
  intros ps n d L W H F. destruct (sk_start k d) as [[d1 [|]]|f] eqn:Es.
  - assert (S1 : sk_start (service_filter 0 opt k) (sf_init opt, d) = Ok ((sf_init opt, d1), true)) by (cbn; rewrite Es; reflexivity).
    assert (S2 : sk_start (service_filter 0 opt (service_filter 1 opt k)) (sf_init opt, (sf_init opt, d)) = Ok ((sf_init opt, (sf_init opt, d1)), true)) by (cbn; rewrite Es; reflexivity).
    rewrite (feed_hand _ _ ps n _ _ L S1), (feed_hand _ _ ps n _ _ L S2).
    pose proof (twice_hand ps (sf_init opt) (sf_init opt) d1) as T.
    specialize (T ltac:(unfold same; auto 7) shaped_init shaped_init eq_refl eq_refl W H (or_intror F)).
    destruct (snd (hand (service_filter 0 opt k) (sf_init opt, d1) ps)) as [[[a' d'] ok]|f]; [|rewrite T; reflexivity].
    destruct T as [b' [-> Er]]. unfold finish. cbn [service_filter sk_end sk_exit fst snd]. destruct (sk_end k d') as [d2|f]; cbn [bind fst snd]; [|reflexivity].
    unfold sf_GetExitCode. cbn [service_filter sk_exit fst snd]. unfold sf_GetExitCode. cbn [fst snd]. destruct (sk_exit k d2) as [c|f]; cbn [bind]; [|reflexivity].
    rewrite Er. replace (if c =? EXIT_SUCCESS then c else c) with c by (destruct (c =? EXIT_SUCCESS); reflexivity). eauto.
  - unfold FeedPackets. cbn [service_filter sk_start fst snd]. rewrite Es. cbn [bind fst snd]. eauto.
  - unfold FeedPackets. cbn [service_filter sk_start fst snd]. rewrite Es. reflexivity.
Qed.

End Twice.
