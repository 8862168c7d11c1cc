From Coq Require Import ZArith Lia List Bool Sorted.
From Verif Require Import Base.Outcome Base.Util Proofs.FeedProofs Proofs.PcrProofs Proofs.ScanProofs Proofs.SyncProofs Proofs.SyncInv Proofs.SyncEnd
  Model.Pcr Model.Sink Model.Ts Model.EitSection Model.ServiceScanner Model.PcrSynchronizer Spec.ScanSpec Spec.SyncSpec.
Import ListNotations.
Open Scope Z_scope.

(** * Any number of SDTs *)

Definition is_sdt (e : ev) : bool := match e with Tab _ (TSdt (Some _)) => true | _ => false end.
Definition nsdt (b : list ev) : Z := zlen (filter is_sdt b).

Lemma nsdt_snoc : forall b e, nsdt (b ++ [e]) = nsdt b + (if is_sdt e then 1 else 0).
Proof.
  intros b e. unfold nsdt. rewrite filter_app. unfold zlen. rewrite app_length. cbn [filter]. destruct (is_sdt e); cbn [List.length]; lia.
Qed.

Lemma nsdt_pos : forall b, 0 <= nsdt b.
Proof. intros b. unfold nsdt, zlen. lia. Qed.

Lemma nsdt_none : forall b, proper b -> (no_sdt b <-> nsdt b = 0).
Proof.
  intros b P. split.
  - intros N. unfold nsdt. assert (E : filter is_sdt b = []); [|rewrite E; reflexivity].
    destruct (filter is_sdt b) as [|x l] eqn:E; [reflexivity|exfalso].
    assert (K : In x (filter is_sdt b)) by (rewrite E; cbn; auto). apply filter_In in K as [K S].
    destruct x as [pid [| | | | |[d|]| |]|]; try discriminate. pose proof (P _ _ K) as Q. cbn in Q. subst pid. exact (N _ d K eq_refl).
  - intros N e d E S. unfold nsdt in N. assert (K : In e (filter is_sdt b)) by (apply filter_In; split; [exact E|rewrite S; reflexivity]).
    destruct (filter is_sdt b); [destruct K|]. unfold zlen in N. cbn [List.length] in N. lia.
Qed.

Definition full (o : ps_option) (t : pat) (d : sdt) (b : list ev) : Prop := no_sdt b /\ all_pmts o t d b /\ avs o t d <> [].

(** After the SDT [d], with [b] since then. *)
Record many (o : ps_option) (t : pat) (d : sdt) (b : list ev) (s : ps_state) : Prop := mkMany {
  mn_pmt : ps_pmt_pids s = sel o t;
  mn_good : forall sid q, In (sid, q) (sel o t) -> good_q q;
  mn_count : ps_pmt_count s = (1 + nsdt b) * zlen (avs o t d);
  mn_pids : forall x, x <> 0x14 -> (In x (ps_pids s) <-> x = 0 \/ x = 0x11 \/ exists sid, In (sid, x) (avs o t d));
  mn_is_map : is_map (ps_pcr_pid_map s);
  mn_map : forall sid, (exists pp, mfind sid (ps_pcr_pid_map s) = Some pp) <->
    exists q m, In (sid, q) (avs o t d) /\ In (Tab q (TPmt (Some m))) b /\ pmt_sid m = sid;
  mn_tot : In 0x14 (ps_pids s) <-> exists b1 b2, b = b1 ++ b2 /\ full o t d b1;
  mn_pcr_pids : forall pp, In pp (ps_pcr_pids s) <-> pp <> 0x1FFF /\ exists sid q m,
    In (sid, q) (avs o t d) /\ In (Tab q (TPmt (Some m))) b /\ pmt_sid m = sid /\ pmt_pcr_pid m = pp }.

Lemma not_full : forall o t d, ~ full o t d [].
Proof.
  intros o t d (_ & A & N). destruct (avs o t d) as [|[sid q] l] eqn:E; [exact (N eq_refl)|].
  destruct (A sid q) as (m & [] & _). apply avs_in. rewrite E. cbn. auto.
Qed.

Lemma many_start : forall o t s d, fresh o t s -> many o t d [] (ps_HandleSdt s (Some d)).
Proof.
  intros o t s d F. destruct (one_start o t s d F) as [H1 H2 H3 H4 H5 H6 H7 H8]. split; auto.
  - rewrite H3. unfold nsdt. cbn [filter zlen List.length]. change (zlen (@nil ev)) with 0. lia.
  - rewrite H7. split.
    + intros [N _]. destruct (ps_pcr_pid_map (ps_HandleSdt s (Some d))) as [|[k v] l] eqn:E; [destruct (N eq_refl)|].
      assert (K : exists pp, mfind k ((k, v) :: l) = Some pp) by (exists v; cbn; rewrite Z.eqb_refl; reflexivity).
      apply H6 in K as (q & m & _ & [] & _).
    + intros (b1 & b2 & E & Fu). destruct b1; [|discriminate]. destruct (not_full _ _ _ Fu).
Qed.

Lemma many_size : forall o t d b s, many o t d b s -> zlen (ps_pcr_pid_map s) <= zlen (avs o t d).
Proof.
  intros o t d b s O. rewrite !zlen_fst. apply inj_le. apply NoDup_incl_length; [apply is_map_fst, (mn_is_map _ _ _ _ _ O)|].
  intros k K. apply in_fst in K; [|apply (mn_is_map _ _ _ _ _ O)]. apply (mn_map _ _ _ _ _ O) in K as (q & m & K & _).
  apply in_map_iff. exists (k, q). auto.
Qed.

(** The prefixes of a list with one more event. *)
Lemma prefix_snoc : forall (Q : list ev -> Prop) b e, (exists b1 b2, b ++ [e] = b1 ++ b2 /\ Q b1) <->
  (exists b1 b2, b = b1 ++ b2 /\ Q b1) \/ Q (b ++ [e]).
Proof.
  intros Q b e. split.
  - intros (b1 & b2 & E & H). induction b2 as [|z b2 _] using rev_ind.
    + rewrite app_nil_r in E. subst b1. auto.
    + rewrite app_assoc in E. apply app_inj_tail in E as [E _]. left. exists b1, b2. auto.
  - intros [(b1 & b2 & -> & H)|H].
    + exists b1, (b2 ++ [e]). split; [rewrite app_assoc; reflexivity|exact H].
    + exists (b ++ [e]), []. split; [rewrite app_nil_r; reflexivity|exact H].
Qed.

(** Where [e] is neither an SDT nor a PMT that counts, it completes nothing. *)
Lemma full_skip : forall o t d b e, full o t d (b ++ [e]) ->
  (forall sid q m, In (sid, q) (avs o t d) -> e = Tab q (TPmt (Some m)) -> pmt_sid m = sid -> False) -> full o t d b.
Proof.
  intros o t d b e (F1 & F2 & F3) N. split; [|split; [|exact F3]].
  - intros x u X. apply F1. apply in_app_iff. auto.
  - intros sid q A. destruct (F2 sid q A) as (m & M1 & M2). exists m. split; [|exact M2].
    apply in_app_iff in M1 as [M1|[M1|[]]]; [exact M1|]. apply avs_in in A. destruct (N sid q m A M1 M2).
Qed.

Lemma tot_skip : forall o t d b e, 
  (forall sid q m, In (sid, q) (avs o t d) -> e = Tab q (TPmt (Some m)) -> pmt_sid m = sid -> False) ->
  ((exists b1 b2, b ++ [e] = b1 ++ b2 /\ full o t d b1) <-> exists b1 b2, b = b1 ++ b2 /\ full o t d b1).
Proof.
  intros o t d b e N. rewrite prefix_snoc. split; [|auto]. intros [H|H]; [exact H|]. exists b, []. split; [rewrite app_nil_r; reflexivity|].
  eapply full_skip; eassumption.
Qed.

Lemma many_skip : forall o t d b s e, many o t d b s -> is_sdt e = false ->
  (forall sid q m, In (sid, q) (avs o t d) -> e = Tab q (TPmt (Some m)) -> pmt_sid m = sid -> False) -> many o t d (b ++ [e]) s.
Proof.
  intros o t d b s e [H1 H2 H3 H4 H5 H6 H7 H8] S N. split; auto.
  - rewrite nsdt_snoc, S, Z.add_0_r. exact H3.
  - intros sid. rewrite H6. split; intros (q & m & M1 & M2 & M3); exists q, m; (split; [exact M1|]; split; [|exact M3]).
    + apply in_app_iff. auto.
    + apply in_app_iff in M2 as [M2|[M2|[]]]; [exact M2|]. destruct (N sid q m M1 M2 M3).
  - rewrite tot_skip; assumption.
  - intros pp. rewrite H8. split; intros (P & sid & q & m & M1 & M2 & M3 & M4); (split; [exact P|]); exists sid, q, m;
      (split; [exact M1|]; split; [|auto]).
    + apply in_app_iff. auto.
    + apply in_app_iff in M2 as [M2|[M2|[]]]; [exact M2|]. destruct (N sid q m M1 M2 M3).
Qed.

Lemma many_sdt : forall o t d b s, many o t d b s -> many o t d (b ++ [Tab 0x11 (TSdt (Some d))]) (ps_HandleSdt s (Some d)).
Proof.
  intros o t d b s [H1 H2 H3 H4 H5 H6 H7 H8]. rewrite sdt_state.
  assert (Same : forall x, In x (snd (ps_count d (ps_pmt_pids s) (ps_pmt_count s) (ps_pids s))) <-> In x (ps_pids s)).
  { intros x. rewrite count_pids. split; [|auto]. intros [X|(sid & v & X & M & A)]; [exact X|]. rewrite H1 in X.
    destruct (H2 _ _ X) as (_ & _ & G). apply (H4 x G). right. right. exists sid. apply filter_In. split; [exact X|].
    unfold avb. cbn [fst]. rewrite M. exact A. }
  split; cbn [ps_pmt_pids ps_pids ps_pcr_pid_map ps_pcr_pids ps_pcr_map ps_started ps_pmt_count]; auto.
  - rewrite count_count, H1, H3, nsdt_snoc. cbn [is_sdt]. fold (avb d). change (filter _ (sel o t)) with (avs o t d). ring.
  - intros x X. rewrite Same. apply H4. exact X.
  - intros sid. rewrite H6. split; intros (q & m & M1 & M2 & M3); exists q, m; (split; [exact M1|]; split; [|exact M3]).
    + apply in_app_iff. auto.
    + apply in_app_iff in M2 as [M2|[M2|[]]]; [exact M2|discriminate].
  - rewrite Same, H7. rewrite prefix_snoc. split; [auto|]. intros [H|(N & _)]; [exact H|].
    exfalso. apply (N (Tab 0x11 (TSdt (Some d))) d); [apply in_app_iff; cbn; auto|reflexivity].
  - intros pp. rewrite H8. split; intros (P & sid & q & m & M1 & M2 & M3 & M4); (split; [exact P|]); exists sid, q, m;
      (split; [exact M1|]; split; [|auto]).
    + apply in_app_iff. auto.
    + apply in_app_iff in M2 as [M2|[M2|[]]]; [exact M2|discriminate].
Qed.

Lemma many_pmt : forall o t d b s pid m, proper b -> distinct_pids t -> many o t d b s -> In pid (ps_pids s) ->
  many o t d (b ++ [Tab pid (TPmt (Some m))]) (ps_HandlePmt s pid (Some m)).
Proof.
  intros o t d b s pid m Pb D O L. unfold ps_HandlePmt. pose proof (many_size _ _ _ _ _ O) as Z0. rewrite (mn_pmt _ _ _ _ _ O).
  destruct (mfind (pmt_sid m) (sel o t)) as [q|] eqn:E.
  2:{ apply many_skip; [exact O|reflexivity|]. intros sid q w A W1 W2. injection W1 as -> ->. subst sid. apply av_sel in A.
      apply mfind_In in A; [|apply sel_is_map]. congruence. }
  destruct (Z.eqb_spec q pid) as [->|Q]; cbn [negb].
  2:{ apply many_skip; [exact O|reflexivity|]. intros sid q' w A W1 W2. injection W1 as -> ->. subst sid. apply av_sel in A.
      apply mfind_In in A; [|apply sel_is_map]. congruence. }
  apply mfind_In in E; [|apply sel_is_map].
  assert (A : In (pmt_sid m, pid) (avs o t d)).
  { destruct (mn_good _ _ _ _ _ O _ _ E) as (G1 & G2 & G3). apply (mn_pids _ _ _ _ _ O pid G3) in L as [L|[L|[sid L]]]; [contradiction|contradiction|].
    assert (K : sid = pmt_sid m).
    { apply av_sel, sel_in in L as [L _]. apply sel_in in E as [E _]. exact (D _ _ _ L E). }
    subst sid. exact L. }
  destruct O as [H1 H2 H3 H4 H5 H6 H7 H8].
  set (map1 := minsert (pmt_sid m) (pmt_pcr_pid m) (ps_pcr_pid_map s)).
  assert (M1 : is_map map1) by (apply is_map_minsert; exact H5).
  assert (Map : forall sid, (exists pp, mfind sid map1 = Some pp) <->
    exists q m0, In (sid, q) (avs o t d) /\ In (Tab q (TPmt (Some m0))) (b ++ [Tab pid (TPmt (Some m))]) /\ pmt_sid m0 = sid).
  { intros sid. unfold map1. rewrite mfind_minsert. destruct (Z.eqb_spec sid (pmt_sid m)) as [->|N].
    + split; [|eauto]. intros _. exists pid, m. split; [exact A|]. split; [apply in_app_iff; cbn; auto|reflexivity].
    + rewrite H6. split; intros (q' & w & W1 & W2 & W3); exists q', w; (split; [exact W1|]; split; [|exact W3]).
      * apply in_app_iff. auto.
      * apply in_app_iff in W2 as [W2|[W2|[]]]; [exact W2|]. injection W2 as -> ->. congruence. }
  assert (Sub : incl (map fst map1) (map fst (avs o t d))).
  { intros k K. apply in_fst in K; [|exact M1]. apply Map in K as (q' & w & K & _). apply in_map_iff. exists (k, q'). auto. }
  assert (Fits : zlen map1 <= zlen (avs o t d)).
  { rewrite !zlen_fst. apply inj_le. apply NoDup_incl_length; [apply is_map_fst; exact M1|exact Sub]. }
  assert (Pos : 0 < zlen (avs o t d)).
  { destruct (avs o t d); [destruct A|]. unfold zlen. cbn [List.length]. lia. }
  assert (Test : zlen map1 = ps_pmt_count s <-> full o t d (b ++ [Tab pid (TPmt (Some m))])).
  { rewrite H3. pose proof (nsdt_pos b) as Np. split.
    - intros T. assert (Z : nsdt b = 0) by nia. split; [|split].
      + intros x u X. apply in_app_iff in X as [X|[<-|[]]]; [|discriminate]. apply nsdt_none in Z; [|exact Pb]. exact (Z x u X).
      + intros sid q' Av. apply avs_in in Av. assert (K : In sid (map fst map1)).
        { assert (I : incl (map fst (avs o t d)) (map fst map1)).
          { apply NoDup_length_incl; [apply is_map_fst; exact M1| |exact Sub]. rewrite Z in T. rewrite !zlen_fst in T. lia. }
          apply I. apply in_map_iff. exists (sid, q'). auto. }
        apply in_fst in K; [|exact M1]. apply Map in K as (q2 & w & K1 & K2 & K3).
        rewrite (sel_unique o t sid q2 q' (av_sel _ _ _ _ _ K1) (av_sel _ _ _ _ _ Av)) in *. exists w. auto.
      + intros Z'. rewrite Z' in A. destruct A.
    - intros (F1 & F2 & F3). assert (Z : nsdt b = 0).
      { apply nsdt_none; [exact Pb|]. intros x u X. apply F1. apply in_app_iff. auto. }
      rewrite Z. enough (zlen (avs o t d) <= zlen map1) by lia.
      rewrite !zlen_fst. apply inj_le. apply NoDup_incl_length; [apply is_map_fst, avs_is_map|].
      intros k K. apply in_map_iff in K as ([k' q'] & <- & K). cbn [fst]. apply in_fst; [exact M1|]. apply Map.
      apply avs_in in K as Kv. destruct (F2 _ _ Kv) as (w & W1 & W2). exists q', w. auto. }
  split; cbn [ps_pmt_pids ps_pids ps_pcr_pid_map ps_pcr_pids ps_pcr_map ps_started ps_pmt_count]; auto.
  - rewrite nsdt_snoc. cbn [is_sdt]. rewrite Z.add_0_r. exact H3.
  - intros x X. rewrite <- (H4 x X). destruct (_ =? _); [|reflexivity]. rewrite In_zadd. unfold PID_TOT. tauto.
  - rewrite prefix_snoc, <- Test, <- H7. fold map1. destruct (Z.eqb_spec (zlen map1) (ps_pmt_count s)) as [T|T].
    + rewrite In_zadd. unfold PID_TOT. tauto.
    + tauto.
  - intros pp.
    assert (K : In pp (if negb (pmt_pcr_pid m =? PID_NULL) then zadd (pmt_pcr_pid m) (ps_pcr_pids s) else ps_pcr_pids s) <->
      pp <> 0x1FFF /\ pmt_pcr_pid m = pp \/ In pp (ps_pcr_pids s)).
    { unfold PID_NULL. destruct (Z.eqb_spec (pmt_pcr_pid m) 0x1FFF) as [N|N]; cbn [negb].
      - split; [auto|]. intros [[N1 N2]|N1]; [congruence|exact N1].
      - rewrite In_zadd. split; [intros [-> |X]; auto|intros [[_ X]|X]; auto]. }
    rewrite K, H8. split.
    + intros [[P1 P2]|(P & sid & q' & w & W1 & W2 & W3 & W4)].
      * split; [exact P1|]. exists (pmt_sid m), pid, m. split; [exact A|]. split; [apply in_app_iff; cbn; auto|auto].
      * split; [exact P|]. exists sid, q', w. split; [exact W1|]. split; [apply in_app_iff; auto|auto].
    + intros (P & sid & q' & w & W1 & W2 & W3 & W4). apply in_app_iff in W2 as [W2|[W2|[]]].
      * right. split; [exact P|]. exists sid, q', w. auto.
      * injection W2 as _ ->. auto.
Qed.

Lemma many_step : forall o t d b s e, proper b -> distinct_pids t -> proper [e] -> (forall u, ~ pat_at e u) -> (forall x, sdt_at e x -> x = d) ->
  many o t d b s -> many o t d (b ++ [e]) (estep o s e).
Proof.
  intros o t d b s e Pb D P N1 N2 O. destruct e as [pid x|pid c]; cbn [estep].
  2:{ assert (K : many o t d (b ++ [Pcr pid c]) s) by (apply many_skip; [exact O|reflexivity|]; intros; discriminate).
      destruct (ps_done s); [exact K|]. unfold ps_take. destruct (_ && _ && _); [|exact K].
      destruct K as [H1 H2 H3 H4 H5 H6 H7 H8]. split; auto. }
  pose proof (P _ _ (or_introl eq_refl)) as P0.
  destruct (zmem pid (ps_pids s)) eqn:L.
  - apply zmem_In in L.
    assert (Skip : (forall m, x <> TPmt (Some m)) -> is_sdt (Tab pid x) = false -> many o t d (b ++ [Tab pid x]) s).
    { intros N S. apply many_skip; [exact O|exact S|]. intros sid q m _ E _. injection E as _ E. exact (N m E). }
    destruct x as [u| |u| |u|u| |]; cbn [ps_tab]; try (apply Skip; [discriminate|reflexivity]).
    + unfold ps_HandlePat, PID_PAT. destruct (Z.eqb_spec pid 0) as [->|E]; cbn [negb]; [|apply Skip; [discriminate|reflexivity]].
      destruct u as [u|]; [|apply Skip; [discriminate|reflexivity]].
      destruct (Z.eqb_spec (pat_tsid u) 0) as [E|E]; [apply Skip; [discriminate|reflexivity]|].
      destruct (N1 u). split; [reflexivity|exact E].
    + destruct u as [m|]; [|apply Skip; [discriminate|reflexivity]]. apply many_pmt; assumption.
    + destruct u as [y|]; [|apply Skip; [discriminate|reflexivity]].
      assert (K : many o t d (b ++ [Tab pid (TTot (Some y))]) s) by (apply Skip; [discriminate|reflexivity]).
      destruct K as [H1 H2 H3 H4 H5 H6 H7 H8]. split; auto.
    + destruct u as [y|]; [|apply Skip; [discriminate|reflexivity]]. cbn in P0. subst pid. rewrite (N2 y eq_refl) in *. apply many_sdt. exact O.
  - apply zmem_false in L.
    assert (S : is_sdt (Tab pid x) = false).
    { destruct x as [| | | | |[u|]| |]; try reflexivity. cbn in P0. subst pid. exfalso. apply L. apply (mn_pids _ _ _ _ _ O); [discriminate|auto]. }
    apply many_skip; [exact O|exact S|]. intros sid q m A E _. injection E as -> ->. apply L.
    destruct (mn_good _ _ _ _ _ O _ _ (av_sel _ _ _ _ _ A)) as (_ & _ & G).
    apply (mn_pids _ _ _ _ _ O); [exact G|]. eauto.
Qed.

(** * When it has started *)

(** The PCRs taken came after the TOT. *)
Definition begun (o : ps_option) (t : pat) (d : sdt) (b : list ev) (s : ps_state) : Prop :=
  (ps_started s = false -> ps_pcr_map s = []) /\
  (ps_started s = true -> exists b1 c y e, b = b1 ++ c ++ Tab 0x14 (TTot (Some y)) :: e /\ full o t d b1 /\
     forall pid v, mfind pid (ps_pcr_map s) = Some v -> In (Pcr pid v) e).

Lemma begun_skip : forall o t d b s s1 e, begun o t d b s -> ps_started s1 = ps_started s -> ps_pcr_map s1 = ps_pcr_map s -> begun o t d (b ++ [e]) s1.
Proof.
  intros o t d b s s1 e [B1 B2] E1 E2. split; rewrite E1, E2; [exact B1|]. intros S. destruct (B2 S) as (b1 & c & y & e' & -> & F & H).
  exists b1, c, y, (e' ++ [e]). split; [rewrite <- !app_assoc; cbn [app]; rewrite <- ?app_assoc; reflexivity|]. split; [exact F|].
  intros pid v V. apply in_app_iff. left. eauto.
Qed.

Lemma begun_step : forall o t d b s e, proper [e] -> (forall u, ~ pat_at e u) -> many o t d b s -> begun o t d b s ->
  begun o t d (b ++ [e]) (estep o s e).
Proof.
  intros o t d b s e P N O B. assert (Sk : begun o t d (b ++ [e]) s) by (eapply begun_skip; [exact B|reflexivity|reflexivity]).
  destruct e as [pid x|pid v]; cbn [estep].
  - destruct (zmem pid (ps_pids s)) eqn:L; [|exact Sk]. apply zmem_In in L. specialize (P _ _ (or_introl eq_refl)).
    destruct x as [u| |u| |u|u| |]; cbn [ps_tab]; try exact Sk.
    + unfold ps_HandlePat, PID_PAT. destruct (Z.eqb_spec pid 0) as [->|E]; cbn [negb]; [|exact Sk]. destruct u as [u|]; [|exact Sk].
      destruct (Z.eqb_spec (pat_tsid u) 0) as [E|E]; [exact Sk|]. destruct (N u). split; [reflexivity|exact E].
    + unfold ps_HandlePmt. destruct u as [m|]; [|exact Sk]. destruct (mfind _ _); [|exact Sk]. destruct (negb (_ =? pid)); exact Sk.
    + destruct u as [y|]; [|exact Sk]. cbn in P. subst pid. cbn [ps_HandleTot]. split; cbn [ps_started ps_pcr_map]; [discriminate|]. intros _.
      destruct (ps_started s) eqn:S.
      * destruct Sk as [_ Sk]. exact (Sk S).
      * apply (mn_tot _ _ _ _ _ O) in L as (b1 & b2 & -> & F). exists b1, b2, y, []. rewrite <- app_assoc. split; [reflexivity|]. split; [exact F|].
        destruct B as [B _]. rewrite (B S). discriminate.
    + destruct u as [u|]; [|exact Sk]. eapply begun_skip; [exact B|rewrite sdt_state; reflexivity|rewrite sdt_state; reflexivity].
  - destruct (ps_done s); [exact Sk|]. unfold ps_take. destruct (ps_started s) eqn:S; cbn [andb]; [|exact Sk].
    destruct (zmem pid (ps_pcr_pids s) && _); [|exact Sk]. destruct B as [_ B]. destruct (B S) as (b1 & c & y & e' & -> & F & H).
    split; cbn [ps_started ps_pcr_map]; [congruence|]. intros _.
    exists b1, c, y, (e' ++ [Pcr pid v]). split; [rewrite <- !app_assoc; cbn [app]; rewrite <- ?app_assoc; reflexivity|]. split; [exact F|].
    intros pp w W. rewrite mfind_minsert in W. apply in_app_iff. destruct (Z.eqb_spec pp pid) as [->|E].
    + injection W as <-. cbn. auto.
    + left. exact (H _ _ W).
Qed.

Definition only (d : sdt) (b : list ev) : Prop := forall e u, In e b -> sdt_at e u -> u = d.

Lemma many_steps : forall o t d b s, distinct_pids t -> proper b -> no_pat b -> only d b -> many o t d [] s -> begun o t d [] s ->
  many o t d b (esteps o s b) /\ begun o t d b (esteps o s b).
Proof.
  intros o t d b s D P N1 N2 O B. induction b as [|e b IH] using rev_ind; [split; assumption|]. rewrite esteps_snoc.
  apply proper_app in P as [P1 P2]. destruct IH as [IH1 IH2]; [exact P1| | |].
  { intros x u X. apply N1. apply in_app_iff. auto. }
  { intros x u X. apply N2. apply in_app_iff. auto. }
  assert (Ne : forall u, ~ pat_at e u) by (intros u; apply N1; apply in_app_iff; cbn; auto). split.
  - apply many_step; auto. intros u. apply N2. apply in_app_iff. cbn. auto.
  - apply begun_step; auto.
Qed.

Lemma since_many : forall o tr x t a d b, proper (tr ++ x :: a ++ Tab 0x11 (TSdt (Some d)) :: b) -> distinct_pids t -> pat_at x t ->
  no_pat (a ++ Tab 0x11 (TSdt (Some d)) :: b) -> no_sdt a -> only d b ->
  let s := esteps o ps_init (tr ++ x :: a ++ Tab 0x11 (TSdt (Some d)) :: b) in many o t d b s /\ begun o t d b s.
Proof.
  intros o tr x t a d b P D X N Na Nb. cbn zeta.
  replace (tr ++ x :: a ++ Tab 0x11 (TSdt (Some d)) :: b) with ((((tr ++ [x]) ++ a) ++ [Tab 0x11 (TSdt (Some d))]) ++ b) in *
    by (rewrite <- !app_assoc; reflexivity).
  apply proper_app in P as [P P3]. apply proper_app in P as [P _]. apply proper_app in P as [P1 P2].
  pose proof (pat_fresh o tr x t P1 X) as F. apply (fresh_steps o t a) in F; auto.
  2:{ intros e u E. apply N. apply in_app_iff. auto. }
  rewrite <- esteps_app in F.
  assert (E : esteps o ps_init (((tr ++ [x]) ++ a) ++ [Tab 0x11 (TSdt (Some d))]) = ps_HandleSdt (esteps o ps_init ((tr ++ [x]) ++ a)) (Some d)).
  { rewrite esteps_snoc. cbn [estep].
    assert (L : In 0x11 (ps_pids (esteps o ps_init ((tr ++ [x]) ++ a)))) by (apply (fr_pids _ _ _ F); auto).
    apply zmem_In in L. rewrite L. reflexivity. }
  rewrite esteps_app, E. apply many_steps; auto.
  - intros e u Ee. apply N. apply in_app_iff. cbn. auto.
  - apply many_start. exact F.
  - rewrite sdt_state. split; cbn [ps_started ps_pcr_map]; [intros _; apply (fr_pcr_map _ _ _ F)|]. rewrite (fr_started _ _ _ F). discriminate.
Qed.

(** * The rule *)

Lemma first_sdt : forall l, no_sdt l \/ exists a u b, l = a ++ Tab 0x11 (TSdt (Some u)) :: b /\ no_sdt a.
Proof.
  intros l. induction l as [|e l IH]; [left; intros e d []|].
  assert (K : (exists u, e = Tab 0x11 (TSdt (Some u))) \/ forall u, ~ sdt_at e u).
  { destruct e as [pid [| | | | |[u|]| |]|pid c]; try (right; intros u H; discriminate).
    destruct (Z.eqb_spec pid 0x11) as [->|N]; [eauto|]. right. intros w H. injection H as H. congruence. }
  destruct K as [[u ->]|K].
  - right. exists [], u, l. split; [reflexivity|]. intros e d [].
  - destruct IH as [IH|(a & u & b & -> & Na)].
    + left. intros x d [<-|X]; [apply K|exact (IH x d X)].
    + right. exists (e :: a), u, b. split; [reflexivity|]. intros x d [<-|X]; [apply K|exact (Na x d X)].
Qed.

Lemma unique_pat : forall a x1 t1 p1 r pre x t post, a ++ x1 :: p1 ++ r = pre ++ x :: post -> pat_at x1 t1 -> pat_at x t ->
  no_pat pre -> no_pat post -> a = pre /\ x1 = x /\ post = p1 ++ r.
Proof.
  intros a x1 t1 p1 r. induction a as [|z a IH]; intros pre x t post E X1 X N1 N2; destruct pre as [|w pre]; cbn in E; injection E as E1 E2.
  - auto.
  - exfalso. subst w. exact (N1 x1 t1 (or_introl eq_refl) X1).
  - exfalso. apply (N2 x1 t1); [|exact X1]. rewrite <- E2. apply in_elt.
  - subst w. destruct (IH pre x t post E2 X1 X) as (-> & -> & ->); auto. intros y u Y. apply N1. cbn. auto.
Qed.

Lemma names_full : forall o t d b b1 b2 pid, b = b1 ++ b2 -> all_pmts o t d b1 ->
  (forall sid q m m', av_service o t d sid q -> In (Tab q (TPmt (Some m))) b -> In (Tab q (TPmt (Some m'))) b ->
    pmt_sid m = sid -> pmt_sid m' = sid -> pmt_pcr_pid m = pmt_pcr_pid m') ->
  names o t d b pid -> names o t d b1 pid.
Proof.
  intros o t d b b1 b2 pid -> A S (N & sid & q & m & Av & M1 & M2 & M3). split; [exact N|].
  destruct (A sid q Av) as (w & W1 & W2). exists sid, q, w. split; [exact Av|]. split; [exact W1|]. split; [exact W2|].
  rewrite <- M3. apply (S sid q); auto. apply in_app_iff. auto.
Qed.

Lemma names_more : forall o t d b1 b2 pid, names o t d b1 pid -> names o t d (b1 ++ b2) pid.
Proof.
  intros o t d b1 b2 pid (N & sid & q & m & Av & M1 & M2). split; [exact N|]. exists sid, q, m. split; [exact Av|]. split; [|exact M2].
  apply in_app_iff. auto.
Qed.

Lemma in_order_more : forall o t d post r, in_order o t d post -> in_order o t d (post ++ r).
Proof.
  intros o t d post r (a & b & c & y & e & -> & Na & Nb & A & Nm & H). exists a, b, c, y, (e ++ r).
  split; [rewrite <- !app_assoc; cbn [app]; rewrite <- !app_assoc; cbn [app]; rewrite <- ?app_assoc; reflexivity|].
  do 4 (split; [assumption|]). intros pid P. destruct (H pid P) as [v V]. exists v. apply in_app_iff. auto.
Qed.

Lemma done_in_order : forall o pre x t d post, proper (pre ++ x :: post) -> pat_at x t -> distinct_pids t -> steady_clocks o t d post ->
  let s := esteps o ps_init (pre ++ x :: post) in
  zlen (ps_pcr_map s) = zlen (ps_pcr_pids s) -> ps_pcr_map s <> [] -> in_order o t d post.
Proof.
  intros o pre x t d post P X D (N & S1 & S2) s Q1 Q2.
  assert (V : inv o t post s).
  { unfold s. replace (pre ++ x :: post) with ((pre ++ [x]) ++ post) in * by (rewrite <- app_assoc; reflexivity).
    apply proper_app in P as [P1 P2]. rewrite esteps_app. apply inv_steps; [exact P2|exact N|]. apply pat_fresh; assumption. }
  pose proof (iv_taken _ _ _ _ V Q2) as St. destruct (iv_tot _ _ _ _ V St) as [L _].
  destruct (iv_heard _ _ _ _ V _ L) as [L'|[L'|[u U]]]; [discriminate|discriminate|].
  destruct (first_sdt post) as [No|(a & u' & b & E & Na)].
  { apply latest_in in U as (z & Z & U). destruct (No z u Z U). }
  assert (u' = d) by (apply (S1 (Tab 0x11 (TSdt (Some u')))); [rewrite E; apply in_elt|reflexivity]). subst u'.
  assert (B : many o t d b s /\ begun o t d b s).
  { unfold s. rewrite E in P, N |- *. apply since_many; auto. intros z w Z. apply S1. rewrite E. apply in_app_iff. cbn. auto. }
  destruct B as [M [_ B]]. destruct (B St) as (b1 & c & y & e & Eb & (F1 & F2 & F3) & H).
  assert (S3 : forall sid q m m', av_service o t d sid q -> In (Tab q (TPmt (Some m))) b -> In (Tab q (TPmt (Some m'))) b ->
    pmt_sid m = sid -> pmt_sid m' = sid -> pmt_pcr_pid m = pmt_pcr_pid m').
  { intros sid q m m' Av I1 I2. apply (S2 sid q); auto; rewrite E; apply in_app_iff; cbn; auto. }
  exists a, b1, c, y, e. rewrite <- Eb. do 4 (split; [assumption|]).
  assert (Nm : forall pp, In pp (ps_pcr_pids s) <-> names o t d b pp).
  { intros pp. rewrite (mn_pcr_pids _ _ _ _ _ M), names_avs. reflexivity. }
  split.
  - destruct (ps_pcr_map s) as [|[k v] l] eqn:Em; [destruct (Q2 eq_refl)|].
    assert (K : mfind k (ps_pcr_map s) = Some v) by (rewrite Em; cbn; rewrite Z.eqb_refl; reflexivity).
    apply (iv_pcr_map _ _ _ _ V) in K as [K _]. apply Nm in K. exists k. eapply names_full; eassumption.
  - intros pid Pn. destruct (all_taken _ _ _ _ V Q1 pid) as [v Vv].
    + apply Nm. rewrite Eb. apply names_more. exact Pn.
    + exists v. exact (H _ _ Vv).
Qed.

Lemma order_done : forall o pre x t d post, proper (pre ++ x :: post) -> pat_at x t -> distinct_pids t -> steady_clocks o t d post ->
  in_order o t d post -> ps_done (esteps o ps_init (pre ++ x :: post)) = true.
Proof.
  intros o pre x t d post P X D (N & S1 & S2) (a & b & c & y & e & E & Na & Nb & A & [pid0 Nm] & H).
  set (tot := Tab 0x14 (TTot (Some y))) in *. set (sd := Tab 0x11 (TSdt (Some d))) in *.
  assert (V : fresh o t (esteps o ps_init (pre ++ [x]))).
  { replace (pre ++ x :: post) with ((pre ++ [x]) ++ post) in P by (rewrite <- app_assoc; reflexivity).
    apply proper_app in P as [P1 P2]. apply pat_fresh; assumption. }
  assert (Ms : missing (esteps o ps_init (pre ++ x :: post))).
  { replace (pre ++ x :: post) with ((pre ++ [x]) ++ post) in * by (rewrite <- app_assoc; reflexivity).
    apply proper_app in P as [P1 P2]. rewrite esteps_app. apply (missing_steps o t); assumption. }
  assert (Only : forall l, (forall z, In z l -> In z post) -> only d l) by (intros l L z u Z; apply S1; auto).
  assert (NoP : forall l, (forall z, In z l -> In z post) -> no_pat l) by (intros l L z u Z; apply N; auto).
  assert (Mall : many o t d (b ++ c ++ tot :: e) (esteps o ps_init (pre ++ x :: post))).
  { rewrite E in P, N |- *. apply since_many; auto. apply Only. intros z Z. rewrite E. apply in_app_iff. cbn. auto. }
  assert (M : many o t d (b ++ c) (esteps o ps_init (pre ++ x :: a ++ sd :: b ++ c))).
  { apply since_many; auto.
    - rewrite E in P. replace (pre ++ x :: a ++ sd :: b ++ c ++ tot :: e) with ((pre ++ x :: a ++ sd :: b ++ c) ++ tot :: e) in P
        by (rewrite <- !app_assoc; cbn [app]; rewrite <- !app_assoc; cbn [app]; rewrite <- !app_assoc; reflexivity).
      apply proper_app in P. tauto.
    - apply NoP. intros z Z. rewrite E, app_assoc with (l := b). rewrite app_comm_cons, app_assoc. apply in_app_iff. auto.
    - apply Only. intros z Z. rewrite E. apply in_app_iff. right. right. rewrite app_assoc. apply in_app_iff. auto. }
  set (sb := esteps o ps_init (pre ++ x :: a ++ sd :: b ++ c)) in *.
  assert (Full : In 0x14 (ps_pids sb)).
  { apply (mn_tot _ _ _ _ _ M). exists b, c. split; [reflexivity|]. split; [exact Nb|]. split; [exact A|].
    destruct Nm as (_ & sid & q & m & Av & _). apply avs_in in Av. intros Z. rewrite Z in Av. destruct Av. }
  set (st := estep o sb tot).
  assert (Est : st = ps_HandleTot sb (Some y)).
  { unfold st, tot. cbn [estep]. apply zmem_In in Full. rewrite Full. reflexivity. }
  assert (Eall : esteps o ps_init (pre ++ x :: post) = esteps o st e).
  { rewrite E. replace (pre ++ x :: a ++ sd :: b ++ c ++ tot :: e) with (((pre ++ x :: a ++ sd :: b ++ c) ++ [tot]) ++ e)
      by (rewrite <- !app_assoc; cbn [app]; rewrite <- !app_assoc; cbn [app]; rewrite <- !app_assoc; reflexivity).
    rewrite esteps_app, esteps_snoc. reflexivity. }
  rewrite Eall in *.
  assert (S3 : forall sid q m m', av_service o t d sid q -> In (Tab q (TPmt (Some m))) (b ++ c ++ tot :: e) ->
    In (Tab q (TPmt (Some m'))) (b ++ c ++ tot :: e) -> pmt_sid m = sid -> pmt_sid m' = sid -> pmt_pcr_pid m = pmt_pcr_pid m').
  { intros sid q m m' Av I1 I2. apply (S2 sid q); auto; rewrite E; apply in_app_iff; cbn; auto. }
  destruct (taken_steps o (names o t d b) e st) as [Dn|(T1 & T2 & T3)].
  - apply NoP. intros z Z. rewrite E. apply in_app_iff. right. right. apply in_app_iff. right. apply in_app_iff. cbn. auto.
  - rewrite Est. reflexivity.
  - intros pp Pn. rewrite Est. cbn. apply (mn_pcr_pids _ _ _ _ _ M). apply names_avs. apply names_more. exact Pn.
  - exact Dn.
  - destruct Ms as [Dn|(pp & M1 & M2)]; [|exact Dn|].
    + destruct (H pid0 Nm) as [v Hv]. destruct (T3 _ _ Nm Hv) as [w W]. intros Z. rewrite Z in W. discriminate.
    + exfalso. apply (mn_pcr_pids _ _ _ _ _ Mall) in M1. apply names_avs in M1.
      assert (K : names o t d b pp) by (eapply names_full; [reflexivity|exact A|exact S3|exact M1]).
      destruct (H pp K) as [v Hv]. destruct (T3 _ _ K Hv) as [w W]. congruence.
Qed.

Lemma sync_exact : forall o ps fuel code s pre x t d post,
  trace ps = pre ++ x :: post -> proper (trace ps) -> selecting o (trace ps) -> no_pat pre -> pat_at x t -> distinct_pids t ->
  steady_clocks o t d post ->
  FeedPackets (list_source packet) (ps_sink o) fuel ps ps_init = Some (Ok (code, s)) -> (code = 0 <-> in_order o t d post).
Proof.
  intros o ps fuel code s pre x t d post Tr P S Np X D St H. apply sync_fold in H; [|exact P].
  destruct H as [(-> & _ & Dn)|(h & p & rest & s1 & -> & -> & D0 & E & D1 & _)].
  - split; [discriminate|]. intros O. rewrite Tr in P, Dn. rewrite (order_done o pre x t d post P X D St O) in Dn. discriminate.
  - split; [intros _|reflexivity].
    replace (h ++ p :: rest) with ((h ++ [p]) ++ rest) in * by (rewrite <- app_assoc; reflexivity).
    assert (S1 : selecting o (events p)).
    { intros u T. apply S. rewrite !trace_app. apply in_app_iff. left. apply in_app_iff. right. cbn. rewrite app_nil_r. exact T. }
    assert (Q : zlen (ps_pcr_map s1) = zlen (ps_pcr_pids s1) /\ ps_pcr_map s1 <> []).
    { rewrite E in D1 |- *. rewrite trace_app, esteps_app in D1 |- *. cbn [trace flat_map] in D1 |- *. rewrite app_nil_r in D1 |- *.
      apply packet_done; assumption. }
    destruct Q as [Q1 Q2]. rewrite trace_app in Tr, P. apply proper_app in P as [P _].
    destruct (trace_inv o _ P) as [[_ V]|(t1 & p1 & (a & x1 & T1 & X1 & N1) & V)]; rewrite <- E in V.
    { destruct V as (_ & _ & _ & _ & _ & V & _). contradiction. }
    pose proof St as (N & S2 & S3). rewrite T1, <- app_assoc in Tr. cbn [app] in Tr.
    destruct (unique_pat a x1 t1 p1 _ pre x t post Tr X1 X Np N) as (-> & -> & ->).
    apply in_order_more. rewrite T1 in P, E. rewrite E in Q1, Q2.
    apply (done_in_order o pre x t d p1 P X D); [|exact Q1|exact Q2]. split; [|split].
    + intros z u Z. apply N. apply in_app_iff. auto.
    + intros z u Z. apply S2. apply in_app_iff. auto.
    + intros sid q m m' Av I1 I2. apply (S3 sid q); auto; apply in_app_iff; auto.
Qed.

(** A second SDT before the PMTs, and the stream gets stuck. *)
Lemma stuck_order : forall o t d a b e, no_sdt a -> no_sdt b -> ~ all_pmts o t d b -> ~ in_order o t d (a ++ Tab 0x11 (TSdt (Some d)) :: b ++ Tab 0x11 (TSdt (Some d)) :: e).
Proof.
  intros o t d a b e Na Nb N (a' & b' & c & y & e' & E & Na' & Nb' & A & _).
  assert (K : forall l l' (m m' : list ev), l ++ Tab 0x11 (TSdt (Some d)) :: m = l' ++ Tab 0x11 (TSdt (Some d)) :: m' -> no_sdt l -> no_sdt l' -> l = l' /\ m = m').
  { intros l. induction l as [|z l IH]; intros l' m m' Q N1 N2; destruct l' as [|z' l']; cbn in Q.
    - injection Q as Q. auto.
    - injection Q as Q1 Q2. exfalso. subst z'. exact (N2 _ d (or_introl eq_refl) eq_refl).
    - injection Q as Q1 Q2. exfalso. subst z. exact (N1 _ d (or_introl eq_refl) eq_refl).
    - injection Q as Q1 Q2. subst z'. destruct (IH l' m m' Q2) as [-> ->]; auto; intros w u W; [apply N1|apply N2]; cbn; auto. }
  destruct (K _ _ _ _ E Na Na') as [-> E2]. clear E.
  apply N. intros sid q Av. destruct (A sid q Av) as (m & M1 & M2). exists m. split; [|exact M2].
  assert (I : exists r, b = b' ++ r).
  { clear -E2 Nb Nb'. revert b' Nb' E2. induction b as [|z b IH]; intros b' Nb' E2; destruct b' as [|z' b']; cbn in E2.
    - exists []. reflexivity.
    - injection E2 as E1 _. subst z'. exfalso. exact (Nb' _ d (or_introl eq_refl) eq_refl).
    - exists (z :: b). reflexivity.
    - injection E2 as -> E2. destruct (IH (fun w u W => Nb w u (or_intror W)) b' (fun w u W => Nb' w u (or_intror W)) E2) as [r ->]. exists r. reflexivity. }
  destruct I as [r ->]. apply in_app_iff. auto.
Qed.

(** The clocks of a steady broadcast. *)
Lemma sync_steady_docs : forall o ps fuel s pre x t d post,
  trace ps = pre ++ x :: post -> proper (trace ps) -> selecting o (trace ps) -> no_pat pre -> pat_at x t -> distinct_pids t ->
  steady_clocks o t d post ->
  FeedPackets (list_source packet) (ps_sink o) fuel ps ps_init = Some (Ok (0, s)) ->
  exists docs, ps_out s = [docs] /\ (forall c, In c docs -> exists q, av_service o t d (cd_sid c) q) /\
    forall sid q m, av_service o t d sid q -> In (Tab q (TPmt (Some m))) post -> pmt_sid m = sid -> pmt_pcr_pid m <> 0x1FFF ->
      exists c, In c docs /\ cd_sid c = sid /\ cd_pid c = pmt_pcr_pid m.
Proof.
  intros o ps fuel s pre x t d post Tr P S Np X D St H. apply sync_fold in H; [|exact P].
  destruct H as [(H & _)|(h & p & rest & s1 & -> & _ & D0 & E & D1 & time & _ & Out)]; [discriminate|].
  replace (h ++ p :: rest) with ((h ++ [p]) ++ rest) in * by (rewrite <- app_assoc; reflexivity).
  assert (S1 : selecting o (events p)).
  { intros u T. apply S. rewrite !trace_app. apply in_app_iff. left. apply in_app_iff. right. cbn. rewrite app_nil_r. exact T. }
  assert (Q : zlen (ps_pcr_map s1) = zlen (ps_pcr_pids s1) /\ ps_pcr_map s1 <> []).
  { rewrite E in D1 |- *. rewrite trace_app, esteps_app in D1 |- *. cbn [trace flat_map] in D1 |- *. rewrite app_nil_r in D1 |- *.
    apply packet_done; assumption. }
  destruct Q as [Q1 Q2]. rewrite trace_app in Tr, P. apply proper_app in P as [P _].
  destruct (trace_inv o _ P) as [[_ V]|(t1 & p1 & (a & x1 & T1 & X1 & N1) & V)]; rewrite <- E in V.
  { destruct V as (_ & _ & _ & _ & _ & V & _). contradiction. }
  pose proof St as (N & S2 & S3). rewrite T1, <- app_assoc in Tr. cbn [app] in Tr.
  destruct (unique_pat a x1 t1 p1 _ pre x t post Tr X1 X Np N) as (-> & -> & ->).
  assert (t1 = t) by (destruct X1 as [-> _], X as [X _]; injection X as X; exact X). subst t1.
  rewrite T1 in P, E.
  pose proof (iv_taken _ _ _ _ V Q2) as Sta. destruct (iv_tot _ _ _ _ V Sta) as [L _].
  destruct (iv_heard _ _ _ _ V _ L) as [L'|[L'|[u U]]]; [discriminate|discriminate|].
  destruct (first_sdt p1) as [No|(a & u' & b & Eb & Na)].
  { apply latest_in in U as (z & Z & U). destruct (No z u Z U). }
  assert (u' = d) by (apply (S2 (Tab 0x11 (TSdt (Some u')))); [rewrite Eb; apply in_app_iff; left; apply in_elt|reflexivity]). subst u'.
  assert (B : many o t d b s1 /\ begun o t d b s1).
  { rewrite E. rewrite Eb in P |- *. apply since_many; auto.
    - rewrite <- Eb. intros z w Z. apply N. apply in_app_iff. auto.
    - intros z w Z. apply S2. apply in_app_iff. left. rewrite Eb. apply in_app_iff. cbn. auto. }
  destruct B as [M [_ B]]. destruct (B Sta) as (b1 & c & y & e & Eb1 & (F1 & F2 & F3) & H).
  eexists. split; [exact Out|]. split.
  - intros k C. apply docs_in in C as (C & _). apply mfind_In in C; [|apply (iv_map _ _ _ _ V)].
    assert (C' : exists pp, mfind (cd_sid k) (ps_pcr_pid_map s1) = Some pp) by eauto.
    apply (mn_map _ _ _ _ _ M) in C' as (q & m & C' & _). exists q. apply avs_in. exact C'.
  - intros sid q m Av I Is Nn.
    assert (F : exists pp, mfind sid (ps_pcr_pid_map s1) = Some pp).
    { apply (mn_map _ _ _ _ _ M). destruct (F2 _ _ Av) as (w & W1 & W2). exists q, w. split; [apply avs_in; exact Av|]. split; [|exact W2].
      rewrite Eb1. apply in_app_iff. auto. }
    destruct F as [pp F]. destruct (iv_find _ _ _ _ V _ _ F) as (q' & m' & M1 & _ & M3 & M4).
    assert (q' = q).
    { apply avs_in in Av. exact (sel_unique o t sid q' q M1 (av_sel _ _ _ _ _ Av)). }
    subst q'. apply latest_in in M3 as (z & Z & -> & Zs).
    assert (Epp : pp = pmt_pcr_pid m).
    { rewrite <- M4. apply (S3 sid q); auto. apply in_app_iff. auto. }
    subst pp. rewrite Epp in *. destruct (all_taken _ _ _ _ V Q1 (pmt_pcr_pid m) (iv_pcr_pids _ _ _ _ V _ _ F Nn)) as [v C].
    exists (mkClockDoc (ps_nid s1) (ps_tsid s1) sid (pmt_pcr_pid m) v time). split; [|split; reflexivity].
    apply docs_in. cbn. split; [apply mfind_In; [apply (iv_map _ _ _ _ V)|exact F]|auto].
Qed.
