From Coq Require Import ZArith Lia List Bool Sorted.
From Verif Require Import Base.Outcome Base.Util Proofs.FeedProofs Proofs.PcrProofs Proofs.ScanProofs Proofs.SyncProofs Proofs.SyncInv
  Model.Pcr Model.Sink Model.Ts Model.EitSection Model.ServiceScanner Model.PcrSynchronizer Spec.ScanSpec Spec.SyncSpec.
Import ListNotations.
Open Scope Z_scope.

(** * The documents *)

Lemma docs_in : forall s time m c, In c (ps_docs s time m) <->
  In (cd_sid c, cd_pid c) m /\ mfind (cd_pid c) (ps_pcr_map s) = Some (cd_pcr c) /\
  cd_nid c = ps_nid s /\ cd_tsid c = ps_tsid s /\ cd_time c = time.
Proof.
  intros s time m c. induction m as [|[sid pid] m IH]; cbn [ps_docs].
  - cbn. tauto.
  - destruct (mfind pid (ps_pcr_map s)) as [pcr|] eqn:E.
    + cbn. rewrite IH. split.
      * intros [<-|(H & R)]; cbn; [auto|]. split; [auto|exact R].
      * intros ([H|H] & R); [|auto]. left. injection H as -> ->. destruct R as (R1 & R2 & R3 & R4). rewrite R1 in E. injection E as <-.
        destruct c; cbn in *; subst; reflexivity.
    + rewrite IH. cbn. split; [intros (H & R); auto|]. intros ([H|H] & R); [|auto].
      injection H as -> ->. destruct R as (R & _). congruence.
Qed.

Lemma docs_sorted : forall s time m lo, msorted lo m ->
  StronglySorted (fun a b => cd_sid a < cd_sid b) (ps_docs s time m) /\ Forall (fun a => lo < cd_sid a) (ps_docs s time m).
Proof.
  intros s time m. induction m as [|[sid pid] m IH]; intros lo M; cbn in *.
  - split; constructor.
  - destruct M as [M1 M2]. destruct (IH sid M2) as [S F].
    assert (F' : Forall (fun a => lo < cd_sid a) (ps_docs s time m)).
    { eapply Forall_impl; [|exact F]. cbn. intros a A. lia. }
    destruct (mfind pid (ps_pcr_map s)); [|auto]. split; constructor; cbn; auto.
Qed.

Lemma docs_genuine : forall o t post s time c, inv o t post s -> In c (ps_docs s time (ps_pcr_pid_map s)) -> genuine o t post c.
Proof.
  intros o t post s time c V H. apply docs_in in H as (H & F & N1 & N2 & _).
  apply mfind_In in H; [|apply (iv_map _ _ _ _ V)].
  destruct (iv_find _ _ _ _ V _ _ H) as (q & m & M1 & M2 & M3 & M4).
  destruct (iv_pcr_map _ _ _ _ V _ _ F) as (_ & a & b & x & E & X).
  destruct (iv_heard _ _ _ _ V q M2) as [-> |[-> |[d D]]].
  1, 2: destruct (iv_good _ _ _ _ V _ _ M1) as (G1 & G2 & _); congruence.
  apply sel_in in M1 as [L W]. destruct (iv_sdt _ _ _ _ V d D) as [D1 D2].
  exists q, m, d. rewrite N1, N2. do 6 (split; [auto|]). split; [auto|]. exists a, b, x. auto.
Qed.

Lemma latest_cut : forall V (f : ev -> V -> Prop) a e b v, latest f (a ++ e :: b) v -> (forall w, ~ f e w) -> (forall y w, In y b -> ~ f y w) ->
  latest f a v.
Proof.
  intros V f a e b v H N M. change (a ++ e :: b) with (a ++ [e] ++ b) in H. rewrite app_assoc in H. revert H.
  induction b as [|y b IH] using rev_ind; intros H.
  - rewrite app_nil_r in H. apply latest_snoc in H as [H|[_ H]]; [destruct (N _ H)|exact H].
  - rewrite app_assoc in H. apply latest_snoc in H as [H|[_ H]].
    + destruct (M y v); [apply in_app_iff; cbn; auto|exact H].
    + apply IH; [|exact H]. intros z w Z. apply M. apply in_app_iff. auto.
Qed.

Lemma sync_genuine : forall o ps fuel code s, proper (trace ps) ->
  FeedPackets (list_source packet) (ps_sink o) fuel ps ps_init = Some (Ok (code, s)) ->
  (code = 1 /\ ps_out s = []) \/
  (code = 0 /\ exists h rest docs, ps = h ++ rest /\ ps_out s = [docs] /\
     StronglySorted (fun a b => cd_sid a < cd_sid b) docs /\
     (docs = [] \/ exists t post, since_pat (trace h) t post /\ forall c, In c docs -> genuine o t post c)).
Proof.
  intros o ps fuel code s P H. apply sync_fold in H; [|exact P].
  destruct H as [(-> & H & _)|(h & p & rest & s1 & -> & -> & _ & E & _ & time & _ & O)]; [left; auto|right].
  split; [reflexivity|]. exists (h ++ [p]), rest. eexists. split; [rewrite <- app_assoc; reflexivity|]. split; [exact O|].
  replace (h ++ p :: rest) with ((h ++ [p]) ++ rest) in P by (rewrite <- app_assoc; reflexivity).
  unfold trace in P. rewrite flat_map_app in P. apply proper_app in P as [P _]. fold (trace (h ++ [p])) in P.
  destruct (trace_inv o _ P) as [[_ V]|(t & post & T & V)]; rewrite <- E in V.
  - destruct V as (_ & _ & _ & V & _). rewrite V. split; [constructor|auto].
  - split.
    + destruct (is_map_msorted _ (ps_pcr_pid_map s1)) as [lo M]; [apply (iv_map _ _ _ _ V)|]. apply (docs_sorted _ _ _ lo M).
    + right. exists t, post. split; [exact T|]. intros c C. eapply docs_genuine; eassumption.
Qed.

(** * The time *)

Lemma docs_time : forall o t post s time c, inv o t post s -> ConvertJstTimeToUnixTime (ps_time s) = Ok time -> sane_tots post ->
  In c (ps_docs s time (ps_pcr_pid_map s)) -> exists x, latest tot_at post x /\ cd_time c = unix x.
Proof.
  intros o t post s time c V C T H. apply docs_in in H as (_ & F & _ & _ & ->).
  assert (S : ps_started s = true).
  { apply (iv_taken _ _ _ _ V). intros E. rewrite E in F. discriminate. }
  destruct (iv_tot _ _ _ _ V S) as [_ L]. exists (ps_time s). split; [exact L|].
  apply latest_in in L as (e & E & ->). specialize (T _ _ E).
  rewrite jst_unix_value in C by (change (2 ^ 44) with 17592186044416 in T; lia). injection C as <-. reflexivity.
Qed.

(** * One SDT *)

Definition avb (d : sdt) (e : Z * Z) : bool :=
  match mfind (fst e) (sdt_services d) with Some v => IsAudioVideoService (sv_type v) | None => false end.
Definition avs (o : ps_option) (t : pat) (d : sdt) : list (Z * Z) := filter (avb d) (sel o t).

Lemma avs_in : forall o t d sid q, In (sid, q) (avs o t d) <-> av_service o t d sid q.
Proof.
  intros o t d sid q. unfold avs, av_service. rewrite filter_In, sel_in. unfold avb. cbn [fst].
  assert (E : match mfind sid (sdt_services d) with Some v => IsAudioVideoService (sv_type v) | None => false end = true <->
    exists v, in_sdt d sid v /\ audio_video (sv_type v)).
  { split.
    - intros H. destruct (mfind sid (sdt_services d)) as [v|] eqn:F; [|discriminate]. exists v. split; [apply in_sdt_find; exact F|apply zmem_av; exact H].
    - intros (v & F & H). apply in_sdt_find in F. rewrite F. apply zmem_av. exact H. }
  rewrite E. tauto.
Qed.

Lemma filter_msorted : forall V (f : Z * V -> bool) l lo, msorted lo l -> msorted lo (filter f l).
Proof.
  intros V f l. induction l as [|[a b] l IH]; intros lo M; cbn in *; [exact I|]. destruct M as [M1 M2].
  destruct (f (a, b)); [cbn; auto|]. eapply msorted_weaken; [|apply IH; exact M2]. lia.
Qed.

Lemma avs_is_map : forall o t d, is_map (avs o t d).
Proof.
  intros o t d. destruct (is_map_msorted _ _ (sel_is_map o t)) as [lo M]. eapply msorted_is_map. apply filter_msorted. exact M.
Qed.

Lemma msorted_fst : forall V (m : list (Z * V)) lo, msorted lo m -> NoDup (map fst m) /\ forall k, In k (map fst m) -> lo < k.
Proof.
  intros V m. induction m as [|[a b] m IH]; intros lo M; cbn in *.
  - split; [constructor|intros k []].
  - destruct M as [M1 M2]. destruct (IH a M2) as [N L]. split.
    + constructor; [|exact N]. intros H. apply L in H. lia.
    + intros k [<-|K]; [exact M1|]. apply L in K. lia.
Qed.

Lemma is_map_fst : forall V (m : list (Z * V)), is_map m -> NoDup (map fst m).
Proof. intros V m M. apply is_map_msorted in M as [lo M]. exact (proj1 (msorted_fst V m lo M)). Qed.

Lemma in_fst : forall V (m : list (Z * V)) k, is_map m -> (In k (map fst m) <-> exists v, mfind k m = Some v).
Proof.
  intros V m k M. rewrite in_map_iff. split.
  - intros ([a b] & <- & H). exists b. apply mfind_In; assumption.
  - intros [v H]. exists (k, v). split; [reflexivity|]. apply mfind_In; assumption.
Qed.

Lemma zlen_fst : forall V (m : list (Z * V)), zlen m = Z.of_nat (List.length (map fst m)).
Proof. intros V m. rewrite map_length. reflexivity. Qed.

(** Nothing happens before the SDT. *)
Lemma fresh_step : forall o t s e, proper [e] -> (forall u, ~ pat_at e u) -> (forall d, ~ sdt_at e d) -> fresh o t s ->
  fresh o t (estep o s e).
Proof.
  intros o t s e P N1 N2 F. pose proof F as [F1 Fg F2 F3 F4 F5 F6 F7]. destruct e as [pid b|pid c]; cbn [estep].
  2:{ destruct (ps_done s); [exact F|]. unfold ps_take. rewrite F7. exact F. }
  destruct (zmem pid (ps_pids s)) eqn:L; [|exact F]. apply zmem_In, F2 in L. specialize (P _ _ (or_introl eq_refl)).
  destruct b as [u| |u| |u|u| |]; cbn [ps_tab]; try exact F.
  - unfold ps_HandlePat, PID_PAT. destruct (Z.eqb_spec pid 0) as [->|E]; cbn [negb]; [|exact F]. destruct u as [u|]; [|exact F].
    destruct (Z.eqb_spec (pat_tsid u) 0) as [E|E]; [exact F|]. destruct (N1 u). split; [reflexivity|exact E].
  - unfold ps_HandlePmt. destruct u as [m|]; [|exact F]. rewrite F1. destruct (mfind (pmt_sid m) (sel o t)) as [q|] eqn:E; [|exact F].
    apply mfind_In in E; [|apply sel_is_map]. destruct (Z.eqb_spec q pid) as [->|Q]; cbn [negb]; [|exact F].
    destruct (Fg _ _ E) as (G1 & G2 & _). destruct L; contradiction.
  - destruct u; [|exact F]. subst pid. destruct L; discriminate.
  - destruct u as [d|]; [|exact F]. subst pid. destruct (N2 d eq_refl).
Qed.

Lemma fresh_steps : forall o t a s, proper a -> no_pat a -> no_sdt a -> fresh o t s -> fresh o t (esteps o s a).
Proof.
  intros o t a s P N1 N2 F. induction a as [|e a IH] using rev_ind; [exact F|]. rewrite esteps_snoc.
  apply proper_app in P as [P1 P2]. apply fresh_step; [exact P2| | |].
  - intros u. apply N1. apply in_app_iff. cbn. auto.
  - intros u. apply N2. apply in_app_iff. cbn. auto.
  - apply IH; [exact P1| |]; intros x u X; [apply N1|apply N2]; apply in_app_iff; auto.
Qed.

(** After the SDT [d], with [b] since then. *)
Record one (o : ps_option) (t : pat) (d : sdt) (b : list ev) (s : ps_state) : Prop := mkOne {
  on_pmt : ps_pmt_pids s = sel o t;
  on_good : forall sid q, In (sid, q) (sel o t) -> good_q q;
  on_count : ps_pmt_count s = zlen (avs o t d);
  on_pids : forall x, x <> 0x14 -> (In x (ps_pids s) <-> x = 0 \/ x = 0x11 \/ exists sid, In (sid, x) (avs o t d));
  on_is_map : is_map (ps_pcr_pid_map s);
  on_map : forall sid, (exists pp, mfind sid (ps_pcr_pid_map s) = Some pp) <->
    exists q m, In (sid, q) (avs o t d) /\ In (Tab q (TPmt (Some m))) b /\ pmt_sid m = sid;
  on_tot : In 0x14 (ps_pids s) <-> ps_pcr_pid_map s <> [] /\ zlen (ps_pcr_pid_map s) = ps_pmt_count s;
  on_pcr_pids : forall pp, In pp (ps_pcr_pids s) <-> pp <> 0x1FFF /\ exists sid q m,
    In (sid, q) (avs o t d) /\ In (Tab q (TPmt (Some m))) b /\ pmt_sid m = sid /\ pmt_pcr_pid m = pp }.

Lemma one_start : forall o t s d, fresh o t s -> one o t d [] (ps_HandleSdt s (Some d)).
Proof.
  intros o t s d [F1 Fg F2 F3 F4 F5 F6 F7]. rewrite sdt_state.
  split; cbn [ps_pmt_pids ps_pids ps_pcr_pid_map ps_pcr_pids ps_pcr_map ps_started ps_pmt_count]; rewrite ?F1, ?F3, ?F4, ?F5; auto.
  - rewrite count_count. reflexivity.
  - intros x N. rewrite count_pids, F2. unfold avs. split.
    + intros [[X|X]|(sid & v & X & M & A)]; auto. right. right. exists sid. apply filter_In. split; [exact X|].
      unfold avb. cbn [fst]. rewrite M. exact A.
    + intros [X|[X|[sid X]]]; auto. right. apply filter_In in X as [X A]. unfold avb in A. cbn [fst] in A.
      destruct (mfind sid (sdt_services d)) as [v|] eqn:M; [|discriminate]. exists sid, v. auto.
  - exact I.
  - intros sid. split; [intros [pp H]; discriminate|intros (q & m & _ & [] & _)].
  - rewrite count_pids, F2. split; [|intros [H _]; destruct (H eq_refl)].
    intros [[X|X]|(sid & v & X & _)]; try discriminate. destruct (Fg _ _ X) as (_ & _ & G). destruct (G eq_refl).
  - intros pp. split; [intros []|intros (_ & sid & q & m & _ & [] & _)].
Qed.

Lemma one_size : forall o t d b s, one o t d b s -> zlen (ps_pcr_pid_map s) <= zlen (avs o t d).
Proof.
  intros o t d b s O. rewrite !zlen_fst. apply inj_le. apply NoDup_incl_length; [apply is_map_fst, (on_is_map _ _ _ _ _ O)|].
  intros k K. apply in_fst in K; [|apply (on_is_map _ _ _ _ _ O)]. apply (on_map _ _ _ _ _ O) in K as (q & m & K & _).
  apply in_map_iff. exists (k, q). auto.
Qed.

Lemma one_full : forall o t d b s, one o t d b s -> zlen (ps_pcr_pid_map s) = zlen (avs o t d) ->
  forall sid q, In (sid, q) (avs o t d) -> exists pp, mfind sid (ps_pcr_pid_map s) = Some pp.
Proof.
  intros o t d b s O E sid q H. apply in_fst; [apply (on_is_map _ _ _ _ _ O)|].
  assert (K : incl (map fst (avs o t d)) (map fst (ps_pcr_pid_map s))).
  { apply NoDup_length_incl.
    - apply is_map_fst, (on_is_map _ _ _ _ _ O).
    - rewrite !zlen_fst in E. lia.
    - intros k K. apply in_fst in K; [|apply (on_is_map _ _ _ _ _ O)]. apply (on_map _ _ _ _ _ O) in K as (q' & m & K & _).
      apply in_map_iff. exists (k, q'). auto. }
  apply K. apply in_map_iff. exists (sid, q). auto.
Qed.

Lemma one_skip : forall o t d b s e, one o t d b s ->
  (forall sid q m, In (sid, q) (avs o t d) -> e = Tab q (TPmt (Some m)) -> pmt_sid m = sid -> False) -> one o t d (b ++ [e]) s.
Proof.
  intros o t d b s e [H1 H2 H3 H4 H5 H6 H7 H8] N. split; auto.
  - intros sid. rewrite H6. split; intros (q & m & M1 & M2 & M3); exists q, m; (split; [exact M1|]; split; [|exact M3]).
    + apply in_app_iff. auto.
    + apply in_app_iff in M2 as [M2|[M2|[]]]; [exact M2|]. destruct (N sid q m M1 M2 M3).
  - intros pp. rewrite H8. split; intros (P & sid & q & m & M1 & M2 & M3 & M4); (split; [exact P|]); exists sid, q, m;
      (split; [exact M1|]; split; [|auto]).
    + apply in_app_iff. auto.
    + apply in_app_iff in M2 as [M2|[M2|[]]]; [exact M2|]. destruct (N sid q m M1 M2 M3).
Qed.

Lemma av_sel : forall o t d sid q, In (sid, q) (avs o t d) -> In (sid, q) (sel o t).
Proof. intros o t d sid q H. apply filter_In in H. tauto. Qed.

Lemma minsert_not_nil : forall V k (v : V) m, minsert k v m <> [].
Proof. intros V k v m H. pose proof (mfind_minsert V k k v m) as E. rewrite H, Z.eqb_refl in E. discriminate. Qed.

Lemma minsert_size : forall V k (v : V) m, is_map m -> zlen m <= zlen (minsert k v m).
Proof.
  intros V k v m M. rewrite !zlen_fst. apply inj_le. apply NoDup_incl_length; [apply is_map_fst; exact M|].
  intros x X. apply in_fst in X as [w W]; [|exact M]. apply in_fst; [apply is_map_minsert; exact M|].
  rewrite mfind_minsert. destruct (x =? k); eauto.
Qed.

Lemma one_pmt : forall o t d b s pid m, distinct_pids t -> one o t d b s -> In pid (ps_pids s) ->
  one o t d (b ++ [Tab pid (TPmt (Some m))]) (ps_HandlePmt s pid (Some m)).
Proof.
  intros o t d b s pid m D O L. unfold ps_HandlePmt. pose proof (one_size _ _ _ _ _ O) as Z0. rewrite (on_pmt _ _ _ _ _ O).
  destruct (mfind (pmt_sid m) (sel o t)) as [q|] eqn:E.
  2:{ apply one_skip; [exact O|]. intros sid q w A W1 W2. injection W1 as -> ->. subst sid. apply av_sel in A.
      apply mfind_In in A; [|apply sel_is_map]. congruence. }
  destruct (Z.eqb_spec q pid) as [->|Q]; cbn [negb].
  2:{ apply one_skip; [exact O|]. intros sid q' w A W1 W2. injection W1 as -> ->. subst sid. apply av_sel in A.
      apply mfind_In in A; [|apply sel_is_map]. congruence. }
  apply mfind_In in E; [|apply sel_is_map].
  assert (A : In (pmt_sid m, pid) (avs o t d)).
  { destruct (on_good _ _ _ _ _ O _ _ E) as (G1 & G2 & G3). apply (on_pids _ _ _ _ _ O pid G3) in L as [L|[L|[sid L]]]; [contradiction|contradiction|].
    assert (K : sid = pmt_sid m).
    { apply av_sel, sel_in in L as [L _]. apply sel_in in E as [E _]. exact (D _ _ _ L E). }
    subst sid. exact L. }
  assert (Fits : zlen (minsert (pmt_sid m) (pmt_pcr_pid m) (ps_pcr_pid_map s)) <= zlen (avs o t d)).
  { rewrite !zlen_fst. apply inj_le. apply NoDup_incl_length; [apply is_map_fst, is_map_minsert, (on_is_map _ _ _ _ _ O)|].
    intros k K. apply in_fst in K as [v K]; [|apply is_map_minsert, (on_is_map _ _ _ _ _ O)]. rewrite mfind_minsert in K.
    destruct (Z.eqb_spec k (pmt_sid m)) as [->|N].
    - apply in_map_iff. exists (pmt_sid m, pid). auto.
    - assert (K' : exists v, mfind k (ps_pcr_pid_map s) = Some v) by eauto. apply (on_map _ _ _ _ _ O) in K' as (q' & w & K' & _).
      apply in_map_iff. exists (k, q'). auto. }
  pose proof (minsert_size _ (pmt_sid m) (pmt_pcr_pid m) _ (on_is_map _ _ _ _ _ O)) as Grow.
  destruct O as [H1 H2 H3 H4 H5 H6 H7 H8].
  split; cbn [ps_pmt_pids ps_pids ps_pcr_pid_map ps_pcr_pids ps_pcr_map ps_started ps_pmt_count]; auto.
  - intros x X. rewrite <- (H4 x X). destruct (_ =? _); [|reflexivity]. rewrite In_zadd. unfold PID_TOT. tauto.
  - apply is_map_minsert. exact H5.
  - intros sid. rewrite mfind_minsert. destruct (Z.eqb_spec sid (pmt_sid m)) as [->|N].
    + split; [|eauto]. intros _. exists pid, m. split; [exact A|]. split; [apply in_app_iff; cbn; auto|reflexivity].
    + rewrite H6. split; intros (q' & w & M1 & M2 & M3); exists q', w; (split; [exact M1|]; split; [|exact M3]).
      * apply in_app_iff. auto.
      * apply in_app_iff in M2 as [M2|[M2|[]]]; [exact M2|]. injection M2 as -> ->. congruence.
  - split.
    + intros K. split; [apply minsert_not_nil|]. destruct (Z.eqb_spec (zlen (minsert (pmt_sid m) (pmt_pcr_pid m) (ps_pcr_pid_map s))) (ps_pmt_count s)) as [E1|E1]; [exact E1|].
      apply H7 in K as [_ K]. lia.
    + intros [_ K]. apply Z.eqb_eq in K. rewrite K. apply In_zadd. auto.
  - intros pp.
    assert (K : In pp (if negb (pmt_pcr_pid m =? PID_NULL) then zadd (pmt_pcr_pid m) (ps_pcr_pids s) else ps_pcr_pids s) <->
      pp <> 0x1FFF /\ pmt_pcr_pid m = pp \/ In pp (ps_pcr_pids s)).
    { unfold PID_NULL. destruct (Z.eqb_spec (pmt_pcr_pid m) 0x1FFF) as [N|N]; cbn [negb].
      - split; [auto|]. intros [[N1 N2]|N1]; [congruence|exact N1].
      - rewrite In_zadd. split; [intros [-> |X]; auto|intros [[_ X]|X]; auto]. }
    rewrite K, H8. split.
    + intros [[P1 P2]|(P & sid & q' & w & M1 & M2 & M3 & M4)].
      * split; [exact P1|]. exists (pmt_sid m), pid, m. split; [exact A|]. split; [apply in_app_iff; cbn; auto|auto].
      * split; [exact P|]. exists sid, q', w. split; [exact M1|]. split; [apply in_app_iff; auto|auto].
    + intros (P & sid & q' & w & M1 & M2 & M3 & M4). apply in_app_iff in M2 as [M2|[M2|[]]].
      * right. split; [exact P|]. exists sid, q', w. auto.
      * injection M2 as _ ->. auto.
Qed.

Lemma one_step : forall o t d b s e, distinct_pids t -> proper [e] -> (forall u, ~ pat_at e u) -> (forall x, ~ sdt_at e x) ->
  one o t d b s -> one o t d (b ++ [e]) (estep o s e).
Proof.
  intros o t d b s e D P N1 N2 O. destruct e as [pid x|pid c]; cbn [estep].
  2:{ assert (K : one o t d (b ++ [Pcr pid c]) s) by (apply one_skip; [exact O|]; intros; discriminate).
      destruct (ps_done s); [exact K|]. unfold ps_take. destruct (_ && _ && _); [|exact K].
      destruct K as [H1 H2 H3 H4 H5 H6 H7 H8]. split; auto. }
  destruct (zmem pid (ps_pids s)) eqn:L.
  - apply zmem_In in L.
    assert (Skip : (forall m, x <> TPmt (Some m)) -> one o t d (b ++ [Tab pid x]) s).
    { intros N. apply one_skip; [exact O|]. intros sid q m _ E _. injection E as _ E. exact (N m E). }
    specialize (P _ _ (or_introl eq_refl)).
    destruct x as [u| |u| |u|u| |]; cbn [ps_tab]; try (apply Skip; discriminate).
    + unfold ps_HandlePat, PID_PAT. destruct (Z.eqb_spec pid 0) as [->|E]; cbn [negb]; [|apply Skip; discriminate].
      destruct u as [u|]; [|apply Skip; discriminate]. destruct (Z.eqb_spec (pat_tsid u) 0) as [E|E]; [apply Skip; discriminate|].
      destruct (N1 u). split; [reflexivity|exact E].
    + destruct u as [m|]; [|apply Skip; discriminate]. apply one_pmt; assumption.
    + destruct u as [y|]; [|apply Skip; discriminate].
      assert (K : one o t d (b ++ [Tab pid (TTot (Some y))]) s) by (apply Skip; discriminate).
      destruct K as [H1 H2 H3 H4 H5 H6 H7 H8]. split; auto.
    + destruct u as [y|]; [|apply Skip; discriminate]. subst pid. destruct (N2 y eq_refl).
  - apply zmem_false in L. apply one_skip; [exact O|]. intros sid q m A E _. injection E as -> ->. apply L.
    destruct (on_good _ _ _ _ _ O _ _ (av_sel _ _ _ _ _ A)) as (_ & _ & G).
    apply (on_pids _ _ _ _ _ O); [exact G|]. eauto.
Qed.

Lemma one_steps : forall o t d b s, distinct_pids t -> proper b -> no_pat b -> no_sdt b -> one o t d [] s -> one o t d b (esteps o s b).
Proof.
  intros o t d b s D P N1 N2 O. induction b as [|e b IH] using rev_ind; [exact O|]. rewrite esteps_snoc.
  apply proper_app in P as [P1 P2]. apply one_step; [exact D|exact P2| | |].
  - intros u. apply N1. apply in_app_iff. cbn. auto.
  - intros u. apply N2. apply in_app_iff. cbn. auto.
  - apply IH; [exact P1| |]; intros x u X; [apply N1|apply N2]; apply in_app_iff; auto.
Qed.

(** * From the PAT on *)

Lemma pat_fresh : forall o tr x t, proper (tr ++ [x]) -> pat_at x t -> fresh o t (esteps o ps_init (tr ++ [x])).
Proof.
  intros o tr x t P [-> U]. rewrite esteps_snoc. apply proper_app in P as [P1 P2]. cbn [estep].
  assert (B : base_ok (esteps o ps_init tr)) by (apply esteps_base; [exact P1|exact base_init]).
  destruct B as [B _]. apply zmem_In in B. rewrite B. cbn [ps_tab].
  destruct (trace_inv o tr P1) as [[_ V]|(t' & post & _ & V)]; [apply pat_virgin|eapply pat_inv]; eassumption.
Qed.

Lemma since_one : forall o tr x t a d b, proper (tr ++ x :: a ++ Tab 0x11 (TSdt (Some d)) :: b) -> distinct_pids t -> pat_at x t ->
  no_pat (a ++ Tab 0x11 (TSdt (Some d)) :: b) -> no_sdt a -> no_sdt b ->
  one o t d b (esteps o ps_init (tr ++ x :: a ++ Tab 0x11 (TSdt (Some d)) :: b)).
Proof.
  intros o tr x t a d b P D X N Na Nb.
  replace (tr ++ x :: a ++ Tab 0x11 (TSdt (Some d)) :: b) with ((((tr ++ [x]) ++ a) ++ [Tab 0x11 (TSdt (Some d))]) ++ b) in *
    by (rewrite <- !app_assoc; reflexivity).
  apply proper_app in P as [P P3]. apply proper_app in P as [P _]. apply proper_app in P as [P1 P2].
  rewrite esteps_app. apply one_steps; auto.
  - intros e u E. apply N. apply in_app_iff. cbn. auto.
  - pose proof (pat_fresh o tr x t P1 X) as F. apply (fresh_steps o t a) in F; auto.
    2:{ intros e u E. apply N. apply in_app_iff. auto. }
    rewrite <- esteps_app in F. rewrite esteps_snoc. cbn [estep].
    assert (L : In 0x11 (ps_pids (esteps o ps_init ((tr ++ [x]) ++ a)))) by (apply (fr_pids _ _ _ F); auto).
    apply zmem_In in L. rewrite L. cbn [ps_tab]. apply one_start. exact F.
Qed.

(** * Done *)

Lemma tab_not_done : forall o s pid b, selecting o [Tab pid b] -> ps_done s = false -> ps_done (estep o s (Tab pid b)) = false.
Proof.
  intros o s pid b S D. cbn [estep]. destruct (zmem pid (ps_pids s)); [|exact D]. destruct b as [u| |u| |u|u| |]; cbn [ps_tab]; try exact D.
  - unfold ps_HandlePat, PID_PAT. destruct (Z.eqb_spec pid 0) as [->|E]; cbn [negb]; [|exact D]. destruct u as [u|]; [|exact D].
    destruct (pat_tsid u =? 0); [exact D|]. cbn [ps_done]. destruct (S u (or_introl eq_refl)) as (sid & q & L & W).
    assert (K : In (sid, q) (ps_select o (pat_pmts u))) by (apply sel_in; auto).
    destruct (ps_select o (pat_pmts u)); [destruct K|]. destruct (ps_pmt_pids s); [exact D|reflexivity].
  - unfold ps_HandlePmt. destruct u; [|exact D]. destruct (mfind _ _); [|exact D]. destruct (negb _); exact D.
  - destruct u; exact D.
  - destruct u; [rewrite sdt_state|]; exact D.
Qed.

Lemma tabs_not_done : forall o pid l s, selecting o (map (fun t => Tab pid (tb_body t)) l) -> ps_done s = false ->
  ps_done (esteps o s (map (fun t => Tab pid (tb_body t)) l)) = false.
Proof.
  intros o pid l. induction l as [|t l IH]; intros s S D; [exact D|].
  cbn [map]. change (esteps o s (Tab pid (tb_body t) :: map (fun t => Tab pid (tb_body t)) l))
    with (esteps o (estep o s (Tab pid (tb_body t))) (map (fun t => Tab pid (tb_body t)) l)).
  apply IH.
  - intros u U. apply S. cbn. auto.
  - apply tab_not_done; [|exact D]. intros u [U|[]]. apply S. cbn. auto.
Qed.

Lemma take_done : forall s pid c, ps_done s = false -> ps_done (ps_take s pid c) = true ->
  zlen (ps_pcr_map (ps_take s pid c)) = zlen (ps_pcr_pids (ps_take s pid c)) /\ ps_pcr_map (ps_take s pid c) <> [].
Proof.
  intros s pid c D H. unfold ps_take in *. destruct (_ && _ && _); [|congruence]. cbn [ps_done ps_pcr_map ps_pcr_pids] in *.
  destruct (Z.eqb_spec (zlen (minsert pid c (ps_pcr_map s))) (zlen (ps_pcr_pids s))) as [E|E]; [|congruence].
  split; [exact E|apply minsert_not_nil].
Qed.

Lemma packet_done : forall o s p, selecting o (events p) -> ps_done s = false -> ps_done (esteps o s (events p)) = true ->
  zlen (ps_pcr_map (esteps o s (events p))) = zlen (ps_pcr_pids (esteps o s (events p))) /\ ps_pcr_map (esteps o s (events p)) <> [].
Proof.
  intros o s p S D H. unfold events in *. destruct (p_pid p =? 0x1FFF); [cbn in H; congruence|].
  rewrite esteps_app in *. set (s1 := esteps o s (map (fun t => Tab (p_pid p) (tb_body t)) (p_tabs p 0))) in *.
  assert (D1 : ps_done s1 = false).
  { apply tabs_not_done; [|exact D]. intros u U. apply S. apply in_app_iff. auto. }
  destruct (p_pcr p) as [c|]; cbn [esteps fold_left estep] in *; [|congruence]. rewrite D1 in *. apply take_done; assumption.
Qed.

Lemma all_taken : forall o t post s, inv o t post s -> zlen (ps_pcr_map s) = zlen (ps_pcr_pids s) ->
  forall pp, In pp (ps_pcr_pids s) -> exists c, mfind pp (ps_pcr_map s) = Some c.
Proof.
  intros o t post s V E pp H. apply in_fst; [apply (iv_pcr_is_map _ _ _ _ V)|].
  assert (K : incl (ps_pcr_pids s) (map fst (ps_pcr_map s))); [|apply K; exact H].
  apply NoDup_length_incl.
  - apply is_map_fst, (iv_pcr_is_map _ _ _ _ V).
  - rewrite zlen_fst in E. unfold zlen in E. lia.
  - intros k K. apply in_fst in K as [c K]; [|apply (iv_pcr_is_map _ _ _ _ V)]. apply (iv_pcr_map _ _ _ _ V _ _ K).
Qed.

Lemma trace_app : forall a b, trace (a ++ b) = trace a ++ trace b.
Proof. intros. apply flat_map_app. Qed.

Lemma sync_complete : forall o ps fuel code s, proper (trace ps) -> selecting o (trace ps) ->
  FeedPackets (list_source packet) (ps_sink o) fuel ps ps_init = Some (Ok (code, s)) -> code = 0 ->
  exists h rest docs t post, ps = h ++ rest /\ ps_out s = [docs] /\ since_pat (trace h) t post /\
    (forall c, In c docs -> genuine o t post c) /\
    forall a d b, distinct_pids t -> post = a ++ Tab 0x11 (TSdt (Some d)) :: b -> no_sdt a -> no_sdt b ->
      (forall c, In c docs -> exists q, av_service o t d (cd_sid c) q) /\
      (forall sid q, av_service o t d sid q -> exists m, latest (pmt_at q sid) post m /\
         (pmt_pcr_pid m <> 0x1FFF -> exists c, In c docs /\ cd_sid c = sid)).
Proof.
  intros o ps fuel code s P S H ->. apply sync_fold in H; [|exact P].
  destruct H as [(H & _)|(h & p & rest & s1 & -> & _ & D & E & D1 & time & _ & O)]; [discriminate|].
  replace (h ++ p :: rest) with ((h ++ [p]) ++ rest) in * by (rewrite <- app_assoc; reflexivity).
  rewrite trace_app in P. apply proper_app in P as [P _].
  assert (S1 : selecting o (events p)).
  { intros t T. apply S. rewrite !trace_app. apply in_app_iff. left. apply in_app_iff. right. cbn. rewrite app_nil_r. exact T. }
  assert (Q : zlen (ps_pcr_map s1) = zlen (ps_pcr_pids s1) /\ ps_pcr_map s1 <> []).
  { rewrite E in D1 |- *. rewrite trace_app, esteps_app in D1 |- *. cbn [trace flat_map] in D1 |- *. rewrite app_nil_r in D1 |- *.
    apply packet_done; assumption. }
  destruct Q as [Q1 Q2].
  destruct (trace_inv o _ P) as [[_ V]|(t & post & T & V)]; rewrite <- E in V.
  { destruct V as (_ & _ & _ & _ & _ & V & _). contradiction. }
  exists (h ++ [p]), rest, (ps_docs s1 time (ps_pcr_pid_map s1)), t, post. split; [reflexivity|]. split; [exact O|]. split; [exact T|].
  split; [intros c C; eapply docs_genuine; eassumption|].
  intros a d b Di -> Na Nb. destruct T as (pre & x & Tr & X & N).
  assert (On : one o t d b s1).
  { rewrite E, Tr. apply since_one; auto. rewrite <- Tr. exact P. }
  split.
  - intros c C. apply docs_in in C as (C & _). apply mfind_In in C; [|apply (iv_map _ _ _ _ V)].
    assert (C' : exists pp, mfind (cd_sid c) (ps_pcr_pid_map s1) = Some pp) by eauto.
    apply (on_map _ _ _ _ _ On) in C' as (q & m & C' & _). exists q. apply avs_in. exact C'.
  - intros sid q A. apply avs_in in A.
    destruct (iv_tot _ _ _ _ V (iv_taken _ _ _ _ V Q2)) as [L _]. apply (on_tot _ _ _ _ _ On) in L as [_ L].
    rewrite (on_count _ _ _ _ _ On) in L. destruct (one_full _ _ _ _ _ On L sid q A) as [pp F].
    destruct (iv_find _ _ _ _ V _ _ F) as (q' & m & M1 & _ & M3 & M4).
    rewrite (sel_unique o t sid q' q M1 (av_sel _ _ _ _ _ A)) in *. exists m. split; [exact M3|]. intros Nn.
    rewrite M4 in Nn. destruct (all_taken _ _ _ _ V Q1 pp (iv_pcr_pids _ _ _ _ V _ _ F Nn)) as [c C].
    exists (mkClockDoc (ps_nid s1) (ps_tsid s1) sid pp c time). split; [|reflexivity].
    apply docs_in. cbn. split; [apply mfind_In; [apply (iv_map _ _ _ _ V)|exact F]|auto].
Qed.

(** * The end is reached *)

(** A table other than a PAT keeps what has been taken. *)
Lemma tab_keeps : forall o s pid b, (forall u, ~ pat_at (Tab pid b) u) ->
  let s1 := estep o s (Tab pid b) in
  ps_pcr_map s1 = ps_pcr_map s /\ ps_done s1 = ps_done s /\ (forall x, In x (ps_pcr_pids s) -> In x (ps_pcr_pids s1)) /\
  (ps_started s = true -> ps_started s1 = true).
Proof.
  intros o s pid b N. cbn [estep]. destruct (zmem pid (ps_pids s)); [|auto]. destruct b as [u| |u| |u|u| |]; cbn [ps_tab]; auto.
  - unfold ps_HandlePat, PID_PAT. destruct (Z.eqb_spec pid 0) as [->|E]; cbn [negb]; [|auto]. destruct u as [u|]; [|auto].
    destruct (Z.eqb_spec (pat_tsid u) 0) as [E|E]; [auto|]. destruct (N u). split; [reflexivity|exact E].
  - unfold ps_HandlePmt. destruct u as [m|]; [|auto]. destruct (mfind _ _); [|auto]. destruct (negb (_ =? pid)); [auto|].
    cbn. repeat split; auto. intros x X. destruct (negb _); [apply In_zadd|]; auto.
  - destruct u; cbn; auto.
  - destruct u; [rewrite sdt_state|]; cbn; auto.
Qed.

(** Until it is done, something is missing. *)
Definition missing (s : ps_state) : Prop :=
  ps_pcr_map s <> [] -> ps_done s = true \/ exists pp, In pp (ps_pcr_pids s) /\ mfind pp (ps_pcr_map s) = None.

Lemma missing_take : forall o t post s pid c, inv o t post s -> missing s -> missing (ps_take s pid c).
Proof.
  intros o t post s pid c V M. pose proof (inv_take o t post s pid c V) as V'. unfold ps_take in *. destruct (_ && _ && _); [|exact M].
  intros _. cbn [ps_done ps_pcr_pids ps_pcr_map] in *. destruct (Z.eqb_spec (zlen (minsert pid c (ps_pcr_map s))) (zlen (ps_pcr_pids s))) as [E|E]; [auto|].
  right. destruct (forallb (fun pp => match mfind pp (minsert pid c (ps_pcr_map s)) with Some _ => true | None => false end) (ps_pcr_pids s)) eqn:F.
  - exfalso. apply E. rewrite forallb_forall in F.
    assert (I1 : is_map (minsert pid c (ps_pcr_map s))) by apply (iv_pcr_is_map _ _ _ _ V').
    rewrite zlen_fst. unfold zlen. apply inj_eq. apply Nat.le_antisymm; apply NoDup_incl_length.
    + apply is_map_fst. exact I1.
    + intros k K. apply in_fst in K as [v K]; [|exact I1]. apply (iv_pcr_map _ _ _ _ V' _ _ K).
    + apply (iv_nodup _ _ _ _ V).
    + intros k K. apply in_fst; [exact I1|]. specialize (F k K). cbn in F. destruct (mfind k (minsert pid c (ps_pcr_map s))); [eauto|discriminate].
  - assert (K : exists pp, In pp (ps_pcr_pids s) /\ (match mfind pp (minsert pid c (ps_pcr_map s)) with Some _ => true | None => false end) = false).
    { clear -F. induction (ps_pcr_pids s) as [|a l IH]; [discriminate|]. cbn in F. apply andb_false_iff in F as [F|F]; [exists a; cbn; auto|].
      destruct (IH F) as (pp & P1 & P2). exists pp. cbn. auto. }
    destruct K as (pp & K1 & K2). exists pp. split; [exact K1|]. destruct (mfind pp (minsert pid c (ps_pcr_map s))); [discriminate|reflexivity].
Qed.

Lemma missing_steps : forall o t post s, proper post -> no_pat post -> fresh o t s -> missing (esteps o s post).
Proof.
  intros o t post s P N F. induction post as [|e post IH] using rev_ind.
  - intros H. destruct (H (fr_pcr_map _ _ _ F)).
  - apply proper_app in P as [P1 P2].
    assert (N1 : no_pat post) by (intros x u X; apply N; apply in_app_iff; auto). specialize (IH P1 N1).
    assert (Ne : forall u, ~ pat_at e u) by (intros u; apply N; apply in_app_iff; cbn; auto).
    rewrite esteps_snoc. destruct e as [pid b|pid c].
    + destruct (tab_keeps o (esteps o s post) pid b Ne) as (K1 & K2 & K3 & _). unfold missing. rewrite K1, K2.
      intros H. destruct (IH H) as [D|(pp & Q1 & Q2)]; [auto|]. right. exists pp. auto.
    + cbn [estep]. destruct (ps_done (esteps o s post)) eqn:D; [intros _; auto|].
      eapply missing_take; [apply inv_steps; eassumption|exact IH].
Qed.

(** Once started, PCRs are taken. *)
Lemma taken_steps : forall o (Q : Z -> Prop) e s, no_pat e -> ps_started s = true -> (forall pp, Q pp -> In pp (ps_pcr_pids s)) ->
  let s1 := esteps o s e in
  ps_done s1 = true \/
  (ps_started s1 = true /\ (forall pp, Q pp -> In pp (ps_pcr_pids s1)) /\
   forall pp c, Q pp -> In (Pcr pp c) e -> exists v, mfind pp (ps_pcr_map s1) = Some v).
Proof.
  intros o Q e s N S H. cbn zeta. induction e as [|x e IH] using rev_ind.
  - right. cbn. repeat split; auto. intros pp c _ [].
  - assert (N1 : no_pat e) by (intros y u Y; apply N; apply in_app_iff; auto). specialize (IH N1).
    assert (Nx : forall u, ~ pat_at x u) by (intros u; apply N; apply in_app_iff; cbn; auto).
    rewrite esteps_snoc. destruct x as [pid b|pid c].
    + destruct (tab_keeps o (esteps o s e) pid b Nx) as (K1 & K2 & K3 & K4). rewrite K1, K2.
      destruct IH as [D|(I1 & I2 & I3)]; [auto|]. right. split; [auto|]. split; [auto|].
      intros pp c X Y. apply in_app_iff in Y as [Y|[Y|[]]]; [eauto|discriminate].
    + cbn [estep]. destruct (ps_done (esteps o s e)) eqn:D; [auto|]. destruct IH as [D'|(I1 & I2 & I3)]; [discriminate|].
      right. unfold ps_take. rewrite I1. cbn [andb].
      destruct (zmem pid (ps_pcr_pids (esteps o s e))) eqn:M; cbn [andb].
      * destruct (mfind pid (ps_pcr_map (esteps o s e))) as [v|] eqn:F.
        -- split; [exact I1|]. split; [exact I2|]. intros pp c' X Y. apply in_app_iff in Y as [Y|[Y|[]]]; [eauto|]. injection Y as <- <-. eauto.
        -- cbn [ps_started ps_pcr_pids ps_pcr_map]. split; [reflexivity|]. split; [exact I2|].
           intros pp c' X Y. rewrite mfind_minsert. destruct (Z.eqb_spec pp pid) as [E|E]; [eauto|].
           apply in_app_iff in Y as [Y|[Y|[]]]; [eauto|]. injection Y as <- <-. congruence.
      * split; [exact I1|]. split; [exact I2|]. intros pp c' X Y. apply in_app_iff in Y as [Y|[Y|[]]]; [eauto|]. injection Y as <- <-.
        apply zmem_false in M. destruct (M (I2 _ X)).
Qed.

Lemma names_avs : forall o t d tr pid, names o t d tr pid <-> pid <> 0x1FFF /\ exists sid q m,
  In (sid, q) (avs o t d) /\ In (Tab q (TPmt (Some m))) tr /\ pmt_sid m = sid /\ pmt_pcr_pid m = pid.
Proof.
  intros o t d tr pid. unfold names. split; intros (N & sid & q & m & A & R); (split; [exact N|]); exists sid, q, m;
    (split; [apply avs_in; exact A|exact R]).
Qed.

Lemma reaches_end : forall o pre x t a d b y e, 
  proper (pre ++ x :: a ++ Tab 0x11 (TSdt (Some d)) :: b ++ Tab 0x14 (TTot (Some y)) :: e) -> distinct_pids t -> pat_at x t ->
  no_pat (a ++ Tab 0x11 (TSdt (Some d)) :: b ++ Tab 0x14 (TTot (Some y)) :: e) ->
  no_sdt a -> no_sdt b -> no_sdt e ->
  (forall sid q, av_service o t d sid q -> exists m, In (Tab q (TPmt (Some m))) b /\ pmt_sid m = sid) ->
  (exists pid, names o t d b pid) ->
  (forall pid, names o t d (b ++ e) pid -> names o t d b pid /\ exists c, In (Pcr pid c) e) ->
  ps_done (esteps o ps_init (pre ++ x :: a ++ Tab 0x11 (TSdt (Some d)) :: b ++ Tab 0x14 (TTot (Some y)) :: e)) = true.
Proof.
  intros o pre x t a d b y e P D X N Na Nb Ne Pm [pid0 Nm] Pc.
  set (tot := Tab 0x14 (TTot (Some y))) in *. set (sd := Tab 0x11 (TSdt (Some d))) in *.
  assert (One : one o t d b (esteps o ps_init (pre ++ x :: a ++ sd :: b))).
  { apply since_one; auto.
    - replace (pre ++ x :: a ++ sd :: b ++ tot :: e) with ((pre ++ x :: a ++ sd :: b) ++ tot :: e) in P
        by (rewrite <- !app_assoc; cbn; rewrite <- !app_assoc; reflexivity).
      apply proper_app in P. tauto.
    - intros z u Z. apply N. rewrite app_comm_cons, app_assoc. apply in_app_iff. auto. }
  assert (OneE : one o t d (b ++ tot :: e) (esteps o ps_init (pre ++ x :: a ++ sd :: b ++ tot :: e))).
  { apply since_one; auto. intros z u Z. apply in_app_iff in Z as [Z|[<-|Z]]; [exact (Nb z u Z)|discriminate|exact (Ne z u Z)]. }
  set (sb := esteps o ps_init (pre ++ x :: a ++ sd :: b)) in *.
  assert (Full : In 0x14 (ps_pids sb)).
  { apply (on_tot _ _ _ _ _ One). apply names_avs in Nm as (_ & sid & q & m & A & B1 & B2 & _).
    assert (K : exists pp, mfind sid (ps_pcr_pid_map sb) = Some pp) by (apply (on_map _ _ _ _ _ One); eauto).
    destruct K as [pp K]. split; [intros E; rewrite E in K; discriminate|].
    rewrite (on_count _ _ _ _ _ One). apply Z.le_antisymm; [apply (one_size _ _ _ _ _ One)|].
    rewrite !zlen_fst. apply inj_le. apply NoDup_incl_length; [apply is_map_fst, avs_is_map|].
    intros k Kk. apply in_map_iff in Kk as ([k' q'] & <- & Kk). cbn [fst]. apply in_fst; [apply (on_is_map _ _ _ _ _ One)|].
    apply (on_map _ _ _ _ _ One). apply avs_in in Kk as Kv. destruct (Pm _ _ Kv) as (w & W1 & W2). exists q', w. auto. }
  set (st := estep o sb tot).
  assert (Est : st = ps_HandleTot sb (Some y)).
  { unfold st, tot. cbn [estep]. apply zmem_In in Full. rewrite Full. reflexivity. }
  assert (Eall : esteps o ps_init (pre ++ x :: a ++ sd :: b ++ tot :: e) = esteps o st e).
  { replace (pre ++ x :: a ++ sd :: b ++ tot :: e) with (((pre ++ x :: a ++ sd :: b) ++ [tot]) ++ e)
      by (rewrite <- !app_assoc; cbn; rewrite <- !app_assoc; reflexivity).
    rewrite esteps_app, esteps_snoc. reflexivity. }
  assert (Ms : missing (esteps o ps_init (pre ++ x :: a ++ sd :: b ++ tot :: e))).
  { replace (pre ++ x :: a ++ sd :: b ++ tot :: e) with ((pre ++ [x]) ++ a ++ sd :: b ++ tot :: e) in *
      by (rewrite <- !app_assoc; reflexivity).
    apply proper_app in P as [P1 P2]. rewrite esteps_app. apply (missing_steps o t); [exact P2|exact N|]. apply pat_fresh; assumption. }
  rewrite Eall in *.
  assert (Nn : no_pat e).
  { intros z u Z. apply N. rewrite app_comm_cons, app_assoc. apply in_app_iff. cbn. auto. }
  destruct (taken_steps o (names o t d b) e st Nn) as [Dn|(T1 & T2 & T3)].
  - rewrite Est. reflexivity.
  - intros pp H. rewrite Est. cbn. apply (on_pcr_pids _ _ _ _ _ One). apply names_avs. exact H.
  - exact Dn.
  - assert (Grow : forall pid, names o t d b pid -> names o t d (b ++ e) pid).
    { intros pid (G1 & sid & q & m & G2 & G3 & G4). split; [exact G1|]. exists sid, q, m. split; [exact G2|]. split; [apply in_app_iff; auto|exact G4]. }
    destruct Ms as [Dn|(pp & M1 & M2)]; [|exact Dn|].
    + destruct (Pc pid0 (Grow _ Nm)) as [_ [c C]]. destruct (T3 _ _ Nm C) as [v V]. intros E. rewrite E in V. discriminate.
    + exfalso. apply (on_pcr_pids _ _ _ _ _ OneE) in M1 as (G1 & sid & q & m & G2 & G3 & G4).
      assert (G : names o t d (b ++ e) pp).
      { split; [exact G1|]. exists sid, q, m. split; [apply avs_in; exact G2|]. split; [|exact G4].
        apply in_app_iff in G3 as [G3|[G3|G3]]; [apply in_app_iff; auto|discriminate|apply in_app_iff; auto]. }
      destruct (Pc pp G) as [G' [c C]]. destruct (T3 _ _ G' C) as [v V]. congruence.
Qed.

(** * It returns *)

Lemma sync_returns : forall o ps fuel, (forall p c, In p ps -> p_pcr p = Some c -> 0 <= c < 2576980377600) ->
  (forall p t x, In p ps -> In t (p_tabs p 0) -> tb_body t = TTot (Some x) -> 0 <= x < 2 ^ 44) -> (List.length ps < fuel)%nat ->
  exists code s, FeedPackets (list_source packet) (ps_sink o) fuel ps ps_init = Some (Ok (code, s)).
Proof.
  intros o ps fuel Hc Ht Hf. unfold FeedPackets. cbn [ps_sink sk_start].
  set (good := fun s => 0 <= ps_time s < 2 ^ 44).
  assert (Tab : forall s pid t, good s -> (forall x, tb_body t = TTot (Some x) -> 0 <= x < 2 ^ 44) ->
    exists s1, ps_handleTable o s pid t = Ok s1 /\ good s1).
  { intros s pid t G T. unfold ps_handleTable. destruct (tb_body t) as [u| |u| |u|u| |]; eexists; (split; [reflexivity|]); try exact G.
    - unfold ps_HandlePat. destruct (negb _); [exact G|]. destruct u as [u|]; [|exact G]. destruct (_ =? _); [exact G|].
      unfold good. cbn. destruct (ps_pmt_pids s); exact G.
    - unfold ps_HandlePmt. destruct u as [m|]; [|exact G]. destruct (mfind _ _); [|exact G]. destruct (negb _); exact G.
    - destruct u as [x|]; [|exact G]. apply (T x). reflexivity.
    - destruct u as [d|]; [rewrite sdt_state|]; exact G. }
  assert (Tabs : forall l s pid, good s -> (forall t x, In t l -> tb_body t = TTot (Some x) -> 0 <= x < 2 ^ 44) ->
    exists s1, handle_tables (ps_handleTable o) s pid l = Ok s1 /\ good s1).
  { intros l. induction l as [|t l IH]; intros s pid G T; cbn [handle_tables]; [eauto|].
    destruct (Tab s pid t G) as (s1 & E & G1); [intros x; apply T; cbn; auto|]. rewrite E. cbn [bind]. apply IH; [exact G1|].
    intros u x U. apply T. cbn. auto. }
  assert (Pk : forall s p, good s -> In p ps -> exists s1 r, ps_HandlePacket o s p = Ok (s1, r) /\ good s1).
  { intros s p G I. unfold ps_HandlePacket. destruct (p_pid p =? PID_NULL); [eauto|].
    destruct (Tabs (demux_feed (ps_pids s) 0 p) s (p_pid p) G) as (s1 & E & G1).
    { intros t x T. unfold demux_feed in T. destruct (zmem _ _); [|destruct T]. exact (Ht p t x I T). }
    rewrite E. cbn [bind]. destruct (ps_done s1); [eauto|]. unfold ps_capture. destruct (_ && _ && _); [|eauto].
    destruct (p_pcr p) as [c|] eqn:C; [|eauto]. specialize (Hc p c I C). unfold FormatPcr.
    assert (V : IsValidPcr c = true) by (unfold IsValidPcr; apply andb_true_iff; split; apply Z.leb_le; [lia|]; change kMaxPcr with 2576980377599; lia). rewrite V. cbn [assert bind]. eauto. }
  assert (Loop : forall l n s, incl l ps -> good s -> (List.length l < n)%nat ->
    exists s1, feed_loop (list_source packet) (ps_sink o) n l s = Some (Ok s1) /\ good s1).
  { intros l. induction l as [|p l IH]; intros n s I G Hn; (destruct n as [|n]; [cbn in Hn; lia|]); cbn [feed_loop list_source].
    - cbn. eauto.
    - cbn [list_source]. destruct (Pk s p G) as (s1 & r & E & G1); [apply I; cbn; auto|]. cbn. rewrite E. destruct r; [|eauto].
      apply IH; [intros q Q; apply I; cbn; auto|exact G1|cbn in Hn; lia]. }
  destruct (Loop ps fuel ps_init (fun x X => X)) as (s1 & E & G1); [unfold good; cbn; lia|exact Hf|].
  rewrite E. cbn. unfold ps_End, ps_GetExitCode. destruct (negb (ps_done s1)); cbn [bind]; [eauto|].
  rewrite jst_unix_value by (unfold good in G1; change (2 ^ 44) with 17592186044416 in G1; lia). cbn [bind]. eauto.
Qed.

(** * Times *)

Lemma sync_times : forall o ps fuel code s, proper (trace ps) -> sane_tots (trace ps) ->
  FeedPackets (list_source packet) (ps_sink o) fuel ps ps_init = Some (Ok (code, s)) -> code = 0 ->
  exists h rest docs, ps = h ++ rest /\ ps_out s = [docs] /\
    (docs = [] \/ exists t post x, since_pat (trace h) t post /\ latest tot_at post x /\
       forall c, In c docs -> genuine o t post c /\ cd_time c = unix x /\
         forall a b, post = a ++ Pcr (cd_pid c) (cd_pcr c) :: b -> (forall y w, In y b -> ~ tot_at y w) -> latest tot_at a x).
Proof.
  intros o ps fuel code s P S H ->. apply sync_fold in H; [|exact P].
  destruct H as [(H & _)|(h & p & rest & s1 & -> & _ & _ & E & _ & time & C & O)]; [discriminate|].
  replace (h ++ p :: rest) with ((h ++ [p]) ++ rest) in * by (rewrite <- app_assoc; reflexivity).
  rewrite trace_app in P. apply proper_app in P as [P _].
  exists (h ++ [p]), rest, (ps_docs s1 time (ps_pcr_pid_map s1)). split; [reflexivity|]. split; [exact O|].
  destruct (trace_inv o _ P) as [[_ V]|(t & post & T & V)]; rewrite <- E in V.
  { left. destruct V as (_ & _ & _ & V & _). rewrite V. reflexivity. }
  destruct (ps_docs s1 time (ps_pcr_pid_map s1)) as [|c0 docs] eqn:Dc; [auto|right].
  assert (Sp : sane_tots post).
  { intros pid x X. apply (S pid). rewrite trace_app. apply in_app_iff. left. destruct T as (a & y & -> & _). apply in_app_iff. cbn. auto. }
  assert (St : ps_started s1 = true).
  { assert (K : In c0 (ps_docs s1 time (ps_pcr_pid_map s1))) by (rewrite Dc; cbn; auto). apply docs_in in K as (_ & K & _).
    apply (iv_taken _ _ _ _ V). intros N. rewrite N in K. discriminate. }
  destruct (iv_tot _ _ _ _ V St) as [_ L]. exists t, post, (ps_time s1). split; [exact T|]. split; [exact L|].
  intros c K. rewrite <- Dc in K. split; [eapply docs_genuine; eassumption|]. split.
  - destruct (docs_time _ _ _ _ _ _ V C Sp K) as (x & X & ->). apply f_equal. apply docs_in in K.
    rewrite latest_q in X, L. clear -X L. destruct X as (a & u & b & E & U & N), L as (a' & u' & b' & E' & U' & N').
    unfold tot_at in U, U'. subst u u'. rewrite E in E'. clear E.
    assert (Z : forall l l' (m m' : list ev) i j, l ++ Tab 0x14 (TTot (Some i)) :: m = l' ++ Tab 0x14 (TTot (Some j)) :: m' ->
      (forall y, In y m -> ~ exists w, tot_at y w) -> (forall y, In y m' -> ~ exists w, tot_at y w) -> i = j).
    { intros l. induction l as [|z l IH]; intros l' m m' i j Q N1 N2; destruct l' as [|z' l']; cbn in Q; injection Q as Q1 Q2.
      - exact Q1.
      - exfalso. apply (N1 (Tab 0x14 (TTot (Some j)))); [rewrite Q2; apply in_elt|exists j; reflexivity].
      - exfalso. apply (N2 (Tab 0x14 (TTot (Some i)))); [rewrite <- Q2; apply in_elt|exists i; reflexivity].
      - exact (IH l' m m' i j Q2 N1 N2). }
    exact (Z _ _ _ _ _ _ E' N N').
  - intros a b Eq Nb. rewrite Eq in L. eapply latest_cut; [exact L|discriminate|exact Nb].
Qed.

(** With one PCR PID. *)
Definition named (post : list ev) (s : ps_state) : Prop :=
  forall pp, In pp (ps_pcr_pids s) -> pp <> 0x1FFF /\ exists q m, In (Tab q (TPmt (Some m))) post /\ pmt_pcr_pid m = pp.

Lemma named_step : forall o post s e, (forall u, ~ pat_at e u) -> named post s -> named (post ++ [e]) (estep o s e).
Proof.
  intros o post s e N H.
  assert (K : named (post ++ [e]) s).
  { intros pp P. destruct (H pp P) as (M0 & q & m & M1 & M2). split; [exact M0|]. exists q, m. split; [apply in_app_iff; auto|exact M2]. }
  destruct e as [pid b|pid c]; cbn [estep].
  - destruct (zmem pid (ps_pids s)); [|exact K]. destruct b as [u| |u| |u|u| |]; cbn [ps_tab]; try exact K.
    + unfold ps_HandlePat, PID_PAT. destruct (Z.eqb_spec pid 0) as [->|E]; cbn [negb]; [|exact K]. destruct u as [u|]; [|exact K].
      destruct (Z.eqb_spec (pat_tsid u) 0) as [E|E]; [exact K|]. destruct (N u). split; [reflexivity|exact E].
    + unfold ps_HandlePmt. destruct u as [m|]; [|exact K]. destruct (mfind _ _); [|exact K]. destruct (negb (_ =? pid)); [exact K|].
      intros pp P. cbn [ps_pcr_pids] in P. unfold PID_NULL in P. destruct (Z.eqb_spec (pmt_pcr_pid m) 0x1FFF) as [Z|Z]; cbn [negb] in P; [exact (K pp P)|].
      apply In_zadd in P as [-> |P]; [|exact (K pp P)]. split; [exact Z|].
      exists pid, m. split; [apply in_app_iff; cbn; auto|reflexivity].
    + destruct u; exact K.
    + destruct u; [rewrite sdt_state|]; exact K.
  - destruct (ps_done s); [exact K|]. unfold ps_take. destruct (_ && _ && _); exact K.
Qed.

Lemma named_steps : forall o t post s, no_pat post -> fresh o t s -> named post (esteps o s post).
Proof.
  intros o t post s N F. induction post as [|e post IH] using rev_ind.
  - intros pp P. cbn in P. rewrite (fr_pcr_pids _ _ _ F) in P. destruct P.
  - rewrite esteps_snoc. apply named_step; [intros u; apply N; apply in_app_iff; cbn; auto|].
    apply IH. intros x u X. apply N. apply in_app_iff. auto.
Qed.

Lemma sync_single : forall o ps fuel code s pp, proper (trace ps) -> sane_tots (trace ps) -> selecting o (trace ps) ->
  (forall q m, In (Tab q (TPmt (Some m))) (trace ps) -> pmt_pcr_pid m = pp \/ pmt_pcr_pid m = 0x1FFF) ->
  FeedPackets (list_source packet) (ps_sink o) fuel ps ps_init = Some (Ok (code, s)) -> code = 0 ->
  exists h rest docs t a pcr x, ps = h ++ rest /\ ps_out s = [docs] /\ since_pat (trace h) t (a ++ [Pcr pp pcr]) /\ latest tot_at a x /\
    forall c, In c docs -> genuine o t (a ++ [Pcr pp pcr]) c /\ cd_pid c = pp /\ cd_pcr c = pcr /\ cd_time c = unix x.
Proof.
  intros o ps fuel code s pp P Sa S Pm H ->. apply sync_fold in H; [|exact P].
  destruct H as [(H & _)|(h & p & rest & s1 & -> & _ & D & E & D1 & time & C & O)]; [discriminate|].
  replace (h ++ p :: rest) with ((h ++ [p]) ++ rest) in * by (rewrite <- app_assoc; reflexivity).
  rewrite trace_app in P. apply proper_app in P as [P _].
  assert (S1 : selecting o (events p)).
  { intros t T. apply S. rewrite !trace_app. apply in_app_iff. left. apply in_app_iff. right. cbn. rewrite app_nil_r. exact T. }
  assert (Last : exists tr pid c, trace (h ++ [p]) = tr ++ [Pcr pid c] /\ ps_done (esteps o ps_init tr) = false).
  { rewrite trace_app. cbn [trace flat_map]. rewrite app_nil_r. rewrite E, trace_app, esteps_app in D1. cbn [trace flat_map] in D1. rewrite app_nil_r in D1.
    unfold events in *. destruct (p_pid p =? 0x1FFF); [cbn in D1; congruence|].
    assert (D2 : ps_done (esteps o (esteps o ps_init (trace h)) (map (fun t => Tab (p_pid p) (tb_body t)) (p_tabs p 0))) = false).
    { apply tabs_not_done; [|exact D]. intros u U. apply S1. apply in_app_iff. auto. }
    rewrite esteps_app in D1. destruct (p_pcr p) as [c|]; [|cbn in D1; congruence].
    exists (trace h ++ map (fun t => Tab (p_pid p) (tb_body t)) (p_tabs p 0)), (p_pid p), c.
    split; [rewrite <- app_assoc; reflexivity|]. rewrite esteps_app. exact D2. }
  destruct Last as (tr & pid & c & Tr & Dt).
  rewrite Tr in *. rewrite esteps_snoc in E. cbn [estep] in E. rewrite Dt in E. set (s0 := esteps o ps_init tr) in *.
  apply proper_app in P as [P _].
  assert (Tk : ps_started s0 = true /\ In pid (ps_pcr_pids s0) /\ mfind pid (ps_pcr_map s0) = None /\ ps_pcr_map s1 = minsert pid c (ps_pcr_map s0)).
  { rewrite E in D1 |- *. unfold ps_take in D1 |- *. destruct (ps_started s0); cbn [andb] in *; [|congruence].
    destruct (zmem pid (ps_pcr_pids s0)) eqn:M; cbn [andb] in *; [|congruence]. apply zmem_In in M.
    destruct (mfind pid (ps_pcr_map s0)); [congruence|]. auto. }
  destruct Tk as (T1 & T2 & T3 & T4).
  destruct (trace_inv o tr P) as [[_ V]|(t & a & T & V)]; fold s0 in V.
  { destruct V as (_ & _ & _ & _ & V & _). rewrite V in T2. destruct T2. }
  assert (Nm : forall z, In z (ps_pcr_pids s0) -> z = pp).
  { intros z Z. destruct T as (pre & x & Tr' & X & N).
    assert (K : named a (esteps o (esteps o ps_init (pre ++ [x])) a)).
    { apply (named_steps o t); [exact N|]. apply pat_fresh; [|exact X]. rewrite Tr' in P.
      replace (pre ++ x :: a) with ((pre ++ [x]) ++ a) in P by (rewrite <- app_assoc; reflexivity). apply proper_app in P. tauto. }
    rewrite <- esteps_app, <- app_assoc in K. cbn [app] in K. rewrite <- Tr' in K. fold s0 in K. destruct (K z Z) as (M0 & q & m & M1 & M2).
    assert (M3 : pmt_pcr_pid m = pp \/ pmt_pcr_pid m = 0x1FFF); [|destruct M3; congruence]. apply (Pm q). rewrite trace_app, Tr. apply in_app_iff. left. apply in_app_iff. left. rewrite Tr'. apply in_app_iff. cbn. auto. }
  assert (pid = pp) by auto. subst pid.
  assert (V1 : inv o t (a ++ [Pcr pp c]) s1) by (rewrite E; apply inv_take; exact V).
  assert (Tm : ps_time s1 = ps_time s0) by (rewrite E; unfold ps_take; destruct (_ && _ && _); reflexivity).
  destruct (iv_tot _ _ _ _ V T1) as [_ L].
  exists (h ++ [p]), rest, (ps_docs s1 time (ps_pcr_pid_map s1)), t, a, c, (ps_time s0).
  split; [reflexivity|]. split; [exact O|]. split; [|split; [exact L|]].
  - rewrite Tr. destruct T as (pre & x & -> & X & N). exists pre, x. split; [rewrite <- app_assoc; reflexivity|]. split; [exact X|].
    intros y u Y. apply in_app_iff in Y as [Y|[<-|[]]]; [exact (N y u Y)|]. intros [Q _]. discriminate.
  - intros d Dc. split; [eapply docs_genuine; eassumption|]. apply docs_in in Dc as (_ & F & _ & _ & ->). rewrite T4, mfind_minsert in F.
    assert (K : cd_pid d = pp /\ cd_pcr d = c).
    { destruct (Z.eqb_spec (cd_pid d) pp) as [Q|Q]; [injection F as <-; auto|].
      exfalso. apply Q. apply Nm. apply (iv_pcr_map _ _ _ _ V _ _ F). }
    destruct K as [K1 K2]. split; [exact K1|]. split; [exact K2|].
    assert (Sx : 0 <= ps_time s0 < 2 ^ 44).
    { apply latest_in in L as (y & Y & ->). apply (Sa 0x14). rewrite trace_app, Tr. apply in_app_iff. left. apply in_app_iff. left.
      destruct T as (pre & x & -> & _). apply in_app_iff. cbn. auto. }
    rewrite Tm, jst_unix_value in C by (change (2 ^ 44) with 17592186044416 in Sx; lia). injection C as <-. reflexivity.
Qed.
