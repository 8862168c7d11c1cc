(** print-pes prints what Spec/PesSpec.v says. *)
From Coq Require Import ZArith List Bool Lia.
From Verif Require Import Base.Outcome Base.Util Model.Pcr Model.Clock Model.Sink Model.Ts Model.PesPrinter
  Spec.PcrSpec Spec.ClockSpec Spec.PesSpec Proofs.PcrProofs Proofs.ClockProofs Proofs.FeedProofs.
Import ListNotations.
Open Scope Z_scope.

(** * One event at a time *)

Definition pp_pcr1 (s : pp_state) (pid pcr : Z) : res pp_state :=
  match mfind pid (pp_clocks s) with
  | None => Ok s
  | Some c =>
      let* c1 := ck_UpdatePcr c pcr in
      pp_Print (mkPp (pp_pids s) (pp_sids s) (pp_pmt_pids s) (minsert pid c1 (pp_clocks s)) (pp_streams s) (pp_done s) (pp_out s))
        SPcr pid None pid pcr
  end.

Definition pp_pes1 (s : pp_state) (k : stamp) (pid pcr : Z) : res pp_state :=
  assert (IsValidPcr pcr) (
  match mfind pid (pp_streams s) with
  | Some (kind, pcr_pid) => pp_Print s k pid (Some kind) pcr_pid pcr
  | None => pp_Print s k pid None PID_NULL pcr
  end).

Definition pp_ev (s : pp_state) (e : ev) : res pp_state :=
  match e with
  | Stamp SPcr pid v => pp_pcr1 s pid v
  | Stamp k pid v => pp_pes1 s k pid v
  | Tab pid b => pp_handleTable s pid (mkTable b 0)
  end.

Fixpoint pp_evs (s : pp_state) (l : list ev) : res pp_state :=
  match l with
  | [] => Ok s
  | e :: r => let* s1 := pp_ev s e in pp_evs s1 r
  end.

Lemma tag_range : forall v lo, CheckComponentTagByRange v lo (lo + 7) = tag_among [lo; lo + 1; lo + 2; lo + 3; lo + 4; lo + 5; lo + 6; lo + 7] v.
Proof.
  intros v lo. unfold CheckComponentTagByRange, tag_among. destruct (es_tag v) as [t|]; [|reflexivity]. cbn [existsb].
  destruct (Z.leb_spec lo t), (Z.leb_spec t (lo + 7)); cbn [andb];
    repeat match goal with |- context [Z.eqb ?a ?b] => destruct (Z.eqb_spec a b) end; cbn [orb]; try reflexivity; lia.
Qed.
Lemma label_right : forall v, stream_label v = label_of v.
Proof.
  intros v. unfold stream_label, label_of, labels. cbn [find snd fst]. destruct (es_audio v); [reflexivity|]. destruct (es_video v); [reflexivity|].
  destruct (es_subtitles v); [reflexivity|]. unfold IsAribSubtitle, IsAribSuperimposedText.
  rewrite (tag_range v 0x30 : CheckComponentTagByRange v 0x30 0x37 = tag_among [0x30; 0x31; 0x32; 0x33; 0x34; 0x35; 0x36; 0x37] v).
  rewrite (tag_range v 0x38 : CheckComponentTagByRange v 0x38 0x3F = tag_among [0x38; 0x39; 0x3A; 0x3B; 0x3C; 0x3D; 0x3E; 0x3F] v).
  destruct (tag_among _ v); [reflexivity|]. destruct (tag_among _ v); reflexivity.
Qed.

Lemma evs_app : forall a b s, pp_evs s (a ++ b) = let* s1 := pp_evs s a in pp_evs s1 b.
Proof.
  induction a as [|e a IH]; intros b s; cbn [pp_evs app bind]; [reflexivity|].
  destruct (pp_ev s e); cbn [bind]; auto.
Qed.

Lemma tables_evs : forall l s pid, handle_tables pp_handleTable s pid l = pp_evs s (map (fun t => Tab pid (tb_body t)) l).
Proof.
  induction l as [|t l IH]; intros s pid; cbn [handle_tables map pp_evs pp_ev]; [reflexivity|].
  replace (pp_handleTable s pid (mkTable (tb_body t) 0)) with (pp_handleTable s pid t) by reflexivity.
  destruct (pp_handleTable s pid t); cbn [bind]; auto.
Qed.

Lemma packet_evs : forall s p,
  pp_HandlePacket s p =
  let* s1 := pp_evs s (stamps p) in
  let* s2 := pp_evs s1 (if zmem (p_pid p) (pp_pids s1) then tables p else []) in
  Ok (s2, negb (pp_done s2)).
Proof.
  intros s p. unfold pp_HandlePacket, stamps.
  assert (A : pp_pcr s p = pp_evs s (match p_pcr p with Some v => [Stamp SPcr (p_pid p) v] | None => [] end)).
  { unfold pp_pcr. destruct (p_pcr p) as [v|]; [|reflexivity]. cbn [pp_evs pp_ev]. unfold pp_pcr1.
    destruct (mfind (p_pid p) (pp_clocks s)); [|reflexivity].
    destruct (ck_UpdatePcr c v); cbn [bind]; [|reflexivity]. destruct (pp_Print _ _ _ _ _ _); reflexivity. }
  assert (B : forall s k o, k <> SPcr -> pp_pes s k (p_pid p) o = pp_evs s (match o with Some v => [Stamp k (p_pid p) (300 * v)] | None => [] end)).
  { intros s0 k [v|] N; [|reflexivity]. cbn [pp_evs pp_ev pp_pes].
    replace (v * kMaxPcrExt) with (300 * v) by (unfold kMaxPcrExt; lia).
    assert (E : pp_ev s0 (Stamp k (p_pid p) (300 * v)) = pp_pes1 s0 k (p_pid p) (300 * v)) by (destruct k; congruence || reflexivity).
    cbn [pp_ev] in E. rewrite E. unfold pp_pes1, assert.
    destruct (IsValidPcr (300 * v)); [|reflexivity].
    destruct (mfind (p_pid p) (pp_streams s0)) as [[? ?]|]; destruct (pp_Print _ _ _ _ _ _); reflexivity. }
  rewrite A. rewrite evs_app.
  destruct (pp_evs s (match p_pcr p with Some v => [Stamp SPcr (p_pid p) v] | None => [] end)) as [s1|]; cbn [bind]; [|reflexivity].
  rewrite B by discriminate. rewrite evs_app.
  destruct (pp_evs s1 (match p_pts p with Some v => [Stamp SPts (p_pid p) (300 * v)] | None => [] end)) as [s2|]; cbn [bind]; [|reflexivity].
  rewrite B by discriminate.
  destruct (pp_evs s2 _) as [s3|]; cbn [bind]; [|reflexivity].
  rewrite tables_evs. unfold demux_feed, tables. destruct (zmem (p_pid p) (pp_pids s3)); reflexivity.
Qed.

(** * The relation between the past and the state *)

Definition base : list Z := [0; 1; 0x12; 0x14].

Record rel (past : list ev) (s : pp_state) : Prop := {
  r_pids : forall pid, zmem pid (pp_pids s) = listens past pid;
  r_sids : forall sid, zmem sid (pp_sids s) = zmem sid (map fst (services past));
  r_pmts : pp_pmt_pids s = map snd (services past);
  r_base : forall q, In q (map snd (services past)) -> zmem q base = false;
  r_map : is_map (pp_clocks s);
  r_clocks : forall q, match calls q past with
             | Some h => exists c, ck_run clock_init h = Ok c /\ mfind q (pp_clocks s) = Some c
             | None => mfind q (pp_clocks s) = None
             end;
  r_streams : forall pid, mfind pid (pp_streams s) = stream_of pid past;
  r_done : pp_done s = match the_pat past with Some (pid, t) => (pid =? 0) && match pat_pmts t with [] => true | _ => false end | None => false end;
  r_out : pp_out s = printed past }.

Lemma rel_init : rel [] pp_init.
Proof.
  split; try reflexivity.
  - intros pid. unfold listens. cbn [map services the_pat]. change (zmem pid []) with false. rewrite orb_false_r.
    cbn [pp_init pp_pids]. unfold PID_TOT, PID_EIT, PID_CAT, PID_PAT, zmem. cbn [existsb].
    destruct (pid =? 0), (pid =? 1), (pid =? 18), (pid =? 20); reflexivity.
  - intros q [].
Qed.

Definition proper_ev (e : ev) : Prop :=
  match e with
  | Tab _ (TPat (Some t)) => forall q, In q (map snd (pat_pmts t)) -> zmem q base = false
  | _ => True
  end.

(** An event that is no PAT, PMT, TOT or PCR. *)
Lemma rel_put : forall past s e l, rel past s ->
  (forall q, calls q (e :: past) = calls q past) -> the_pat (e :: past) = the_pat past ->
  (forall q, stream_of q (e :: past) = stream_of q past) -> lines past e = l -> rel (e :: past) (pp_put s l).
Proof.
  intros past s e l R Hc Hp Hs <-.
  assert (Hv : services (e :: past) = services past) by (unfold services; rewrite Hp; reflexivity).
  destruct R. split; cbn [pp_put pp_pids pp_sids pp_pmt_pids pp_clocks pp_streams pp_done pp_out]; auto.
  - intros pid. unfold listens. rewrite Hv. apply r_pids0.
  - rewrite Hv. exact r_sids0.
  - rewrite Hv. exact r_pmts0.
  - rewrite Hv. exact r_base0.
  - intros q. rewrite Hc. apply r_clocks0.
  - intros q. rewrite Hs. apply r_streams0.
  - rewrite Hp. exact r_done0.
  - cbn [printed]. rewrite r_out0. reflexivity.
Qed.

Lemma rel_skip : forall past s e, rel past s ->
  (forall q, calls q (e :: past) = calls q past) -> the_pat (e :: past) = the_pat past ->
  (forall q, stream_of q (e :: past) = stream_of q past) -> lines past e = [] -> rel (e :: past) s.
Proof.
  intros past s e R A B C D. pose proof (rel_put past s e [] R A B C D) as H.
  unfold pp_put in H. rewrite app_nil_r in H. destruct s; exact H.
Qed.

Lemma print_time : forall s k pid kind q pcr s', pp_Print s k pid kind q pcr = Ok s' ->
  s' = pp_put s [LStamp k pid kind
    (match mfind q (pp_clocks s) with
     | Some c => if ck_IsReady c then match ck_PcrToTime c pcr with Ok t => Some t | Fail _ => None end else None
     | None => None end) pcr].
Proof.
  intros s k pid kind q pcr s' H. unfold pp_Print in H.
  destruct (mfind q (pp_clocks s)) as [c|].
  - destruct (ck_IsReady c).
    + apply bind_ok in H as (t & E & H). rewrite E. apply bind_ok in H as (f & _ & H). congruence.
    + apply bind_ok in H as (f & _ & H). congruence.
  - apply bind_ok in H as (f & _ & H). congruence.
Qed.

Lemma rel_time : forall past s q v, rel past s ->
  match mfind q (pp_clocks s) with
  | Some c => if ck_IsReady c then match ck_PcrToTime c v with Ok t => Some t | Fail _ => None end else None
  | None => None end = time_of past q v.
Proof.
  intros past s q v R. pose proof (r_clocks _ _ R q) as H. unfold time_of.
  destruct (calls q past) as [h|].
  - destruct H as (c & E & ->). rewrite E. reflexivity.
  - rewrite H. reflexivity.
Qed.

Lemma null_calls : forall past, calls 0x1FFF past = None.
Proof.
  induction past as [|e past IH]; [reflexivity|]. cbn [calls].
  destruct e as [[| |] pid v|pid b]; auto.
  - rewrite IH. destruct (pid =? 0x1FFF); reflexivity.
  - destruct b as [[t|]|[t|]|[m|]|[x|]|[x|]|[d|]|[n|]|]; auto.
    + rewrite andb_false_r. auto.
    + rewrite IH. reflexivity.
Qed.

Lemma null_time : forall past v, time_of past 0x1FFF v = None.
Proof. intros. unfold time_of. rewrite null_calls. reflexivity. Qed.

Lemma step_pes : forall past s k pid v s', rel past s -> k <> SPcr -> pp_pes1 s k pid v = Ok s' -> rel (Stamp k pid v :: past) s'.
Proof.
  intros past s k pid v s' R N H. unfold pp_pes1 in H. apply assert_ok in H as [_ H].
  rewrite (r_streams _ _ R) in H.
  assert (X : exists l, s' = pp_put s l /\ lines past (Stamp k pid v) = l).
  { destruct (stream_of pid past) as [[kind q]|] eqn:E; apply print_time in H; rewrite (rel_time _ _ _ _ R) in H; eexists; (split; [exact H|]);
      (destruct k; [congruence| |]); cbn [lines]; rewrite E; try reflexivity; change PID_NULL with 0x1FFF; rewrite null_time; reflexivity. }
  destruct X as (l & -> & L). apply rel_put; auto; destruct k; congruence || reflexivity.
Qed.

Lemma step_pcr : forall past s pid v s', rel past s -> pp_pcr1 s pid v = Ok s' -> rel (Stamp SPcr pid v :: past) s'.
Proof.
  intros past s pid v s' R H. unfold pp_pcr1 in H.
  pose proof (r_clocks _ _ R pid) as Hc.
  destruct (calls pid past) as [h|] eqn:Ec.
  - destruct Hc as (c & Er & Ef). rewrite Ef in H. apply bind_ok in H as (c1 & Eu & H). apply print_time in H.
    cbn [pp_clocks] in H. rewrite mfind_minsert, Z.eqb_refl in H.
    assert (Er1 : ck_run clock_init (h ++ [OpPcr v]) = Ok c1) by (rewrite run_snoc, Er; exact Eu).
    assert (T : time_of (Stamp SPcr pid v :: past) pid v =
      if ck_IsReady c1 then match ck_PcrToTime c1 v with Ok t => Some t | Fail _ => None end else None).
    { unfold time_of. cbn [calls]. rewrite Z.eqb_refl, Ec, Er1. reflexivity. }
    rewrite <- T in H. subst s'.
    destruct R. split; cbn [pp_put pp_pids pp_sids pp_pmt_pids pp_clocks pp_streams pp_done pp_out]; auto.
    + apply is_map_minsert. auto.
    + intros q. cbn [calls]. rewrite mfind_minsert. destruct (Z.eqb_spec pid q) as [<-|Nq].
      * rewrite Ec, Z.eqb_refl. eauto.
      * destruct (Z.eqb_spec q pid); [congruence|]. apply r_clocks0.
    + cbn [printed lines]. rewrite Ec, r_out0. reflexivity.
  - rewrite Hc in H. inversion H; subst s'. apply rel_skip; auto.
    + intros q. cbn [calls]. destruct (Z.eqb_spec pid q) as [<-|]; [rewrite Ec|]; reflexivity.
    + cbn [lines]. rewrite Ec. reflexivity.
Qed.

(** ** PAT *)

Lemma reset_pids : forall l pids pid, zmem pid (fold_left (fun l pid => zrem pid l) l pids) = negb (zmem pid l) && zmem pid pids.
Proof.
  induction l as [|x l IH]; intros pids pid; cbn [fold_left]; [reflexivity|].
  rewrite IH, zmem_zrem. change (zmem pid (x :: l)) with ((pid =? x) || zmem pid l).
  destruct (pid =? x), (zmem pid l); reflexivity.
Qed.

Lemma add_pmts : forall l s,
  (forall pid, zmem pid (pp_pids (pp_add_pmts s l)) = zmem pid (pp_pids s) || zmem pid (map snd l)) /\
  (forall sid, zmem sid (pp_sids (pp_add_pmts s l)) = zmem sid (pp_sids s) || zmem sid (map fst l)) /\
  pp_pmt_pids (pp_add_pmts s l) = pp_pmt_pids s ++ map snd l /\
  pp_clocks (pp_add_pmts s l) = pp_clocks s /\ pp_streams (pp_add_pmts s l) = pp_streams s /\
  pp_done (pp_add_pmts s l) = pp_done s /\
  pp_out (pp_add_pmts s l) = pp_out s ++ map (fun x => LPatEntry (fst x) (snd x)) l.
Proof.
  induction l as [|[sid q] l IH]; intros s; cbn [pp_add_pmts map fst snd].
  - rewrite !app_nil_r. repeat split; auto; intros; cbn; rewrite orb_false_r; reflexivity.
  - destruct (IH (mkPp (zadd q (pp_pids s)) (zadd sid (pp_sids s)) (pp_pmt_pids s ++ [q]) (pp_clocks s) (pp_streams s)
        (pp_done s) (pp_out s ++ [LPatEntry sid q]))) as (A & B & C & D & E & F & G).
    cbn [pp_pids pp_sids pp_pmt_pids pp_clocks pp_streams pp_done pp_out] in *.
    repeat split; auto.
    + intros pid. rewrite A, zmem_zadd. change (zmem pid (q :: map snd l)) with ((pid =? q) || zmem pid (map snd l)).
      destruct (pid =? q), (zmem pid (pp_pids s)); reflexivity.
    + intros x. rewrite B, zmem_zadd. change (zmem x (sid :: map fst l)) with ((x =? sid) || zmem x (map fst l)).
      destruct (x =? sid), (zmem x (pp_sids s)); reflexivity.
    + rewrite C, <- app_assoc. reflexivity.
    + rewrite G, <- app_assoc. reflexivity.
Qed.

Lemma step_pat : forall past s pid t, rel past s -> proper_ev (Tab pid (TPat (Some t))) ->
  rel (Tab pid (TPat (Some t)) :: past) (pp_HandlePat s pid (Some t)).
Proof.
  intros past s pid t R P. cbn in P. unfold pp_HandlePat. change PID_PAT with 0.
  set (s1 := pp_put (pp_ResetStates s) [LPat (pat_version t) pid]).
  assert (Hpids : forall q, zmem q (pp_pids s1) = zmem q base).
  { intros q. subst s1. cbn [pp_put pp_pids pp_ResetStates]. rewrite reset_pids, (r_pids _ _ R), (r_pmts _ _ R). unfold listens.
    fold base. destruct (zmem q (map snd (services past))) eqn:E; cbn [negb andb].
    - apply zmem_In in E. rewrite (r_base _ _ R q E). reflexivity.
    - rewrite orb_false_r. reflexivity. }
  assert (Hs : services (Tab pid (TPat (Some t)) :: past) = if pid =? 0 then pat_pmts t else []) by reflexivity.
  assert (Ho : pp_out s1 = printed past ++ [LPat (pat_version t) pid]) by (subst s1; cbn; rewrite (r_out _ _ R); reflexivity).
  destruct (pid =? 0) eqn:Epid.
  - destruct (add_pmts (pat_pmts t) s1) as (A & B & C & D & E & F & G).
    assert (X : forall d, d = match pat_pmts t with [] => true | _ => false end ->
      rel (Tab pid (TPat (Some t)) :: past)
        (mkPp (pp_pids (pp_add_pmts s1 (pat_pmts t))) (pp_sids (pp_add_pmts s1 (pat_pmts t))) (pp_pmt_pids (pp_add_pmts s1 (pat_pmts t)))
          (pp_clocks (pp_add_pmts s1 (pat_pmts t))) (pp_streams (pp_add_pmts s1 (pat_pmts t))) d (pp_out (pp_add_pmts s1 (pat_pmts t))))).
    { intros d Hd. split; cbn [pp_pids pp_sids pp_pmt_pids pp_clocks pp_streams pp_done pp_out]; try rewrite Hs.
      - intros q. rewrite A, Hpids. unfold listens. rewrite Hs. reflexivity.
      - intros q. rewrite B. reflexivity.
      - rewrite C. reflexivity.
      - exact P.
      - rewrite D. apply (r_map _ _ R).
      - intros q. rewrite D. apply (r_clocks _ _ R q).
      - intros q. rewrite E. apply (r_streams _ _ R q).
      - cbn [the_pat]. rewrite Epid. exact Hd.
      - rewrite G, Ho. cbn [printed lines]. rewrite <- app_assoc. reflexivity. }
    destruct (pp_pmt_pids (pp_add_pmts s1 (pat_pmts t))) as [|x l] eqn:Ep.
    + specialize (X true). rewrite ?Ep in X. apply X. rewrite C in Ep. cbn in Ep. destruct (pat_pmts t); [reflexivity|discriminate].
    + rewrite C in Ep, X. cbn in Ep. destruct (pat_pmts t) as [|y r]; [discriminate|].
      specialize (X (pp_done (pp_add_pmts s1 (y :: r))) F).
      cbn [app pp_pmt_pids s1 pp_put pp_ResetStates] in X.
      replace (pp_add_pmts s1 (y :: r)) with
        (mkPp (pp_pids (pp_add_pmts s1 (y :: r))) (pp_sids (pp_add_pmts s1 (y :: r))) (map snd (y :: r))
          (pp_clocks (pp_add_pmts s1 (y :: r))) (pp_streams (pp_add_pmts s1 (y :: r))) (pp_done (pp_add_pmts s1 (y :: r)))
          (pp_out (pp_add_pmts s1 (y :: r)))); [exact X|].
      replace (map snd (y :: r)) with (pp_pmt_pids (pp_add_pmts s1 (y :: r))) by (rewrite C; reflexivity).
      destruct (pp_add_pmts s1 (y :: r)); reflexivity.
  - split; cbn [pp_put pp_pids pp_sids pp_pmt_pids pp_clocks pp_streams pp_done pp_out]; try rewrite Hs.
    + intros q. change (pp_pids _) with (pp_pids s1). rewrite Hpids. unfold listens. rewrite Hs. cbn [map]. fold base.
      replace (zmem q []) with false by reflexivity. rewrite orb_false_r. reflexivity.
    + reflexivity.
    + reflexivity.
    + intros q [].
    + apply (r_map _ _ R).
    + intros q. apply (r_clocks _ _ R q).
    + intros q. apply (r_streams _ _ R q).
    + cbn [the_pat]. rewrite Epid. reflexivity.
    + change (pp_out _ ++ _) with (pp_out s1 ++ map (fun e => LPatEntry (fst e) (snd e)) (pat_pmts t)). rewrite Ho. cbn [printed lines]. rewrite <- app_assoc. reflexivity.
Qed.

(** ** PMT *)

Lemma add_streams : forall l s q,
  pp_pids (pp_add_streams s q l) = pp_pids s /\ pp_sids (pp_add_streams s q l) = pp_sids s /\
  pp_pmt_pids (pp_add_streams s q l) = pp_pmt_pids s /\ pp_clocks (pp_add_streams s q l) = pp_clocks s /\
  pp_done (pp_add_streams s q l) = pp_done s /\
  pp_out (pp_add_streams s q l) = pp_out s ++ map (fun x => LStream (fst x) (label_of (snd x)) (es_type (snd x))) l.
Proof.
  induction l as [|[pid v] l IH]; intros s q; cbn [pp_add_streams map fst snd].
  - rewrite app_nil_r. auto 10.
  - destruct (IH (mkPp (pp_pids s) (pp_sids s) (pp_pmt_pids s) (pp_clocks s)
        (minsert pid (stream_label v, q) (pp_streams s)) (pp_done s) (pp_out s ++ [LStream pid (stream_label v) (es_type v)])) q) as (A & B & C & D & E & F).
    cbn [pp_pids pp_sids pp_pmt_pids pp_clocks pp_streams pp_done pp_out] in *.
    repeat split; auto. rewrite F, <- app_assoc, label_right. reflexivity.
Qed.

Lemma add_streams_find : forall l s q pid lo, msorted lo l ->
  mfind pid (pp_streams (pp_add_streams s q l)) =
  match mfind pid l with Some v => Some (label_of v, q) | None => mfind pid (pp_streams s) end.
Proof.
  induction l as [|[k v] l IH]; intros s q pid lo M; cbn [pp_add_streams mfind]; [reflexivity|].
  cbn [msorted fst] in M. destruct M as [M1 M2].
  rewrite (IH _ _ _ k M2). cbn [pp_streams]. rewrite mfind_minsert.
  destruct (Z.eqb_spec pid k) as [->|N].
  - rewrite (msorted_mfind_none _ l k k M2 (Z.le_refl _)). rewrite ?Z.eqb_refl, label_right. reflexivity.
  - destruct (Z.eqb_spec k pid); [congruence|]. reflexivity.
Qed.

Lemma step_pmt : forall past s pid m, rel past s -> rel (Tab pid (TPmt (Some m)) :: past) (pp_HandlePmt s (Some m)).
Proof.
  intros past s pid m R. unfold pp_HandlePmt.
  set (s1 := pp_put s [LPmt (pmt_sid m) (pmt_pcr_pid m) (pmt_version m)]).
  set (s2 := if negb (pmt_pcr_pid m =? PID_NULL) then _ else s1).
  destruct (add_streams (pmt_streams m) s2 (pmt_pcr_pid m)) as (A & B & C & D & E & F).
  assert (Hk : pp_pids s2 = pp_pids s /\ pp_sids s2 = pp_sids s /\ pp_pmt_pids s2 = pp_pmt_pids s /\ pp_done s2 = pp_done s /\
    pp_streams s2 = pp_streams s /\ pp_out s2 = pp_out s ++ [LPmt (pmt_sid m) (pmt_pcr_pid m) (pmt_version m)]).
  { subst s2. destruct (negb (pmt_pcr_pid m =? PID_NULL)); cbn; auto 10. }
  destruct Hk as (K1 & K2 & K3 & K4 & K5 & K6).
  assert (Hc : is_map (pp_clocks s2) /\ forall q, match calls q (Tab pid (TPmt (Some m)) :: past) with
             | Some h => exists c, ck_run clock_init h = Ok c /\ mfind q (pp_clocks s2) = Some c
             | None => mfind q (pp_clocks s2) = None end).
  { subst s2. change PID_NULL with 0x1FFF. destruct (Z.eqb_spec (pmt_pcr_pid m) 0x1FFF) as [E0|N0]; cbn [negb].
    - split; [apply (r_map _ _ R)|]. intros q. cbn [calls].
      destruct (Z.eqb_spec (pmt_pcr_pid m) q) as [Eq|Nq].
      + destruct (Z.eqb_spec q 0x1FFF); [|congruence]. cbn [negb andb]. apply (r_clocks _ _ R q).
      + cbn [andb]. apply (r_clocks _ _ R q).
    - split; [cbn; apply is_map_minsert; apply (r_map _ _ R)|]. intros q. cbn [calls pp_clocks]. rewrite mfind_minsert.
      destruct (Z.eqb_spec (pmt_pcr_pid m) q) as [Eq|Nq].
      + subst q. destruct (Z.eqb_spec (pmt_pcr_pid m) 0x1FFF); [congruence|]. cbn [negb andb]. rewrite Z.eqb_refl. eexists. split; reflexivity.
      + cbn [andb]. destruct (Z.eqb_spec q (pmt_pcr_pid m)); [congruence|]. apply (r_clocks _ _ R q). }
  destruct Hc as [Hm Hc].
  clearbody s2. clear s1.
  split.
  - intros q. rewrite A, K1. apply (r_pids _ _ R).
  - intros q. rewrite B, K2. apply (r_sids _ _ R).
  - rewrite C, K3. apply (r_pmts _ _ R).
  - apply (r_base _ _ R).
  - rewrite D. exact Hm.
  - intros q. rewrite D. apply Hc.
  - intros q. destruct (is_map_msorted _ _ (map_of_is_map _ (pmt_entries m))) as [lo M].
    rewrite (add_streams_find _ _ _ _ lo M). cbn [stream_of]. rewrite K5, (r_streams _ _ R). reflexivity.
  - rewrite E, K4. apply (r_done _ _ R).
  - rewrite F, K6. cbn [printed lines]. rewrite (r_out _ _ R), <- app_assoc. reflexivity.
Qed.

(** ** TOT *)

Lemma update_time : forall time l l', pp_update_time time l = Ok l' ->
  map fst l' = map fst l /\
  forall q, match mfind q l with
            | Some c => exists c', ck_UpdateTime c time 0 = Ok c' /\ mfind q l' = Some c'
            | None => mfind q l' = None
            end.
Proof.
  induction l as [|[k c] l IH]; intros l' H; cbn [pp_update_time] in H.
  - inversion H. split; reflexivity.
  - apply bind_ok in H as (c1 & E1 & H). apply bind_ok in H as (r1 & E2 & H). inversion H; subst.
    destruct (IH _ E2) as [A B]. split; [cbn; rewrite A; reflexivity|].
    intros q. cbn [mfind]. destruct (q =? k); [eauto|]. apply B.
Qed.

Lemma is_map_keys : forall V W (l : list (Z * V)) (m : list (Z * W)), map fst l = map fst m -> is_map m -> is_map l.
Proof.
  intros V W l m E M. apply is_map_msorted in M as [lo M]. apply msorted_is_map with lo.
  revert m lo E M. induction l as [|[k v] l IH]; intros [|[k' w] m] lo E M; try discriminate; [exact I|].
  cbn [msorted map fst] in *. injection E as -> E. destruct M as [M1 M2]. split; eauto.
Qed.

Lemma step_tot : forall past s pid t s', rel past s -> pp_HandleTot s (Some t) = Ok s' -> rel (Tab pid (TTot (Some t)) :: past) s'.
Proof.
  intros past s pid t s' R H. unfold pp_HandleTot in H. apply bind_ok in H as (l & E & H). inversion H; subst s'; clear H.
  destruct (update_time _ _ _ E) as [A B]. cbn [pp_put pp_clocks] in A, B.
  destruct R. split; cbn [pp_put pp_pids pp_sids pp_pmt_pids pp_clocks pp_streams pp_done pp_out]; auto.
  - eapply is_map_keys; eauto.
  - intros q. specialize (B q). cbn [calls]. specialize (r_clocks0 q). destruct (calls q past) as [h|].
    + destruct r_clocks0 as (c & Er & Ef). rewrite Ef in B. destruct B as (c' & Eu & B).
      exists c'. split; [|exact B]. rewrite run_snoc, Er. exact Eu.
    + rewrite r_clocks0 in B. exact B.
  - cbn [printed lines]. rewrite r_out0. reflexivity.
Qed.

(** ** EIT *)

Lemma events_lines : forall l i r, pp_events i l = Ok r -> r = event_lines i l.
Proof.
  induction l as [|v l IH]; intros i r H; cbn [pp_events] in H.
  - inversion H. reflexivity.
  - apply bind_ok in H as (d & E1 & H). apply bind_ok in H as (stop & E2 & H). apply bind_ok in H as (rest & E3 & H).
    inversion H; subst. apply i64_inv in E1 as [-> _]. apply i64_inv in E2 as [-> _]. apply IH in E3 as ->.
    cbn [event_lines]. f_equal. f_equal. unfold MilliSecPerSec. lia.
Qed.

Lemma step_eit : forall past s pid e s', rel past s -> pp_HandleEit s (Some e) = Ok s' -> rel (Tab pid (TEit (Some e)) :: past) s'.
Proof.
  intros past s pid e s' R H. unfold pp_HandleEit in H. rewrite (r_sids _ _ R) in H.
  destruct (zmem (eit_sid e) (map fst (services past))) eqn:Ez; cbn [negb] in H.
  - apply bind_ok in H as (l & E & H). inversion H; subst s'. apply events_lines in E as ->.
    apply rel_put; auto. cbn [lines]. rewrite Ez. reflexivity.
  - inversion H; subst s'. apply rel_skip; auto. cbn [lines]. rewrite Ez. reflexivity.
Qed.

Lemma step_rel : forall past s e s', rel past s -> proper_ev e -> pp_ev s e = Ok s' -> rel (e :: past) s'.
Proof.
  intros past s [k pid v|pid b] s' R P H; cbn [pp_ev] in H.
  - destruct k; [eapply step_pcr; eauto|eapply step_pes; eauto; discriminate|eapply step_pes; eauto; discriminate].
  - unfold pp_handleTable in H. cbn [tb_body] in H.
    destruct b as [[t|]|[t|]|[m|]|[x|]|[x|]|[d|]|[n|]|]; cbn [pp_HandlePat pp_HandleCat pp_HandlePmt] in H;
      try (inversion H; subst s'; apply rel_skip; auto; fail).
    + inversion H; subst s'. apply step_pat; auto.
    + inversion H; subst s'. apply rel_put; auto.
    + inversion H; subst s'. apply step_pmt; auto.
    + eapply step_eit; eauto.
    + eapply step_tot; eauto.
Qed.

Lemma evs_rel : forall l past s s', rel past s -> Forall proper_ev l -> pp_evs s l = Ok s' -> rel (rev l ++ past) s'.
Proof.
  induction l as [|e l IH]; intros past s s' R P H; cbn [pp_evs] in H.
  - inversion H; subst. exact R.
  - inversion P; subst. apply bind_ok in H as (s1 & E & H). cbn [rev]. rewrite <- app_assoc. cbn [app].
    eapply IH; eauto. eapply step_rel; eauto.
Qed.

Lemma proper_stamps : forall p, Forall proper_ev (stamps p).
Proof.
  intros p. unfold stamps. repeat (apply Forall_app; split); (destruct (p_pcr p) || idtac); (destruct (p_pts p) || idtac);
    (destruct (p_dts p) || idtac); repeat constructor.
Qed.

Lemma in_base : forall q, q <> 0 -> q <> 1 -> q <> 0x12 -> q <> 0x14 -> zmem q base = false.
Proof. intros q A B C D. apply zmem_false. intros [H|[H|[H|[H|[]]]]]; congruence. Qed.

Lemma proper_tables : forall p, proper p -> Forall proper_ev (tables p).
Proof.
  intros p P. unfold tables. apply Forall_map. apply Forall_forall. intros x I. cbn.
  destruct (tb_body x) as [[t|]|?|?|?|?|?|?|] eqn:E; auto.
  intros q Q. apply in_map_iff in Q as ((sid, q') & <- & Q). cbn [snd].
  assert (G : In (sid, q') (filter (fun e => negb (fst e =? 0)) (pat_entries t))).
  { unfold pat_pmts in Q. rewrite In_map_of_mfind, mfind_map_of in Q.
    apply in_rev. clear - Q. set (l := rev _) in *. clearbody l. induction l as [|[k v] l IH]; cbn [mfind] in Q; [discriminate|].
    destruct (Z.eqb_spec sid k); [left; congruence|right; auto]. }
  apply filter_In in G as [G1 G2]. cbn in G2. apply negb_true_iff, Z.eqb_neq in G2.
  destruct (P x t sid q' I E G1 G2) as (A & B & C & D). apply in_base; auto.
Qed.

Lemma listens_stamps : forall p past pid, listens (rev (stamps p) ++ past) pid = listens past pid.
Proof.
  intros p past pid.
  assert (X : the_pat (rev (stamps p) ++ past) = the_pat past).
  { unfold stamps. destruct (p_pcr p), (p_pts p), (p_dts p); reflexivity. }
  unfold listens, services. rewrite X. reflexivity.
Qed.

Definition after (past : list ev) (p : packet) : list ev :=
  (if listens past (p_pid p) then rev (tables p) else []) ++ rev (stamps p) ++ past.

Lemma packet_rel : forall past s p s' b, rel past s -> proper p -> pp_HandlePacket s p = Ok (s', b) ->
  rel (after past p) s' /\ b = negb (pp_done s').
Proof.
  intros past s p s' b R P H. rewrite packet_evs in H.
  apply bind_ok in H as (s1 & E1 & H). apply bind_ok in H as (s2 & E2 & H). inversion H; subst s2 b.
  split; [|reflexivity].
  pose proof (evs_rel _ _ _ _ R (proper_stamps p) E1) as R1.
  rewrite (r_pids _ _ R1), listens_stamps in E2. unfold after.
  destruct (listens past (p_pid p)).
  - eapply evs_rel; eauto using proper_tables.
  - cbn in E2. inversion E2; subst. exact R1.
Qed.

Lemma received_snoc : forall ps past p, received past (ps ++ [p]) = after (received past ps) p.
Proof. induction ps as [|x ps IH]; intros past p; cbn [received app]; [reflexivity|]. apply IH. Qed.

Lemma run_rel : forall ps past s s', rel past s -> (forall p, In p ps -> proper p) -> handles pp_sink s ps s' -> rel (received past ps) s'.
Proof.
  induction ps as [|p ps IH]; intros past s s' R P H; inversion H; subst; cbn [received].
  - exact R.
  - cbn [pp_sink sk_handle] in H3. destruct (packet_rel _ _ _ _ _ R (P p (or_introl eq_refl)) H3) as [R1 _].
    eapply IH; eauto. intros q Q. apply P. right; exact Q.
Qed.

Lemma done_no_service : forall past s, rel past s -> pp_done s = true -> no_service past.
Proof.
  intros past s R D. rewrite (r_done _ _ R) in D. destruct (the_pat past) as [[pid t]|] eqn:E; [|discriminate].
  apply andb_true_iff in D as [D1 D2]. apply Z.eqb_eq in D1 as ->. exists t. split; [exact E|]. destruct (pat_pmts t); [reflexivity|discriminate].
Qed.

Lemma no_service_done : forall past s, rel past s -> no_service past -> pp_done s = true.
Proof. intros past s R (t & E & N). rewrite (r_done _ _ R), E, N. reflexivity. Qed.

(** After packets that were all accepted there is a service. *)
Lemma accepted_service : forall ps past s s', rel past s -> ~ no_service past -> (forall p, In p ps -> proper p) -> handles pp_sink s ps s' ->
  ~ no_service (received past ps).
Proof.
  induction ps as [|p ps IH]; intros past s s' R N P H; inversion H; subst; cbn [received]; [exact N|].
  cbn [pp_sink sk_handle] in H3. destruct (packet_rel _ _ _ _ _ R (P p (or_introl eq_refl)) H3) as [R1 E].
  eapply IH; eauto. { intros X. apply (no_service_done _ _ R1) in X. rewrite X in E. discriminate. } intros q Q. apply P. right; exact Q.
Qed.
Lemma handles_first : forall a b s s', handles pp_sink s (a ++ b) s' -> exists s1, handles pp_sink s a s1.
Proof.
  induction a as [|p a IH]; intros b s s' H; [eexists; constructor|]. inversion H; subst. destruct (IH _ _ _ H5) as [sx A]. eexists. econstructor; eauto.
Qed.
Lemma init_service : ~ no_service [].
Proof. intros (t & E & _). discriminate. Qed.

Lemma pes_lines : forall ps fuel code s, (forall p, In p ps -> proper p) ->
  FeedPackets (list_source packet) pp_sink fuel ps pp_init = Some (Ok (code, s)) ->
  code = 0 /\ exists h, takes ps h /\ pp_out s = printed (received [] h).
Proof.
  intros ps fuel code s P H.
  destruct (feed_run _ pp_sink ps fuel pp_init pp_init code s eq_refl H) as (s2 & Ee & Ex & D).
  cbn in Ee, Ex. inversion Ee; inversion Ex; subst. split; [reflexivity|].
  assert (Q : forall a b s', (forall p, In p (a ++ b) -> proper p) -> handles pp_sink pp_init (a ++ b) s' -> ~ no_service (received [] a)).
  { intros a b s' Pa Ha. destruct (handles_first _ _ _ _ Ha) as [s1 H1].
    refine (accepted_service _ _ _ _ rel_init init_service _ H1). intros q I. apply Pa. apply in_or_app; auto. }
  destruct D as [D|(b & p & a & s1 & -> & D1 & D2)].
  - exists ps. pose proof (run_rel _ _ _ _ rel_init P D) as R. split; [|exact (r_out _ _ R)]. split.
    + exists []. rewrite app_nil_r. auto.
    + intros x y -> _. eapply Q; eauto.
  - assert (Pb : forall q, In q b -> proper q) by (intros q I; apply P; apply in_or_app; auto).
    assert (R : rel (received [] b) s1) by (eapply run_rel; eauto using rel_init).
    cbn [pp_sink sk_handle] in D2.
    assert (Pp : proper p) by (apply P; apply in_or_app; right; left; reflexivity).
    destruct (packet_rel _ _ _ _ _ R Pp D2) as [R1 E].
    exists (b ++ [p]). split; [|rewrite received_snoc; exact (r_out _ _ R1)]. split.
    + exists a. rewrite <- app_assoc. split; [reflexivity|]. rewrite received_snoc.
      right. apply (done_no_service _ s); [exact R1|]. symmetry in E. apply negb_false_iff in E. exact E.
    + intros x y E2 N. destruct (exists_last N) as [z [w ->]]. rewrite app_assoc in E2. apply app_inj_tail in E2 as [E2 _]. subst b. eapply Q; eauto.
Qed.

(** * print-pes does not abort *)

Definition sane_clock (c : clock) : Prop :=
  clock_inv c /\ IsValidPcr (bl_pcr (ck_baseline c)) = true /\ 0 <= bl_time (ck_baseline c) < 2 ^ 44.
Definition sane (s : pp_state) : Prop := forall q c, mfind q (pp_clocks s) = Some c -> sane_clock c.

Lemma sane_sync : forall c, sane_clock c ->
  exists c', ck_SyncPcr c = Ok c' /\ IsValidPcr (bl_pcr (ck_baseline c')) = true /\ bl_time (ck_baseline c') = bl_time (ck_baseline c).
Proof.
  intros c [[V _] _]. rewrite sync_ok by exact V. eexists. split; [reflexivity|]. split; [exact V|reflexivity].
Qed.

Lemma sane_pcr : forall c v, sane_clock c -> 0 <= v < pcr_cycle -> exists c', ck_UpdatePcr c v = Ok c' /\ sane_clock c'.
Proof.
  intros c v [I [B T]] V. destruct (step_inv c (OpPcr v) I V) as (c' & E & I'). cbn [ck_step] in E.
  exists c'. split; [exact E|]. split; [exact I'|].
  destruct (step_keeps_time c (OpPcr v) c' eq_refl E) as [Kt _]. rewrite Kt. split; [|exact T].
  unfold ck_UpdatePcr in E. apply assert_ok in E as [Hv E].
  assert (Hacc : forall g, ck_accept c v g = Ok c' -> IsValidPcr (bl_pcr (ck_baseline c')) = true).
  { intros g Ha. unfold ck_accept in Ha. cbn [ck_baseline] in Ha. destruct (bl_IsReady (ck_baseline c)).
    - inversion Ha; subst. exact B.
    - rewrite sync_ok in Ha by exact Hv. inversion Ha; subst. exact Hv. }
  destruct (ck_IsReady c); [|eauto].
  apply assert_ok in E as [_ E]. destruct (kPcrTicksPerSec <=? ComputeDelta v (ck_last_pcr c)); [|eauto].
  destruct (u8 (ck_gap_count c + 1) <=? kPcrGapCountThreshold); inversion E; subst; exact B.
Qed.

Lemma sane_time : forall c t, sane_clock c -> 0 <= t < 2 ^ 44 -> exists c', ck_UpdateTime c t 0 = Ok c' /\ sane_clock c'.
Proof.
  intros c t [I [B T]] V. destruct (step_inv c (OpTime t 0) I Logic.I) as (c' & E & I'). cbn [ck_step] in E.
  exists c'. split; [exact E|]. split; [exact I'|]. unfold ck_UpdateTime in E. cbn [ck_ready] in E.
  destruct (ck_ready c).
  - rewrite sync_ok in E by (exact (proj1 I)). inversion E; subst. split; [exact (proj1 I)|exact V].
  - inversion E; subst. split; [exact B|exact V].
Qed.

Lemma sane_PcrToTime : forall c v, sane_clock c -> ck_IsReady c = true -> IsValidPcr v = true ->
  ck_PcrToTime c v = Ok (bl_time (ck_baseline c) + Z.quot (v - bl_pcr (ck_baseline c)) 27000).
Proof.
  intros c v [I [B T]] R V. unfold ck_PcrToTime, assert. rewrite V. unfold bl_PcrToTime, assert.
  unfold ck_IsReady in R. apply andb_true_iff in R as [_ ->]. change kPcrTicksPerMs with 27000.
  apply i64_ok. apply valid_iff in V. apply valid_iff in B. unfold int64_min, int64_max.
  pose proof cycle_val as Hc. rewrite Hc in *.
  assert (-2576980377600 <= Z.quot (v - bl_pcr (ck_baseline c)) 27000 <= 2576980377600).
  { split; [apply Z.quot_le_lower_bound|apply Z.quot_le_upper_bound]; lia. }
  change (2 ^ 44) with 17592186044416 in T. lia.
Qed.

Lemma print_ok : forall s k pid kind q v, sane s -> IsValidPcr v = true ->
  exists l, pp_Print s k pid kind q v = Ok (pp_put s l).
Proof.
  intros s k pid kind q v S V. unfold pp_Print.
  assert (F : exists f, FormatPcr v = Ok f) by (unfold FormatPcr, assert; rewrite V; eauto). destruct F as [f F]. rewrite F.
  destruct (mfind q (pp_clocks s)) as [c|] eqn:E; cbn [bind]; [|eauto].
  destruct (ck_IsReady c) eqn:R; cbn [bind]; [|eauto].
  rewrite sane_PcrToTime by eauto. cbn [bind]. eauto.
Qed.

Definition ev_range (e : ev) : Prop :=
  match e with
  | Stamp _ _ v => 0 <= v < pcr_cycle
  | Tab _ (TTot (Some t)) => 0 <= t < 2 ^ 44
  | Tab _ (TEit (Some x)) => forall v, In v (eit_events x) -> 0 <= ev_start v < 2 ^ 44 /\ 0 <= ev_duration v < 2 ^ 24
  | _ => True
  end.

Lemma events_ok : forall l i, (forall v, In v l -> 0 <= ev_start v < 2 ^ 44 /\ 0 <= ev_duration v < 2 ^ 24) ->
  exists r, pp_events i l = Ok r.
Proof.
  induction l as [|v l IH]; intros i H; cbn [pp_events]; [eauto|].
  destruct (H v (or_introl eq_refl)) as [A B]. change (2 ^ 44) with 17592186044416 in A. change (2 ^ 24) with 16777216 in B.
  unfold MilliSecPerSec. rewrite i64_ok by (unfold int64_min, int64_max; lia). cbn [bind].
  rewrite i64_ok by (unfold int64_min, int64_max; lia). cbn [bind].
  destruct (IH (i + 1)) as [r ->]; [intros w W; apply H; right; exact W|]. cbn [bind]. eauto.
Qed.

Lemma update_ok : forall t l, (forall q c, mfind q l = Some c -> sane_clock c) -> is_map l -> 0 <= t < 2 ^ 44 ->
  exists l', pp_update_time t l = Ok l'.
Proof.
  intros t l S M T.
  assert (S' : forall q c, In (q, c) l -> sane_clock c) by (intros q c I; eapply S; apply mfind_In; eauto).
  clear S M. induction l as [|[q c] l IH]; cbn [pp_update_time]; [eauto|].
  destruct (sane_time c t (S' q c (or_introl eq_refl)) T) as (c' & -> & _). cbn [bind].
  destruct IH as [r ->]; [intros; eapply S'; right; eauto|]. cbn [bind]. eauto.
Qed.

Lemma ev_ok : forall s e, sane s -> is_map (pp_clocks s) -> ev_range e -> exists s', pp_ev s e = Ok s' /\ sane s'.
Proof.
  intros s [k pid v|pid b] S M R; cbn [ev_range] in R.
  - assert (V : IsValidPcr v = true) by (apply valid_iff; exact R).
    assert (P : k <> SPcr -> exists s', pp_pes1 s k pid v = Ok s' /\ sane s').
    { intros _. unfold pp_pes1, assert. rewrite V. destruct (mfind pid (pp_streams s)) as [[kind q]|].
      - destruct (print_ok s k pid (Some kind) q v S V) as [l ->]. eexists. split; [reflexivity|exact S].
      - destruct (print_ok s k pid None PID_NULL v S V) as [l ->]. eexists. split; [reflexivity|exact S]. }
    destruct k; [|apply P; discriminate|apply P; discriminate]. cbn [pp_ev]. unfold pp_pcr1.
    destruct (mfind pid (pp_clocks s)) as [c|] eqn:E; [|eauto].
    destruct (sane_pcr c v (S _ _ E) R) as (c1 & -> & S1). cbn [bind].
    set (s1 := mkPp _ _ _ _ _ _ _).
    assert (Ss : sane s1).
    { intros q c0 H. cbn in H. rewrite mfind_minsert in H. destruct (q =? pid); [inversion H; subst; exact S1|eauto]. }
    destruct (print_ok s1 SPcr pid None pid v Ss V) as [l ->]. eexists. split; [reflexivity|exact Ss].
  - cbn [pp_ev]. unfold pp_handleTable. cbn [tb_body].
    destruct b as [[t|]|[t|]|[m|]|[x|]|[x|]|[d|]|[n|]|]; cbn [pp_HandleCat pp_HandleEit pp_HandleTot];
      try (eexists; split; [reflexivity|exact S]; fail).
    + eexists. split; [reflexivity|]. unfold pp_HandlePat.
      set (s1 := pp_put (pp_ResetStates s) _). assert (E1 : pp_clocks s1 = pp_clocks s) by reflexivity.
      destruct (add_pmts (pat_pmts t) s1) as (_ & _ & _ & D & _).
      destruct (pid =? PID_PAT); [|exact S].
      destruct (pp_pmt_pids (pp_add_pmts s1 (pat_pmts t))); intros q c H; cbn [pp_clocks] in H; rewrite D, E1 in H; eauto.
    + eexists. split; [reflexivity|]. unfold pp_HandlePmt.
      match goal with |- sane (pp_add_streams ?y _ _) => set (s2 := y) end.
      destruct (add_streams (pmt_streams m) s2 (pmt_pcr_pid m)) as (_ & _ & _ & D & _).
      intros q c H. rewrite D in H. subst s2. destruct (negb (pmt_pcr_pid m =? PID_NULL)); cbn in H; [|eauto].
      rewrite mfind_minsert in H. destruct (q =? pmt_pcr_pid m); [|eauto].
      inversion H; subst. split; [|split; [reflexivity|cbn; lia]].
      destruct (step_inv clock_init (OpSetPid (pmt_pcr_pid m)) clock_inv_init I) as (c' & E & I'). cbn [ck_step] in E. inversion E; subst. exact I'.
    + destruct (negb (zmem (eit_sid x) (pp_sids s))); [eauto|].
      destruct (events_ok (eit_events x) 0 R) as [l ->]. cbn [bind]. eexists. split; [reflexivity|exact S].
    + destruct (update_ok x (pp_clocks s) S M R) as [l E]. cbn [pp_put pp_clocks]. rewrite E. cbn [bind].
      eexists. split; [reflexivity|]. intros q c H. cbn [pp_clocks] in H. destruct (update_time _ _ _ E) as [_ U]. specialize (U q).
      destruct (mfind q (pp_clocks s)) as [c0|] eqn:Ec; [|congruence].
      destruct U as (c' & U1 & U2). destruct (sane_time c0 x (S _ _ Ec) R) as (c2 & U3 & S2). congruence.
Qed.

Lemma evs_ok : forall l past s, rel past s -> sane s -> Forall proper_ev l -> Forall ev_range l -> exists s', pp_evs s l = Ok s' /\ sane s'.
Proof.
  induction l as [|e l IH]; intros past s R S P V; cbn [pp_evs]; [eauto|]. inversion P; inversion V; subst.
  destruct (ev_ok s e S (r_map _ _ R)) as (s1 & E & S1); auto. rewrite E. cbn [bind].
  eapply IH; eauto. eapply step_rel; eauto.
Qed.

Lemma range_stamps : forall p, in_range p -> Forall ev_range (stamps p).
Proof.
  intros p (A & B & C & _). assert (Hc := cycle_val). change (300 * 2 ^ 33) with 2576980377600 in A. change (2 ^ 33) with 8589934592 in B, C.
  unfold stamps. repeat (apply Forall_app; split).
  - destruct (p_pcr p) as [v|]; repeat constructor; cbn; specialize (A v eq_refl); lia.
  - destruct (p_pts p) as [v|]; repeat constructor; specialize (B v eq_refl); cbn [ev_range]; lia.
  - destruct (p_dts p) as [v|]; repeat constructor; specialize (C v eq_refl); cbn [ev_range]; lia.
Qed.

Lemma range_tables : forall p, in_range p -> Forall ev_range (tables p).
Proof.
  intros p (_ & _ & _ & D & E). unfold tables. apply Forall_map, Forall_forall. intros x I. cbn [ev_range].
  destruct (tb_body x) as [?|?|?|[e|]|[t|]|?|?|] eqn:B; auto; [intros v V; eapply E; eauto|eapply D; eauto].
Qed.

Lemma packet_ok : forall past s p, rel past s -> sane s -> proper p -> in_range p ->
  exists s' b, pp_HandlePacket s p = Ok (s', b) /\ sane s'.
Proof.
  intros past s p R S P V. rewrite packet_evs.
  destruct (evs_ok _ _ _ R S (proper_stamps p) (range_stamps p V)) as (s1 & E1 & S1). rewrite E1. cbn [bind].
  pose proof (evs_rel _ _ _ _ R (proper_stamps p) E1) as R1.
  destruct (evs_ok (if zmem (p_pid p) (pp_pids s1) then tables p else []) _ _ R1 S1) as (s2 & E2 & S2).
  - destruct (zmem (p_pid p) (pp_pids s1)); auto using proper_tables.
  - destruct (zmem (p_pid p) (pp_pids s1)); auto using range_tables.
  - rewrite E2. cbn [bind]. eauto.
Qed.

Lemma pes_returns : forall ps fuel, (forall p, In p ps -> proper p /\ in_range p) -> (List.length ps < fuel)%nat ->
  exists code s, FeedPackets (list_source packet) pp_sink fuel ps pp_init = Some (Ok (code, s)).
Proof.
  intros ps fuel H Hf. unfold FeedPackets. cbn [pp_sink sk_start].
  assert (L : exists s', feed_loop (list_source packet) pp_sink fuel ps pp_init = Some (Ok s')).
  { assert (G : forall ps fuel past s, rel past s -> sane s -> (forall p, In p ps -> proper p /\ in_range p) -> (List.length ps < fuel)%nat ->
      exists s', feed_loop (list_source packet) pp_sink fuel ps s = Some (Ok s')).
    { clear. induction ps as [|p ps IH]; intros fuel past s R S H Hf; (destruct fuel as [|n]; [cbn in Hf; lia|]); cbn [feed_loop list_source sr_next]; [eauto|].
      destruct (H p (or_introl eq_refl)) as [P V]. cbn [pp_sink sk_handle].
      destruct (packet_ok _ _ _ R S P V) as (s' & b & E & S'). rewrite E. destruct b; [|eauto].
      destruct (packet_rel _ _ _ _ _ R P E) as [R' _].
      apply (IH n (after past p) s' R' S'); [intros q Q; apply H; right; exact Q|cbn in Hf; lia]. }
    apply (G ps fuel [] pp_init rel_init); auto. intros q c Q. discriminate. }
  destruct L as [s' L]. rewrite L. cbn. eauto.
Qed.

(** * Where the times come from *)

Lemma is_ready_parts : forall c, ck_IsReady c = true -> ck_ready c = true /\ bl_pcr_ready (ck_baseline c) = true /\ bl_time_ready (ck_baseline c) = true.
Proof.
  intros c H. unfold ck_IsReady, bl_IsReady in H. apply andb_true_iff in H as [A B]. apply andb_true_iff in B as [B C]. auto.
Qed.

Fixpoint last_time (h : list clock_op) (acc : option Z) : option Z :=
  match h with
  | [] => acc
  | OpTime t _ :: r => last_time r (Some t)
  | _ :: r => last_time r acc
  end.

Lemma last_time_snoc : forall h acc op, last_time (h ++ [op]) acc = match op with OpTime t _ => Some t | _ => last_time h acc end.
Proof. induction h as [|x h IH]; intros acc op; cbn [app last_time]; [destruct op; reflexivity|]. destruct x; apply IH. Qed.

(** What the clock knows comes from its calls. *)
Definition from (h : list clock_op) (c : clock) : Prop :=
  (ck_ready c = true -> In (OpPcr (ck_last_pcr c)) h) /\
  (bl_pcr_ready (ck_baseline c) = true -> In (OpPcr (bl_pcr (ck_baseline c))) h) /\
  (bl_time_ready (ck_baseline c) = true -> last_time h None = Some (bl_time (ck_baseline c))).

Lemma sync_from : forall c c', ck_SyncPcr c = Ok c' ->
  ck_ready c' = ck_ready c /\ ck_last_pcr c' = ck_last_pcr c /\ bl_pcr (ck_baseline c') = ck_last_pcr c /\
  bl_time_ready (ck_baseline c') = bl_time_ready (ck_baseline c) /\ bl_time (ck_baseline c') = bl_time (ck_baseline c).
Proof.
  intros c c' H. unfold ck_SyncPcr, bl_SetPcr in H. apply bind_ok in H as (b & E & H). apply assert_ok in E as [_ E].
  inversion E; subst. inversion H; subst. cbn. auto.
Qed.

Lemma run_from : forall q h c, (forall x, ~ In (OpSetPid x) h) -> ck_run clock_init (OpSetPid q :: h) = Ok c -> from h c.
Proof.
  intros q h c N. revert c. induction h as [|op h IH] using rev_ind; intros c E.
  - cbn in E. inversion E; subst. repeat split; cbn; discriminate.
  - change (OpSetPid q :: h ++ [op]) with ((OpSetPid q :: h) ++ [op]) in E. rewrite run_snoc in E.
    apply bind_ok in E as (c0 & E0 & E).
    assert (N' : forall x, ~ In (OpSetPid x) h) by (intros x X; apply (N x); apply in_or_app; auto).
    destruct (IH N' c0 E0) as (F1 & F2 & F3). clear IH E0.
    destruct op as [x|t l|v]; cbn [ck_step] in E.
    + exfalso. apply (N x). apply in_or_app. right. left. reflexivity.
    + unfold ck_UpdateTime in E. cbn [ck_ready] in E. destruct (ck_ready c0) eqn:Er.
      * apply sync_from in E as (A & B & C & D & G). cbn in A, B, C, D, G.
        split; [|split]; rewrite ?A, ?B, ?C, ?D, ?G, ?last_time_snoc; intros; auto; apply in_or_app; left; auto.
      * inversion E; subst. cbn. unfold from. cbn. rewrite last_time_snoc. split; [congruence|]. split; [|auto].
        intros X. apply in_or_app. left. auto.
    + unfold ck_UpdatePcr in E. apply assert_ok in E as [_ E].
      assert (Hacc : forall g, ck_accept c0 v g = Ok c -> from (h ++ [OpPcr v]) c).
      { intros g Ha. unfold ck_accept in Ha. cbn [ck_baseline] in Ha. destruct (bl_IsReady (ck_baseline c0)) eqn:Eb.
        - inversion Ha; subst. unfold from. cbn. rewrite last_time_snoc. split; [intros _; apply in_or_app; right; left; reflexivity|].
          split; [intros X; apply in_or_app; left; auto|auto].
        - apply sync_from in Ha as (A & B & C & D & G). cbn in A, B, C, D, G. unfold from. rewrite A, B, C, D, G, last_time_snoc.
          split; [|split]; intros; auto; apply in_or_app; right; left; reflexivity. }
      destruct (ck_IsReady c0); [|eauto]. apply assert_ok in E as [_ E].
      destruct (kPcrTicksPerSec <=? ComputeDelta v (ck_last_pcr c0)); [|eauto].
      destruct (u8 (ck_gap_count c0 + 1) <=? kPcrGapCountThreshold); inversion E; subst; unfold from; cbn; rewrite last_time_snoc.
      * split; [|split]; auto; intros; apply in_or_app; left; auto.
      * repeat split; discriminate.
Qed.

(** The latest TOT. *)
Lemma calls_parts : forall q past h, calls q past = Some h ->
  exists a pid m b r, past = a ++ Tab pid (TPmt (Some m)) :: b /\ pmt_pcr_pid m = q /\
    (forall pid' m', In (Tab pid' (TPmt (Some m'))) a -> pmt_pcr_pid m' <> q) /\
    h = OpSetPid q :: r /\ (forall x, ~ In (OpSetPid x) r) /\
    (forall v, In (OpPcr v) r -> In (Stamp SPcr q v) a) /\
    (forall t, last_time r None = Some t -> exists a1 p a2, a = a1 ++ Tab p (TTot (Some t)) :: a2 /\ forall p' t', ~ In (Tab p' (TTot (Some t'))) a1).
Proof.
  intros q past. induction past as [|e past IH]; intros h H; [discriminate|]. cbn [calls] in H.
  assert (K : forall op, (forall x, op <> OpSetPid x) -> (forall v, op = OpPcr v -> e = Stamp SPcr q v) ->
      (forall t l, op = OpTime t l -> exists p, e = Tab p (TTot (Some t))) ->
      ((forall t l, op <> OpTime t l) -> forall p t, e <> Tab p (TTot (Some t))) ->
      (forall p m, e <> Tab p (TPmt (Some m))) ->
      match calls q past with Some h => Some (h ++ [op]) | None => None end = Some h ->
      exists a pid m b r, e :: past = a ++ Tab pid (TPmt (Some m)) :: b /\ pmt_pcr_pid m = q /\
        (forall pid' m', In (Tab pid' (TPmt (Some m'))) a -> pmt_pcr_pid m' <> q) /\
        h = OpSetPid q :: r /\ (forall x, ~ In (OpSetPid x) r) /\
        (forall v, In (OpPcr v) r -> In (Stamp SPcr q v) a) /\
        (forall t, last_time r None = Some t -> exists a1 p a2, a = a1 ++ Tab p (TTot (Some t)) :: a2 /\ forall p' t', ~ In (Tab p' (TTot (Some t'))) a1)).
  { intros op N1 N2 N3 N4 N5 E. destruct (calls q past) as [h0|]; [|discriminate]. injection E as <-.
    destruct (IH h0 eq_refl) as (a & pid & m & b & r & -> & Em & A & -> & B & C & D).
    exists (e :: a), pid, m, b, (r ++ [op]). split; [reflexivity|]. split; [exact Em|]. split; [|split; [reflexivity|split; [|split]]].
    - intros p' m' [X|X]; [exfalso; eapply N5; eauto|eauto].
    - intros x X. apply in_app_or in X as [X|[X|[]]]; [eapply B; eauto|eapply N1; eauto].
    - intros v X. apply in_app_or in X as [X|[X|[]]]; [right; auto|left; apply N2; auto].
    - intros t X. rewrite last_time_snoc in X. destruct op as [x|t' l|v].
      + exfalso; eapply N1; eauto.
      + injection X as ->. destruct (N3 t l eq_refl) as [p ->]. exists [], p, a. split; [reflexivity|]. intros ? ? [].
      + destruct (D t X) as (a1 & p & a2 & -> & D2). exists (e :: a1), p, a2. split; [reflexivity|].
        intros p' t' [Y|Y]; [|eapply D2; eauto]. eapply N4; eauto. discriminate. }
  assert (K0 : (forall p t, e <> Tab p (TTot (Some t))) -> (forall p m, e = Tab p (TPmt (Some m)) -> pmt_pcr_pid m <> q) ->
      calls q past = Some h ->
      exists a pid m b r, e :: past = a ++ Tab pid (TPmt (Some m)) :: b /\ pmt_pcr_pid m = q /\
        (forall pid' m', In (Tab pid' (TPmt (Some m'))) a -> pmt_pcr_pid m' <> q) /\
        h = OpSetPid q :: r /\ (forall x, ~ In (OpSetPid x) r) /\
        (forall v, In (OpPcr v) r -> In (Stamp SPcr q v) a) /\
        (forall t, last_time r None = Some t -> exists a1 p a2, a = a1 ++ Tab p (TTot (Some t)) :: a2 /\ forall p' t', ~ In (Tab p' (TTot (Some t'))) a1)).
  { intros N4 N5 E. destruct (IH h E) as (a & pid & m & b & r & -> & Em & A & -> & B & C & D).
    exists (e :: a), pid, m, b, r. split; [reflexivity|]. split; [exact Em|]. split; [|split; [reflexivity|split; [exact B|split]]].
    - intros p' m' [X|X]; [eauto|eauto].
    - intros v X. right; auto.
    - intros t X. destruct (D t X) as (a1 & p & a2 & -> & D2). exists (e :: a1), p, a2. split; [reflexivity|].
      intros p' t' [Y|Y]; [eapply N4; eauto|eapply D2; eauto]. }
  destruct e as [k pid v|pid b].
  - destruct k; try (apply K0; auto; discriminate).
    destruct (Z.eqb_spec pid q) as [->|]; [|apply K0; auto; discriminate].
    apply (K (OpPcr v)); auto; try discriminate. intros v' X. injection X as ->. reflexivity.
  - destruct b as [?|?|[m|]|?|[t|]|?|?|]; try (apply K0; auto; discriminate).
    + destruct ((pmt_pcr_pid m =? q) && negb (q =? 0x1FFF)) eqn:E.
      * apply andb_true_iff in E as [E _]. apply Z.eqb_eq in E. injection H as <-.
        exists [], pid, m, past, []. split; [reflexivity|]. split; [exact E|]. split; [intros ? ? []|]. split; [reflexivity|].
        split; [intros ? []|]. split; [intros ? []|discriminate].
      * apply K0; auto; [discriminate|]. intros p m' X Y. injection X as <- <-. subst q.
        rewrite Z.eqb_refl in E. cbn [andb] in E. apply negb_false_iff, Z.eqb_eq in E. rewrite E, null_calls in H. discriminate.
    + apply (K (OpTime t 0)); auto; try discriminate.
      * intros t' l X. injection X as <- <-. eauto.
      * intros X. exfalso. eapply X; reflexivity.
Qed.

Lemma bl_time_value : forall c v t, ck_PcrToTime c v = Ok t -> t = bl_time (ck_baseline c) + Z.quot (v - bl_pcr (ck_baseline c)) 27000.
Proof.
  intros c v t H. unfold ck_PcrToTime in H. apply assert_ok in H as [_ H]. unfold bl_PcrToTime in H. apply assert_ok in H as [_ H].
  apply i64_inv in H as [-> _]. reflexivity.
Qed.

Lemma time_source : forall past q v T, time_of past q v = Some T ->
  exists a pid m b a1 p a2 t r, past = a ++ Tab pid (TPmt (Some m)) :: b /\ pmt_pcr_pid m = q /\
    (forall pid' m', In (Tab pid' (TPmt (Some m'))) a -> pmt_pcr_pid m' <> q) /\
    a = a1 ++ Tab p (TTot (Some t)) :: a2 /\ (forall p' t', ~ In (Tab p' (TTot (Some t'))) a1) /\
    In (Stamp SPcr q r) a /\ T = t + Z.quot (v - r) 27000.
Proof.
  intros past q v T H. unfold time_of in H. destruct (calls q past) as [h|] eqn:E; [|discriminate].
  destruct (calls_parts _ _ _ E) as (a & pid & m & b & r & -> & Em & A & -> & B & C & D).
  destruct (ck_run clock_init (OpSetPid q :: r)) as [c|] eqn:Er; [|discriminate].
  destruct (ck_IsReady c) eqn:Ey; [|discriminate]. destruct (ck_PcrToTime c v) as [t0|] eqn:Et; [|discriminate]. injection H as <-.
  destruct (run_from q r c B Er) as (F1 & F2 & F3). destruct (is_ready_parts _ Ey) as (Y1 & Y2 & Y3).
  destruct (D _ (F3 Y3)) as (a1 & p & a2 & Ea & Ha).
  exists a, pid, m, b, a1, p, a2, (bl_time (ck_baseline c)), (bl_pcr (ck_baseline c)).
  split; [reflexivity|]. split; [exact Em|]. split; [exact A|]. split; [exact Ea|]. split; [exact Ha|]. split; [apply C; auto|].
  apply bl_time_value. exact Et.
Qed.

(** Along an admissible stream of PCRs and TOTs. *)
Lemma time_exact : forall past q x0 items t xr y,
  calls q past = Some (OpSetPid q :: OpPcr (pcr_at x0) :: ops_of x0 items) ->
  admissible x0 false 4 items -> last_tot x0 items None = Some (t, xr) ->
  0 <= t < 2 ^ 44 -> y / pcr_cycle = xr / pcr_cycle ->
  time_of past q (pcr_at y) = Some (t + Z.quot (y - xr) 27000).
Proof.
  intros past q x0 items t xr y Hc Ha Hl Ht Hy. unfold time_of. rewrite Hc.
  destruct (track_start clock_init q x0 clock_inv_init) as (c1 & E1 & T1).
  destruct (track_run items c1 x0 None 4 T1 (fun _ => eq_refl) Ha) as (c2 & n & E2 & T2).
  change (OpSetPid q :: OpPcr (pcr_at x0) :: ops_of x0 items) with ([OpSetPid q; OpPcr (pcr_at x0)] ++ ops_of x0 items).
  rewrite run_app, E1. cbn [bind]. rewrite E2. rewrite Hl in T2.
  destruct T2 as (I2 & R2 & L2 & N2 & B1 & B2 & B3 & _).
  assert (Rd : ck_IsReady c2 = true) by (rewrite IsReady_inv by auto; rewrite R2, B1; reflexivity). rewrite Rd.
  assert (S : sane_clock c2) by (split; [exact I2|split; [rewrite B3; apply pcr_at_valid|rewrite B2; exact Ht]]).
  rewrite sane_PcrToTime by (auto using pcr_at_valid). rewrite B2, B3. f_equal. f_equal. f_equal.
  unfold pcr_at. pose proof (Z.div_mod y pcr_cycle) as M1. pose proof (Z.div_mod xr pcr_cycle) as M2. rewrite cycle_val in *. lia.
Qed.
