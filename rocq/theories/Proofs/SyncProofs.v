From Coq Require Import ZArith Lia List Bool Sorted.
From Verif Require Import Base.Outcome Base.Util Proofs.FeedProofs Proofs.PcrProofs Proofs.ScanProofs Model.Pcr Model.Sink Model.Ts
  Model.EitSection Model.ServiceScanner Model.PcrSynchronizer Spec.ScanSpec Spec.SyncSpec.
Import ListNotations.
Open Scope Z_scope.

(** * Latest elements *)

Lemma latest_q : forall V (f : ev -> V -> Prop) tr v, latest f tr v <-> lastq f (fun y => exists w, f y w) tr v.
Proof.
  intros V f tr v. split; intros (a & x & b & E & H1 & H2); exists a, x, b; (do 2 (split; [assumption|])).
  - intros y Y [w W]. exact (H2 y w Y W).
  - intros y w Y W. apply (H2 y Y). eauto.
Qed.

Lemma latest_snoc : forall V (f : ev -> V -> Prop) tr e v,
  latest f (tr ++ [e]) v <-> f e v \/ (forall w, ~ f e w) /\ latest f tr v.
Proof.
  intros V f tr e v. rewrite !latest_q, lastq_snoc. split; (intros [H|[H G]]; [auto|right; split; [|assumption]]).
  - intros w W. apply H. eauto.
  - intros [w W]. exact (H w W).
Qed.

Lemma latest_in : forall V (f : ev -> V -> Prop) tr v, latest f tr v -> exists x, In x tr /\ f x v.
Proof. intros V f tr v (a & x & b & -> & H & _). exists x. split; [apply in_elt|assumption]. Qed.

(** * The selected services *)

Lemma wanted_bool : forall o sid, wanted o sid <->
  negb (ss_IsEmpty (pso_sids o)) && negb (ss_Contain (pso_sids o) sid) = false /\
  negb (ss_IsEmpty (pso_xsids o)) && ss_Contain (pso_xsids o) sid = false.
Proof. intros o sid. exact (chosen_bool (mkScOption (pso_sids o) (pso_xsids o)) sid). Qed.

Lemma select_in : forall o l sid q, In (sid, q) (ps_select o l) <-> In (sid, q) l /\ wanted o sid.
Proof.
  intros o l sid q. induction l as [|[a b] l IH]; cbn [ps_select].
  - cbn. tauto.
  - assert (Skip : ~ wanted o a -> (In (sid, q) (ps_select o l) <-> In (sid, q) ((a, b) :: l) /\ wanted o sid)).
    { intros N. rewrite IH. cbn. split; [tauto|]. intros [[E|E] W]; [|auto]. injection E as -> ->. contradiction. }
    destruct (negb (ss_IsEmpty (pso_sids o)) && negb (ss_Contain (pso_sids o) a)) eqn:E1.
    { apply Skip. intros W. apply wanted_bool in W as [W _]. congruence. }
    destruct (negb (ss_IsEmpty (pso_xsids o)) && ss_Contain (pso_xsids o) a) eqn:E2.
    { apply Skip. intros W. apply wanted_bool in W as [_ W]. congruence. }
    assert (W : wanted o a) by (apply wanted_bool; auto). cbn. rewrite IH. split.
    + intros [E|[E F]]; [injection E as -> ->|]; auto.
    + intros [[E|E] F]; auto.
Qed.

Lemma select_sorted : forall o l lo, msorted lo l -> msorted lo (ps_select o l).
Proof.
  intros o l. induction l as [|[a b] l IH]; intros lo M; cbn in *; [exact I|]. destruct M as [M1 M2].
  assert (K : msorted lo (ps_select o l)) by (eapply msorted_weaken; [|apply IH; exact M2]; lia).
  destruct (_ && _); [exact K|]. destruct (_ && _); [exact K|]. cbn. auto.
Qed.

Definition sel (o : ps_option) (t : pat) : list (Z * Z) := ps_select o (pat_pmts t).

Lemma sel_is_map : forall o t, is_map (sel o t).
Proof.
  intros o t. destruct (is_map_msorted _ (pat_pmts t)) as [lo M]; [apply map_of_is_map|].
  eapply msorted_is_map. apply select_sorted. exact M.
Qed.

Lemma lists_pmts : forall t sid q, lists t sid q <-> In (sid, q) (pat_pmts t).
Proof.
  intros t sid q. unfold lists, pat_pmts. rewrite In_map_of_mfind, mfind_map_of, filter_rev.
  destruct (Z.eqb_spec sid 0) as [->|N].
  - split; [tauto|]. intros H. exfalso. rewrite <- filter_rev, mfind_split in H. destruct H as (a & b & E & _).
    assert (H : In (0, q) (a ++ (0, q) :: b)) by apply in_elt. rewrite <- E in H. apply filter_In in H as [_ H]. discriminate.
  - rewrite (mfind_filter _ _ (fun k => negb (k =? 0))) by (apply negb_true_iff, Z.eqb_neq; assumption).
    rewrite mfind_split. tauto.
Qed.

Lemma sel_in : forall o t sid q, In (sid, q) (sel o t) <-> lists t sid q /\ wanted o sid.
Proof. intros. unfold sel. rewrite select_in, lists_pmts. reflexivity. Qed.

(** * Events one by one *)

Definition ps_tab (o : ps_option) (s : ps_state) (pid : Z) (b : body) : ps_state :=
  match b with
  | TPat t => ps_HandlePat o s pid t
  | TPmt t => ps_HandlePmt s pid t
  | TSdt t => ps_HandleSdt s t
  | TTot t => ps_HandleTot s t
  | _ => s
  end.

Definition ps_take (s : ps_state) (pid pcr : Z) : ps_state :=
  if ps_started s && zmem pid (ps_pcr_pids s) && match mfind pid (ps_pcr_map s) with None => true | Some _ => false end
  then
    let map1 := minsert pid pcr (ps_pcr_map s) in
    let done := zlen map1 =? zlen (ps_pcr_pids s) in
    mkPs (ps_pids s) (ps_pmt_pids s) (ps_nid s) (ps_tsid s) (ps_pmt_count s) (ps_pcr_pid_map s) (ps_pcr_pids s)
      map1 (ps_time s) (ps_started s) (if done then true else ps_done s) (ps_out s)
  else s.

Definition estep (o : ps_option) (s : ps_state) (e : ev) : ps_state :=
  match e with
  | Tab pid b => if zmem pid (ps_pids s) then ps_tab o s pid b else s
  | Pcr pid pcr => if ps_done s then s else ps_take s pid pcr
  end.
Definition esteps (o : ps_option) (s : ps_state) (tr : list ev) : ps_state := fold_left (estep o) tr s.

Lemma esteps_app : forall o s a b, esteps o s (a ++ b) = esteps o (esteps o s a) b.
Proof. intros. apply fold_left_app. Qed.

Lemma esteps_snoc : forall o s a e, esteps o s (a ++ [e]) = estep o (esteps o s a) e.
Proof. intros. rewrite esteps_app. reflexivity. Qed.

Definition good_q (q : Z) : Prop := q <> 0 /\ q <> 0x11 /\ q <> 0x14.

Lemma proper_app : forall a b, proper (a ++ b) <-> proper a /\ proper b.
Proof.
  intros a b. unfold proper. split.
  - intros H. split; intros pid x X; apply (H pid x); apply in_app_iff; auto.
  - intros [H G] pid x X. apply in_app_iff in X as [X|X]; [exact (H pid x X)|exact (G pid x X)].
Qed.

Lemma proper_pat : forall pid t, proper [Tab pid (TPat (Some t))] -> forall o sid q, In (sid, q) (sel o t) -> good_q q.
Proof.
  intros pid t H o sid q S. apply sel_in in S as [[N (a & b & E & _)] _]. specialize (H _ _ (or_introl eq_refl)). cbn in H.
  apply (H sid q); [rewrite E; apply in_elt|exact N].
Qed.

(** PID 0 is listened to, and the PMT PIDs are good. *)
Definition base_ok (s : ps_state) : Prop :=
  In 0 (ps_pids s) /\ forall sid q, In (sid, q) (ps_pmt_pids s) -> good_q q.

Lemma In_remove_all : forall x (l : list (Z * Z)) pids,
  In x (fold_left (fun l e => zrem (snd e) l) l pids) <-> In x pids /\ forall sid, ~ In (sid, x) l.
Proof.
  intros x l. induction l as [|[a b] l IH]; intros pids; cbn.
  - tauto.
  - rewrite IH, In_zrem. cbn. split.
    + intros [[N H] G]. split; [exact H|]. intros sid [E|E]; [injection E as _ ->; auto|exact (G sid E)].
    + intros [H G]. split; [split; [|exact H]|].
      * intros ->. apply (G a). auto.
      * intros sid E. apply (G sid). auto.
Qed.

Lemma In_reset : forall x s, In x (ps_pids (ps_ResetStates s)) <->
  In x (ps_pids s) /\ x <> 0x14 /\ x <> 0x11 /\ forall sid, ~ In (sid, x) (ps_pmt_pids s).
Proof.
  intros x s. unfold ps_ResetStates. cbn [ps_pids]. rewrite In_zrem, In_remove_all, In_zrem. unfold PID_SDT, PID_TOT. tauto.
Qed.

Lemma count_pids : forall d l c pids x, In x (snd (ps_count d l c pids)) <->
  In x pids \/ exists sid v, In (sid, x) l /\ mfind sid (sdt_services d) = Some v /\ IsAudioVideoService (sv_type v) = true.
Proof.
  intros d l. induction l as [|[a b] l IH]; intros c pids x; cbn [ps_count].
  - cbn. split; [auto|]. intros [H|(sid & v & [] & _)]. exact H.
  - assert (Skip : (forall v, mfind a (sdt_services d) = Some v -> IsAudioVideoService (sv_type v) = true -> False) ->
      (In x (snd (ps_count d l c pids)) <-> In x pids \/ exists sid v, In (sid, x) ((a, b) :: l) /\
        mfind sid (sdt_services d) = Some v /\ IsAudioVideoService (sv_type v) = true)).
    { intros N. rewrite IH. split; (intros [H|(sid & v & H & R1 & R2)]; [auto|]).
      - right. exists sid, v. split; [right; exact H|auto].
      - destruct H as [H|H]; [|right; exists sid, v; auto]. injection H as -> ->. exfalso. exact (N v R1 R2). }
    destruct (mfind a (sdt_services d)) as [v|] eqn:E; [|apply Skip; congruence].
    destruct (IsAudioVideoService (sv_type v)) eqn:A; cbn [negb].
    + rewrite IH, In_zadd. split.
      * intros [[-> |H]|(sid & w & H & R)]; [right; exists a, v; split; [left; reflexivity|auto]|auto|].
        right. exists sid, w. split; [right; exact H|exact R].
      * intros [H|(sid & w & [H|H] & R)]; [auto|injection H as _ ->; auto|].
        right. exists sid, w. auto.
    + apply Skip. congruence.
Qed.

Lemma count_count : forall d l c pids,
  fst (ps_count d l c pids) = c + zlen (filter (fun e => match mfind (fst e) (sdt_services d) with
    Some v => IsAudioVideoService (sv_type v) | None => false end) l).
Proof.
  intros d l. induction l as [|[a b] l IH]; intros c pids; cbn [ps_count filter fst].
  - rewrite zlen_nil. cbn. lia.
  - destruct (mfind a (sdt_services d)) as [v|]; [|apply IH].
    destruct (IsAudioVideoService (sv_type v)); cbn [negb]; [|apply IH]. rewrite IH, zlen_cons. lia.
Qed.

(** How the tables change the state. *)
Lemma sdt_state : forall s d, ps_HandleSdt s (Some d) =
  mkPs (snd (ps_count d (ps_pmt_pids s) (ps_pmt_count s) (ps_pids s))) (ps_pmt_pids s) (sdt_onid d) (sdt_tsid d)
    (fst (ps_count d (ps_pmt_pids s) (ps_pmt_count s) (ps_pids s))) (ps_pcr_pid_map s)
    (ps_pcr_pids s) (ps_pcr_map s) (ps_time s) (ps_started s) (ps_done s) (ps_out s).
Proof. intros s d. unfold ps_HandleSdt. destruct (ps_count d (ps_pmt_pids s) (ps_pmt_count s) (ps_pids s)). reflexivity. Qed.

Lemma tab_base : forall o s pid b, proper [Tab pid b] -> base_ok s -> base_ok (ps_tab o s pid b).
Proof.
  intros o s pid b P [B1 B2]. destruct b as [t| |t| |t|t| |]; cbn [ps_tab]; try (split; assumption).
  - unfold ps_HandlePat. destruct (negb (pid =? PID_PAT)); [split; assumption|]. destruct t as [t|]; [|split; assumption].
    destruct (pat_tsid t =? 0); [split; assumption|].
    split; cbn [ps_pids ps_pmt_pids].
    + rewrite In_zadd. right. destruct (ps_pmt_pids s) eqn:E; [exact B1|]. rewrite In_reset, E.
      repeat split; try exact B1; try discriminate. intros sid S. destruct (B2 sid 0 S) as [N _]. congruence.
    + exact (proper_pat pid t P o).
  - unfold ps_HandlePmt. destruct t as [m|]; [|split; assumption].
    destruct (mfind (pmt_sid m) (ps_pmt_pids s)) as [q|]; [|split; assumption].
    destruct (negb (q =? pid)); [split; assumption|]. split; [|exact B2]. cbn [ps_pids].
    destruct (_ =? _); [apply In_zadd|]; auto.
  - unfold ps_HandleTot. destruct t; split; assumption.
  - destruct t as [d|]; [|split; assumption]. rewrite sdt_state. split; [|exact B2]. cbn [ps_pids].
    apply count_pids. auto.
Qed.

Lemma estep_base : forall o s e, proper [e] -> base_ok s -> base_ok (estep o s e).
Proof.
  intros o s e P B. destruct e as [pid b|pid c]; cbn [estep].
  - destruct (zmem pid (ps_pids s)); [apply tab_base; assumption|assumption].
  - destruct (ps_done s); [assumption|]. unfold ps_take. destruct (_ && _ && _); assumption.
Qed.

Lemma tab_listens : forall o s pid b, proper [Tab pid b] -> base_ok s -> In pid (ps_pids s) -> In pid (ps_pids (ps_tab o s pid b)).
Proof.
  intros o s pid b P B L. destruct (Z.eqb_spec pid 0) as [->|N]; [apply (tab_base o s 0 b P B)|].
  destruct b as [t| |t| |t|t| |]; cbn [ps_tab]; try exact L.
  - unfold ps_HandlePat. unfold PID_PAT. apply Z.eqb_neq in N. rewrite N. exact L.
  - unfold ps_HandlePmt. destruct t as [m|]; [|exact L]. destruct (mfind _ _); [|exact L]. destruct (negb _); [exact L|].
    cbn [ps_pids]. destruct (_ =? _); [apply In_zadd|]; auto.
  - unfold ps_HandleTot. destruct t; exact L.
  - destruct t as [d|]; [|exact L]. rewrite sdt_state. cbn [ps_pids]. apply count_pids. auto.
Qed.

Lemma tables_fold : forall o pid tabs s s1, proper (map (fun t => Tab pid (tb_body t)) tabs) -> base_ok s -> In pid (ps_pids s) ->
  handle_tables (ps_handleTable o) s pid tabs = Ok s1 -> s1 = esteps o s (map (fun t => Tab pid (tb_body t)) tabs).
Proof.
  intros o pid tabs. induction tabs as [|t tabs IH]; intros s s1 P B L H; cbn in H.
  - injection H as <-. reflexivity.
  - assert (E : ps_handleTable o s pid t = Ok (ps_tab o s pid (tb_body t))) by (unfold ps_handleTable; destruct (tb_body t); reflexivity).
    rewrite E in H. cbn in H. cbn. apply zmem_In in L as L'. rewrite L'.
    change (proper ([Tab pid (tb_body t)] ++ map (fun t => Tab pid (tb_body t)) tabs)) in P.
    apply proper_app in P as [P1 P2].
    apply IH in H; [exact H|exact P2|apply tab_base; assumption|apply tab_listens; assumption].
Qed.

Lemma tables_deaf : forall o pid tabs s, ~ In pid (ps_pids s) ->
  esteps o s (map (fun t => Tab pid (tb_body t)) tabs) = s.
Proof.
  intros o pid tabs s N. apply zmem_false in N. induction tabs as [|t tabs IH]; cbn; [reflexivity|]. rewrite N. exact IH.
Qed.

Lemma capture_take : forall s p s' r, ps_done s = false -> ps_capture s p = Ok (s', r) ->
  s' = match p_pcr p with Some c => ps_take s (p_pid p) c | None => s end /\ r = negb (ps_done s').
Proof.
  intros s p s' r D H. unfold ps_capture in H. unfold ps_take.
  destruct (_ && _ && _).
  - destruct (p_pcr p) as [c|]; [|injection H as <- <-; rewrite D; auto].
    apply bind_ok in H as (x & _ & H). injection H as <- <-. split; [reflexivity|]. cbn [ps_done].
    destruct (_ =? _); [reflexivity|]. rewrite D. reflexivity.
  - injection H as <- <-. rewrite D. split; [|reflexivity]. destruct (p_pcr p); reflexivity.
Qed.

Lemma packet_fold : forall o s p s' r, proper (events p) -> base_ok s -> ps_done s = false ->
  ps_HandlePacket o s p = Ok (s', r) -> s' = esteps o s (events p) /\ r = negb (ps_done s').
Proof.
  intros o s p s' r P B D H. unfold ps_HandlePacket in H. unfold events in *. unfold PID_NULL in H.
  destruct (p_pid p =? 8191) eqn:Q; [injection H as <- <-; rewrite D; auto|].
  apply bind_ok in H as (s1 & E & H). apply proper_app in P as [P _].
  assert (E' : s1 = esteps o s (map (fun t => Tab (p_pid p) (tb_body t)) (p_tabs p 0))).
  { unfold demux_feed in E. destruct (zmem (p_pid p) (ps_pids s)) eqn:L.
    - apply zmem_In in L. apply tables_fold in E; assumption.
    - apply zmem_false in L. injection E as <-. symmetry. apply tables_deaf. exact L. }
  rewrite esteps_app, <- E'. clear E E'. destruct (ps_done s1) eqn:D1.
  - injection H as <- <-. split; [|rewrite D1; reflexivity]. destruct (p_pcr p); cbn; rewrite ?D1; reflexivity.
  - apply capture_take in H as [-> ->]; [|exact D1]. split; [|reflexivity]. destruct (p_pcr p); cbn; rewrite ?D1; reflexivity.
Qed.

Lemma esteps_base : forall o tr s, proper tr -> base_ok s -> base_ok (esteps o s tr).
Proof.
  intros o tr. induction tr as [|e tr IH]; intros s P B; [exact B|]. cbn.
  change (e :: tr) with ([e] ++ tr) in P. apply proper_app in P as [P1 P2]. apply IH; [exact P2|]. apply estep_base; assumption.
Qed.

Lemma handles_fold : forall o ps s s', proper (trace ps) -> base_ok s -> ps_done s = false ->
  handles (ps_sink o) s ps s' -> s' = esteps o s (trace ps) /\ ps_done s' = false.
Proof.
  intros o ps. induction ps as [|p ps IH]; intros s s' P B D H; inversion H as [|s0 p0 s1 ps0 s2 H1 H2]; subst.
  - auto.
  - cbn in P. apply proper_app in P as [P1 P2]. cbn in H1. apply packet_fold in H1 as [E R]; try assumption.
    cbn [trace flat_map]. rewrite esteps_app, <- E. apply IH; [exact P2| | |exact H2].
    + rewrite E. apply esteps_base; assumption.
    + destruct (ps_done s1); [discriminate|reflexivity].
Qed.

Lemma base_init : base_ok ps_init.
Proof. split; cbn; auto. intros sid q []. Qed.

Lemma esteps_out : forall o tr s, ps_out (esteps o s tr) = ps_out s.
Proof.
  intros o tr. induction tr as [|e tr IH]; intros s; [reflexivity|].
  change (esteps o s (e :: tr)) with (esteps o (estep o s e) tr). rewrite IH. destruct e as [pid b|pid c]; cbn [estep].
  - destruct (zmem pid (ps_pids s)); [|reflexivity]. destruct b as [t| |t| |t|t| |]; cbn [ps_tab]; try reflexivity.
    + unfold ps_HandlePat. destruct (negb _); [reflexivity|]. destruct t as [t|]; [|reflexivity]. destruct (_ =? _); [reflexivity|].
      cbn. destruct (ps_pmt_pids s); reflexivity.
    + unfold ps_HandlePmt. destruct t as [m|]; [|reflexivity]. destruct (mfind _ _); [|reflexivity]. destruct (negb _); reflexivity.
    + destruct t; reflexivity.
    + destruct t; [rewrite sdt_state|]; reflexivity.
  - destruct (ps_done s); [reflexivity|]. unfold ps_take. destruct (_ && _ && _); reflexivity.
Qed.

(** What a run amounts to. *)
Lemma sync_fold : forall o ps fuel code s, proper (trace ps) ->
  FeedPackets (list_source packet) (ps_sink o) fuel ps ps_init = Some (Ok (code, s)) ->
  (code = 1 /\ ps_out s = [] /\ ps_done (esteps o ps_init (trace ps)) = false) \/
  (exists h p rest s1, ps = h ++ p :: rest /\ code = 0 /\ ps_done (esteps o ps_init (trace h)) = false /\
     s1 = esteps o ps_init (trace (h ++ [p])) /\ ps_done s1 = true /\
     exists time, ConvertJstTimeToUnixTime (ps_time s1) = Ok time /\
       ps_out s = [ps_docs s1 time (ps_pcr_pid_map s1)]).
Proof.
  intros o ps fuel code s P H. apply (feed_run _ (ps_sink o) ps fuel ps_init ps_init) in H; [|reflexivity].
  destruct H as (s2 & E & X & H). cbn in E, X. unfold ps_GetExitCode in X. injection X as X.
  destruct H as [H|(h & p & rest & s1 & -> & H & G)].
  - apply handles_fold in H as [-> D]; [|exact P|exact base_init|reflexivity]. left. unfold ps_End in E. rewrite D in E. cbn in E. injection E as <-.
    rewrite D in X. split; [symmetry; exact X|]. split; [|exact D].
    apply esteps_out.
  - unfold trace in P. rewrite flat_map_app in P. apply proper_app in P as [P1 P2]. cbn in P2. apply proper_app in P2 as [P2 _].
    apply handles_fold in H as [-> D]; [|exact P1|exact base_init|reflexivity].
    pose proof G as G0. cbn in G. apply packet_fold in G as [G R]; [|exact P2|apply esteps_base; [exact P1|exact base_init]|exact D].
    right. exists h, p, rest, s2. split; [reflexivity|].
    assert (D2 : ps_done s2 = true) by (destruct (ps_done s2); [reflexivity|discriminate]).
    unfold ps_End in E. rewrite D2 in E. cbn in E. apply bind_ok in E as (time & C & E). injection E as <-. cbn in X. rewrite ?D2 in X.
    split; [symmetry; exact X|]. split; [exact D|]. split.
    + unfold trace. rewrite flat_map_app, esteps_app. cbn. rewrite app_nil_r. exact G.
    + split; [exact D2|]. exists time. split; [exact C|]. cbn [ps_out]. rewrite G, !esteps_out. reflexivity.
Qed.
