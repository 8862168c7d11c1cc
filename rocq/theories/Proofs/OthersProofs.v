From Coq Require Import ZArith Lia List Bool.
From Verif Require Import Base.Outcome Base.Util Model.Sink Model.FileSource Model.StdoutSink Model.Ts Model.ServiceFilter Model.Commands
  Spec.FeedSpec Spec.SourceSpec Spec.FilterSpec Spec.TransSpec Spec.PipeSpec Spec.OthersSpec
  Proofs.FeedProofs Proofs.SourceProofs Proofs.FilterProofs Proofs.TransProofs Proofs.PipeProofs.
Import ListNotations.
Open Scope Z_scope.

Section Others.
Variable opt : service_filter_option.
Variable stage : nat.
Variable own : Z -> Prop.
Hypothesis own_si : forall pid, In pid si_pids -> own pid.

Definition apart (s : sf_state) : Prop :=
  (forall pid, In pid (sf_demux s) -> own pid) /\ (forall pid, In pid (sf_psi s) -> own pid) /\
  (forall pid, In pid (sf_content s) -> own pid) /\ (forall pid, In pid (sf_emm s) -> own pid).

Lemma apart_init : apart (sf_init opt).
Proof.
  unfold sf_init. split; [|repeat split; intros pid []]. cbn [sf_demux]. intros pid H. apply own_si.
  destruct (sfo_time_limit opt); rewrite ?In_zadd in H; cbn [In] in *; unfold PID_TOT, PID_CAT, PID_PAT in H; cbn; intuition lia.
Qed.

Lemma apart_table : forall s src t s', apart s -> (forall pid, names (sfo_sid opt) (src, tb_body t) pid -> own pid) ->
  sf_handleTable opt s src t = Ok s' -> apart s'.
Proof.
  intros s src [b f] s' [D [Ps [Co Em]]] N H. cbn [tb_body] in N. unfold sf_handleTable in H. cbn [tb_body] in H.
  destruct b as [t|t|t|t|t|t|t|]; try (injection H as <-; repeat split; assumption).
  - unfold sf_HandlePat in H. change PID_PAT with 0 in H. destruct (src =? 0) eqn:Es; cbn [negb] in H; [|injection H as <-; repeat split; assumption].
    destruct t as [t|]; [|injection H as <-; repeat split; assumption].
    destruct (pat_tsid t =? 0) eqn:Et; [injection H as <-; repeat split; assumption|].
    rewrite pmts_find in H. destruct (pmt_pid_of (sfo_sid opt) t) as [q|] eqn:Q; [|injection H as <-; repeat split; assumption].
    assert (Oq : own q).
    { apply N. left. exists t. unfold listing, usable_pat. rewrite Es, Et. cbn [andb negb]. rewrite Q. reflexivity. }
    apply assert_ok in H as [_ H]. apply assert_ok in H as [_ H]. injection H as <-.
    split; cbn [sf_demux sf_psi sf_content sf_emm]; [|split; [|split; assumption]].
    + intros pid I. apply In_zadd in I as [-> |I]; [exact Oq|]. destruct (negb (sf_pmt_pid s =? PID_NULL)); [apply In_zrem in I as [_ I]|]; auto.
    + intros pid I. apply In_zadd in I as [-> |I]; [exact Oq|]. apply own_si. rewrite !In_zadd in I. cbn [In] in *.
      unfold PID_CDT, PID_BIT, PID_TOT, PID_RST, PID_EIT, PID_SDT, PID_NIT, PID_CAT, PID_PAT in I. cbn. intuition lia.
  - unfold sf_HandleCat in H. destruct t as [t|]; injection H as <-; [|repeat split; assumption].
    split; [exact D|]. split; [exact Ps|]. split; [exact Co|]. cbn [sf_emm]. intros pid I. apply In_fold_zadd in I as [I|[]].
    apply N. right. right. exists t. split; [reflexivity|exact I].
  - unfold sf_HandlePmt in H. destruct t as [t|]; [|injection H as <-; repeat split; assumption].
    destruct (pmt_sid t =? sfo_sid opt) eqn:E; cbn [negb] in H; [|injection H as <-; repeat split; assumption].
    injection H as <-. split; [exact D|]. split; [exact Ps|]. split; [|exact Em]. cbn [sf_content]. intros pid I.
    apply N. right. left. exists t. split; [unfold service_pmt; cbn [snd]; rewrite E; reflexivity|].
    rewrite fold_fst, In_fold_zadd, In_fold_zadd, In_zadd in I. unfold pmt_streams in I. rewrite In_map_of_fst in I. cbn [In] in I. tauto.
  - unfold sf_HandleTot in H. destruct t as [t|]; [|injection H as <-; repeat split; assumption].
    destruct (sfo_time_limit opt) as [l|]; [|discriminate]. destruct (t <? l); injection H as <-; repeat split; assumption.
Qed.

Lemma apart_tables : forall ts s src s', apart s -> (forall t pid, In t ts -> names (sfo_sid opt) (src, tb_body t) pid -> own pid) ->
  handle_tables (sf_handleTable opt) s src ts = Ok s' -> apart s'.
Proof.
  induction ts as [|t ts IH]; intros s src s' A N H; cbn [handle_tables] in H; [injection H as <-; exact A|].
  apply bind_ok in H as [s1 [H1 H]]. refine (IH s1 src s' _ _ H).
  - apply (apart_table s src t s1 A); [|exact H1]. intros pid. apply N. left. reflexivity.
  - intros t' pid I. apply N. right. exact I.
Qed.

Variable k : sink packet.

Lemma apart_step : forall s d p s' d', apart s ->
  (own (p_pid p) -> forall t pid, In t (p_tabs p stage) -> names (sfo_sid opt) (p_pid p, tb_body t) pid -> own pid) ->
  sk_handle (service_filter stage opt k) (s, d) p = Ok ((s', d'), true) -> apart s' /\ sf_done s' = false.
Proof.
  intros s d p s' d' A N H. cbn [service_filter sk_handle] in H. unfold sf_HandlePacket in H.
  apply bind_ok in H as [s1 [H1 H]].
  assert (A1 : apart s1).
  { refine (apart_tables _ _ _ _ A _ H1). intros t pid I. unfold demux_feed in I. destruct (zmem (p_pid p) (sf_demux s)) eqn:M; [|destruct I].
    apply N; [|exact I]. apply (proj1 A). apply zmem_In. exact M. }
  destruct (sf_done s1) eqn:Dn; [discriminate|].
  assert (X : s' = s1).
  { destruct (sf_CheckFilterForDrop s1 (p_pid p)); [injection H as <- <-; reflexivity|].
    destruct (p_pid p =? PID_PAT).
    - destruct (sf_pat s1) as [t|]; [|discriminate]. apply bind_ok in H as [[d1 ok] [_ H]]. injection H as <- _ _. reflexivity.
    - apply assert_ok in H as [_ H]. apply bind_ok in H as [[d1 ok] [_ H]]. injection H as <- _ _. reflexivity. }
  subst s'. auto.
Qed.

Lemma apart_foreign : forall s d p, apart s -> sf_done s = false -> ~ own (p_pid p) ->
  sk_handle (service_filter stage opt k) (s, d) p = Ok ((s, d), true).
Proof.
  intros s d p [D [Ps [Co Em]]] Dn N. cbn [service_filter sk_handle]. unfold sf_HandlePacket, demux_feed.
  assert (M : forall l, (forall pid, In pid l -> own pid) -> zmem (p_pid p) l = false) by (intros l Hl; apply zmem_false; intros I; apply N; apply Hl; exact I).
  rewrite (M _ D). cbn [handle_tables bind]. rewrite Dn. unfold sf_CheckFilterForDrop. rewrite (M _ Co), (M _ Ps), (M _ Em). reflexivity.
Qed.

Lemma hand_agree : forall ps qs, agree p_pid own ps qs ->
  (forall p t pid, In p ps -> own (p_pid p) -> In t (p_tabs p stage) -> names (sfo_sid opt) (p_pid p, tb_body t) pid -> own pid) ->
  forall s d, apart s -> sf_done s = false ->
  snd (hand (service_filter stage opt k) (s, d) ps) = snd (hand (service_filter stage opt k) (s, d) qs).
Proof.
  induction 1 as [|p ps qs O0 G IH|p ps qs F G IH|q ps qs F G IH]; intros N s d A Dn; cbn [hand].
  - reflexivity.
  - destruct (sk_handle (service_filter stage opt k) (s, d) p) as [[[s1 d1] [|]]|f] eqn:E; [|reflexivity|reflexivity].
    apply apart_step in E as [A1 D1]; [|exact A|intros O t pid; apply N; [left; reflexivity|exact O]].
    specialize (IH (fun p' t pid I => N p' t pid (or_intror I)) s1 d1 A1 D1).
    destruct (hand (service_filter stage opt k) (s1, d1) ps), (hand (service_filter stage opt k) (s1, d1) qs). exact IH.
  - rewrite apart_foreign by assumption. specialize (IH (fun p' t pid I => N p' t pid (or_intror I)) s d A Dn).
    destruct (hand (service_filter stage opt k) (s, d) ps). exact IH.
  - rewrite apart_foreign by assumption. specialize (IH N s d A Dn). destruct (hand (service_filter stage opt k) (s, d) qs). exact IH.
Qed.

End Others.

Lemma feed_agree : forall opt stage own k ps qs n m d, covers (sfo_sid opt) stage own ps -> agree p_pid own ps qs ->
  (List.length ps < n)%nat -> (List.length qs < m)%nat ->
  FeedPackets (list_source packet) (service_filter stage opt k) n ps (sf_init opt, d) =
  FeedPackets (list_source packet) (service_filter stage opt k) m qs (sf_init opt, d).
Proof.
  intros opt stage own k ps qs n m d [Si N] G Hn Hm.
  destruct (sk_start k d) as [[d1 [|]]|f] eqn:Es.
  - assert (St : sk_start (service_filter stage opt k) (sf_init opt, d) = Ok ((sf_init opt, d1), true)) by (cbn; rewrite Es; reflexivity).
    rewrite (feed_hand _ _ ps n _ _ Hn St), (feed_hand _ _ qs m _ _ Hm St).
    rewrite (hand_agree opt stage own Si k ps qs G N (sf_init opt) d1 (apart_init opt own Si) eq_refl). reflexivity.
  - unfold FeedPackets. cbn [service_filter sk_start fst snd]. rewrite Es. reflexivity.
  - unfold FeedPackets. cbn [service_filter sk_start fst snd]. rewrite Es. reflexivity.
Qed.

(** ** Bytes *)
Lemma views_agree : forall view own bs cs, per_pid view -> (forall h b, ts_packet b -> p_pid (view h b) = pid_bytes b) ->
  agree pid_bytes own bs cs -> Forall ts_packet bs -> Forall ts_packet cs ->
  forall h h', (forall pid, own pid -> filter (fun x => pid_bytes x =? pid) h = filter (fun x => pid_bytes x =? pid) h') ->
  agree p_pid own (views view h bs) (views view h' cs).
Proof.
  intros view own bs cs V Pid G. induction G as [|b bs cs O G IH|b bs cs F G IH|c bs cs F G IH]; intros Tb Tc h h' Hh; cbn [views].
  - constructor.
  - inversion Tb as [|? ? T1 T2]; subst. inversion Tc as [|? ? T3 T4]; subst.
    rewrite (V h h' b (Hh _ O)). constructor; [rewrite Pid by exact T1; exact O|]. apply IH; auto.
    intros pid Op. cbn [filter]. rewrite (Hh _ Op). reflexivity.
  - inversion Tb as [|? ? T1 T2]; subst. apply agree_left; [rewrite Pid by exact T1; exact F|]. apply IH; auto.
    intros pid Op. cbn [filter]. destruct (Z.eqb_spec (pid_bytes b) pid) as [E|E]; [subst; contradiction|auto].
  - inversion Tc as [|? ? T1 T2]; subst. apply agree_right; [rewrite Pid by exact T1; exact F|]. apply IH; auto.
    intros pid Op. cbn [filter]. destruct (Z.eqb_spec (pid_bytes c) pid) as [E|E]; [subst; contradiction|auto].
Qed.

Lemma main_agree : forall view own opt k reads reads' bs cs n m d, per_pid view -> (forall h b, ts_packet b -> p_pid (view h b) = pid_bytes b) ->
  Forall read_ok reads -> Forall read_ok reads' -> Forall is_byte (bytes_of reads) -> Forall is_byte (bytes_of reads') ->
  packets_of (bytes_of reads) bs -> packets_of (bytes_of reads') cs ->
  (List.length (bytes_of reads) < n)%nat -> (List.length (bytes_of reads') < m)%nat ->
  covers (sfo_sid opt) 0 own (views view [] bs) -> agree pid_bytes own bs cs ->
  match run_main view (service_filter 0 opt k) reads (sf_init opt, d) n with
  | None => False
  | Some (Fail f) => run_main view (service_filter 0 opt k) reads' (sf_init opt, d) m = Some (Fail f)
  | Some (Ok (c, (_, x))) => exists h, run_main view (service_filter 0 opt k) reads' (sf_init opt, d) m = Some (Ok (c, (h, x)))
  end.
Proof.
  intros view own opt k reads reads' bs cs n m d V Pid R R' B B' Pk Pk' Hn Hm Cv G.
  pose proof (packets_length _ _ Pk) as L1. pose proof (packets_length _ _ Pk') as L2.
  assert (E : FeedPackets (list_source packet) (service_filter 0 opt k) n (views view [] bs) (sf_init opt, d) =
              FeedPackets (list_source packet) (service_filter 0 opt k) m (views view [] cs) (sf_init opt, d)).
  { apply (feed_agree opt 0 own); [exact Cv| |rewrite views_length; lia|rewrite views_length; lia].
    apply views_agree; auto; [exact (packets_are _ _ Pk B)|exact (packets_are _ _ Pk' B')]. }
  pose proof (main_feed view (service_filter 0 opt k) reads bs (sf_init opt, d) n R Pk Hn) as M1.
  pose proof (main_feed view (service_filter 0 opt k) reads' cs (sf_init opt, d) m R' Pk' Hm) as M2.
  rewrite <- E in M2.
  destruct (FeedPackets (list_source packet) (service_filter 0 opt k) n (views view [] bs) (sf_init opt, d)) as [[[c x]|f]|]; [|rewrite M1; exact M2|destruct M1].
  destruct M1 as [h1 ->]. exact M2.
Qed.
