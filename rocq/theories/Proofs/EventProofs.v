From Coq Require Import ZArith Lia List Bool.
From Verif Require Import Base.Outcome Base.Util Proofs.PcrProofs Proofs.FeedProofs Model.Pcr Model.Sink Model.Ts Model.AirtimeTracker Model.MetadataFilter Spec.EventSpec.
Import ListNotations.
Open Scope Z_scope.

Lemma sane_times : forall v, sane_event v ->
  ConvertJstTimeToUnixTime (ev_start v) = Ok (unix_start v) /\ i64 (ev_duration v * MilliSecPerSec) = Ok (ev_duration v * 1000).
Proof.
  intros v [[H1 H2] [H3 H4]]. change (2 ^ 44) with 17592186044416 in H2. change (2 ^ 32) with 4294967296 in H4. split.
  - unfold ConvertJstTimeToUnixTime, UnixEpoch, kJstTzOffset, MilliSecPerHour, unix_start.
    rewrite i64_ok by (unfold int64_min, int64_max; lia). cbn [bind]. rewrite i64_ok by (unfold int64_min, int64_max; lia).
    f_equal.
  - unfold MilliSecPerSec. apply i64_ok. unfold int64_min, int64_max. lia.
Qed.

(** * track-airtime *)

Lemma tracked_unique : forall eid e v w, tracked eid e v -> tracked eid e w -> v = w.
Proof.
  intros eid e v w (r & Ev & Hv) (r' & Ew & Hw). destruct Hv as [Hv|(a & A & Hv)], Hw as [Hw|(b & B & Hw)]; rewrite Hv in Hw; injection Hw; congruence.
Qed.

Lemma at_eit : forall o s e, (forall v, In v (eit_events e) -> sane_event v) ->
  exists s', at_HandleEit o s (Some e) = Ok s' /\
    (at_done s' = true <-> at_done s = true \/ eit_sid e = ato_sid o /\ gone (ato_eid o) e) /\
    exists ds, at_out s' = at_out s ++ ds /\ airtimes o [e] ds.
Proof.
  intros o s e Sane. unfold at_HandleEit. destruct (eit_sid e =? ato_sid o) eqn:Es; cbn [negb].
  2:{ apply Z.eqb_neq in Es. exists s. split; [reflexivity|]. split; [split; [auto|intros [H|[H _]]; [assumption|contradiction]]|].
      exists []. rewrite app_nil_r. split; [reflexivity|]. apply airtimes_other; [auto|constructor]. }
  apply Z.eqb_eq in Es.
  assert (Gone : gone (ato_eid o) e -> exists s', Ok (mkAt true (at_out s)) = Ok s' /\
    (at_done s' = true <-> at_done s = true \/ eit_sid e = ato_sid o /\ gone (ato_eid o) e) /\
    exists ds, at_out s' = at_out s ++ ds /\ airtimes o [e] ds).
  { intros G. exists (mkAt true (at_out s)). split; [reflexivity|]. cbn. split; [split; auto|].
    exists []. rewrite app_nil_r. split; [reflexivity|]. apply airtimes_other; [auto|constructor]. }
  assert (Found : forall v, tracked (ato_eid o) e v -> In v (eit_events e) -> exists s', at_WriteEventInfo s e v = Ok s' /\
    (at_done s' = true <-> at_done s = true \/ eit_sid e = ato_sid o /\ gone (ato_eid o) e) /\
    exists ds, at_out s' = at_out s ++ ds /\ airtimes o [e] ds).
  { intros v T I. destruct (sane_times v (Sane v I)) as [E1 E2]. unfold at_WriteEventInfo. rewrite E1. cbn [bind]. rewrite E2. cbn [bind].
    eexists. split; [reflexivity|]. cbn [at_done at_out]. split.
    - split; [auto|]. intros [H|[_ G]]; [assumption|]. destruct (G v T).
    - eexists. split; [reflexivity|]. apply airtimes_event; [assumption|assumption|constructor]. }
  destruct (eit_events e) as [|a [|b r]] eqn:Ee.
  - apply Gone. intros v (rest & _ & [H|(w & _ & H)]); rewrite Ee in H; discriminate.
  - destruct (ev_id a =? ato_eid o) eqn:Ea.
    + apply Z.eqb_eq in Ea. apply Found; [|cbn; auto]. exists []. rewrite Ee. auto.
    + apply Z.eqb_neq in Ea. apply Gone. intros v (rest & V & [H|(w & _ & H)]); rewrite Ee in H; [|discriminate]. congruence.
  - destruct (ev_id a =? ato_eid o) eqn:Ea.
    + apply Z.eqb_eq in Ea. apply Found; [|cbn; auto]. exists (b :: r). rewrite Ee. auto.
    + apply Z.eqb_neq in Ea. destruct (ev_id b =? ato_eid o) eqn:Eb.
      * apply Z.eqb_eq in Eb. apply Found; [|cbn; auto]. exists r. rewrite Ee. split; [assumption|]. right. exists a. auto.
      * apply Z.eqb_neq in Eb. apply Gone. intros v (rest & V & [H|(w & _ & H)]); rewrite Ee in H; congruence.
Qed.

Lemma airtimes_app : forall o es ds es' ds', airtimes o es ds -> airtimes o es' ds' -> airtimes o (es ++ es') (ds ++ ds').
Proof. intros o es ds es' ds' H G. induction H; cbn; [assumption|apply airtimes_other; auto|apply airtimes_event; auto]. Qed.

Definition tab_eits (tabs : list table) : list eit :=
  flat_map (fun t => match tb_body t with TEit (Some e) => [e] | _ => [] end) tabs.

Lemma at_tables : forall o pid tabs s, (forall e v, In e (tab_eits tabs) -> In v (eit_events e) -> sane_event v) ->
  exists s', handle_tables (at_handleTable o) s pid tabs = Ok s' /\
    (at_done s' = true <-> at_done s = true \/ exists e, In e (tab_eits tabs) /\ eit_sid e = ato_sid o /\ gone (ato_eid o) e) /\
    exists ds, at_out s' = at_out s ++ ds /\ airtimes o (tab_eits tabs) ds.
Proof.
  intros o pid tabs. induction tabs as [|t tabs IH]; intros s Sane.
  - exists s. split; [reflexivity|]. split; [split; [auto|intros [H|(e & [] & _)]; assumption]|].
    exists []. rewrite app_nil_r. split; [reflexivity|constructor].
  - cbn [handle_tables]. unfold tab_eits in *. cbn [flat_map] in *. unfold at_handleTable at 1. destruct (tb_body t) as [x|x|x|x|x|x|x|];
      try (cbn [bind]; apply IH; exact Sane).
    destruct x as [e|]; [|cbn [bind at_HandleEit]; apply IH; exact Sane].
    destruct (at_eit o s e) as (s1 & E1 & D1 & ds1 & O1 & A1); [intros v; apply Sane; cbn; auto|].
    rewrite E1. cbn [bind]. destruct (IH s1) as (s2 & E2 & D2 & ds2 & O2 & A2); [intros f v F; apply Sane; cbn; auto|].
    exists s2. split; [exact E2|]. split.
    + rewrite D2, D1. cbn [app In]. split.
      * intros [[H|H]|(f & F & H)]; [auto|right; exists e; auto|right; exists f; auto].
      * intros [H|(f & [<-|F] & H)]; [auto|auto|right; exists f; auto].
    + exists (ds1 ++ ds2). rewrite O2, O1, app_assoc. split; [reflexivity|]. apply (airtimes_app o [e] ds1); assumption.
Qed.

Lemma eits_of_feed : forall p, eits_of p = tab_eits (demux_feed [PID_EIT] 0 p).
Proof.
  intros p. unfold eits_of, demux_feed, PID_EIT, zmem. cbn [existsb]. destruct (p_pid p =? 18); reflexivity.
Qed.

Lemma at_packet : forall o s p, sane_eits [p] ->
  exists s', at_HandlePacket o s p = Ok (s', negb (at_done s')) /\
    (at_done s' = true <-> at_done s = true \/ lacking o [p]) /\
    exists ds, at_out s' = at_out s ++ ds /\ airtimes o (eits [p]) ds.
Proof.
  intros o s p Sane. unfold at_HandlePacket. unfold lacking, sane_eits, eits in *. cbn [flat_map] in *. rewrite app_nil_r in *. rewrite eits_of_feed in *.
  destruct (at_tables o (p_pid p) (demux_feed [PID_EIT] 0 p) s Sane) as (s' & E & D & O). rewrite E. cbn [bind].
  exists s'. auto.
Qed.

Lemma eits_app : forall a b, eits (a ++ b) = eits a ++ eits b.
Proof. intros a b. unfold eits. apply flat_map_app. Qed.

Lemma at_handles : forall o ps s, sane_eits ps -> at_done s = false ->
  (~ lacking o ps /\ exists s' ds, handles (at_sink o) s ps s' /\ at_done s' = false /\ at_out s' = at_out s ++ ds /\ airtimes o (eits ps) ds) \/
  (exists h p rest s1 s' ds, ps = h ++ p :: rest /\ ~ lacking o h /\ lacking o [p] /\
     handles (at_sink o) s h s1 /\ at_HandlePacket o s1 p = Ok (s', false) /\ at_out s' = at_out s ++ ds /\ airtimes o (eits (h ++ [p])) ds).
Proof.
  intros o ps. induction ps as [|p ps IH]; intros s Sane D.
  - left. split; [intros (e & [] & _)|]. exists s, []. split; [constructor|]. rewrite app_nil_r. split; [assumption|]. split; [reflexivity|constructor].
  - assert (Sp : sane_eits [p]) by (intros e v He; apply Sane; change (p :: ps) with ([p] ++ ps); rewrite eits_app; apply in_app_iff; auto).
    assert (Sr : sane_eits ps) by (intros e v He; apply Sane; change (p :: ps) with ([p] ++ ps); rewrite eits_app; apply in_app_iff; auto).
    destruct (at_packet o s p Sp) as (s1 & E & D1 & ds1 & O1 & A1).
    destruct (at_done s1) eqn:Q.
    + right. assert (L : lacking o [p]) by (destruct D1 as [D1 _]; destruct (D1 eq_refl); [congruence|assumption]).
      exists [], p, ps, s, s1, ds1. split; [reflexivity|]. split; [intros (e & [] & _)|]. split; [exact L|].
      split; [constructor|]. split; [exact E|]. auto.
    + assert (NL : ~ lacking o [p]) by (intros L; destruct D1 as [_ D1]; discriminate (D1 (or_intror L))).
      assert (NC : forall h, ~ lacking o h -> ~ lacking o (p :: h)).
      { intros h N (e & He & R). change (p :: h) with ([p] ++ h) in He. rewrite eits_app in He. apply in_app_iff in He as [He|He].
        - apply NL. exists e. auto.
        - apply N. exists e. auto. }
      destruct (IH s1 Sr Q) as [(N & s' & ds & H1 & H2 & H3 & H4)|(h & q & rest & s2 & s' & ds & -> & N & L & H1 & H2 & H3 & H4)].
      * left. split; [apply NC; exact N|]. exists s', (ds1 ++ ds). split; [apply handles_cons with s1; assumption|]. split; [assumption|].
        rewrite H3, O1, app_assoc. split; [reflexivity|]. change (p :: ps) with ([p] ++ ps). rewrite eits_app. apply airtimes_app; assumption.
      * right. exists (p :: h), q, rest, s2, s', (ds1 ++ ds). split; [reflexivity|]. split; [apply NC; exact N|]. split; [exact L|].
        split; [apply handles_cons with s1; assumption|]. split; [exact H2|].
        rewrite H3, O1, app_assoc. split; [reflexivity|]. change ((p :: h) ++ [q]) with ([p] ++ (h ++ [q])). rewrite eits_app. apply airtimes_app; assumption.
Qed.

(** Feeding a list, given what the sink does with it. *)
Lemma feed_all : forall P (k : sink P) ps n s s', handles k s ps s' -> (List.length ps < n)%nat ->
  feed_loop (list_source P) k n ps s = Some (Ok s').
Proof.
  intros P k ps n s s' H. revert n. induction H; intros n L; (destruct n as [|n]; [cbn in L; lia|]); cbn; [reflexivity|].
  rewrite H. apply IHhandles. cbn in L. lia.
Qed.
Lemma feed_stop : forall P (k : sink P) h p rest n s s1 s', handles k s h s1 -> sk_handle k s1 p = Ok (s', false) ->
  (List.length (h ++ p :: rest) < n)%nat -> feed_loop (list_source P) k n (h ++ p :: rest) s = Some (Ok s').
Proof.
  intros P k h p rest n s s1 s' H G. revert n. induction H; intros n L; (destruct n as [|n]; [cbn in L; lia|]); cbn.
  - rewrite G. reflexivity.
  - rewrite H. apply IHhandles; [assumption|]. cbn in L. lia.
Qed.

Lemma airtime_run : forall o ps fuel, sane_eits ps -> (List.length ps < fuel)%nat ->
  exists s h rest, FeedPackets (list_source packet) (at_sink o) fuel ps at_init = Some (Ok (0, s)) /\
    ps = h ++ rest /\ airtimes o (eits h) (at_out s) /\
    (rest = [] /\ ~ lacking o ps \/ exists h0 p, h = h0 ++ [p] /\ ~ lacking o h0 /\ lacking o [p]).
Proof.
  intros o ps fuel Sane Fu. unfold FeedPackets. cbn [sk_start at_sink].
  destruct (at_handles o ps at_init Sane eq_refl) as [(N & s' & ds & H1 & H2 & H3 & H4)|(h & q & rest & s2 & s' & ds & -> & N & L & H1 & H2 & H3 & H4)].
  - rewrite (feed_all _ _ _ _ _ _ H1 Fu). cbn. exists s', ps, []. split; [reflexivity|]. rewrite app_nil_r. split; [reflexivity|].
    rewrite H3. cbn. split; [exact H4|]. auto.
  - rewrite (feed_stop _ (at_sink o) h q rest fuel at_init s2 s' H1 H2 Fu). cbn. exists s', (h ++ [q]), rest. split; [reflexivity|].
    rewrite <- app_assoc. split; [reflexivity|]. rewrite H3. cbn. split; [exact H4|]. right. exists h, q. auto.
Qed.

(** * filter-program-metadata *)

Lemma md_events_ok : forall vs, (forall v, In v vs -> sane_event v) ->
  MakeEventsJson vs = Ok (map (fun v => mkMetaEvent (ev_id v) (unix_start v) (ev_duration v * 1000) (ev_data v)) vs).
Proof.
  induction vs as [|v vs IH]; intros S; [reflexivity|]. cbn [MakeEventsJson]. unfold MakeEventJson.
  destruct (sane_times v (S v (or_introl eq_refl))) as [E1 E2]. rewrite E1. cbn [bind]. rewrite E2. cbn [bind].
  rewrite IH by (intros w W; apply S; right; exact W). reflexivity.
Qed.

Lemma md_eit : forall sid out e, (forall v, In v (eit_events e) -> sane_event v) ->
  exists ds, md_HandleEit sid out (Some e) = Ok (out ++ ds) /\ metadatas sid [e] ds.
Proof.
  intros sid out e S. unfold md_HandleEit. destruct (negb (sid =? 0) && negb (eit_sid e =? sid)) eqn:E.
  - apply andb_true_iff in E as [E1 E2]. apply negb_true_iff, Z.eqb_neq in E1. apply negb_true_iff, Z.eqb_neq in E2.
    exists []. rewrite app_nil_r. split; [reflexivity|]. apply metadatas_skip; [auto|constructor].
  - assert (Sel : sid = 0 \/ eit_sid e = sid).
    { apply andb_false_iff in E as [E|E]; apply negb_false_iff, Z.eqb_eq in E; auto. }
    destruct (eit_events e) as [|v vs] eqn:Ee.
    + exists []. rewrite app_nil_r. split; [reflexivity|]. apply metadatas_skip; [auto|constructor].
    + rewrite <- Ee in *. rewrite md_events_ok by exact S. cbn [bind]. exists [metadata e]. split; [reflexivity|].
      apply metadatas_doc; [assumption|congruence|constructor].
Qed.

Lemma metadatas_app : forall sid es ds es' ds', metadatas sid es ds -> metadatas sid es' ds' -> metadatas sid (es ++ es') (ds ++ ds').
Proof. intros sid es ds es' ds' H G. induction H; cbn; [assumption|apply metadatas_skip; auto|apply metadatas_doc; auto]. Qed.

Lemma md_tables : forall sid pid tabs out, (forall e v, In e (tab_eits tabs) -> In v (eit_events e) -> sane_event v) ->
  exists ds, handle_tables (md_handleTable sid) out pid tabs = Ok (out ++ ds) /\ metadatas sid (tab_eits tabs) ds.
Proof.
  intros sid pid tabs. induction tabs as [|t tabs IH]; intros out Sane.
  - exists []. rewrite app_nil_r. split; [reflexivity|constructor].
  - cbn [handle_tables]. unfold tab_eits in *. cbn [flat_map] in *. unfold md_handleTable at 1. destruct (tb_body t) as [x|x|x|x|x|x|x|];
      try (cbn [bind]; apply IH; exact Sane).
    destruct x as [e|]; [|cbn [bind md_HandleEit]; apply IH; exact Sane].
    destruct (md_eit sid out e) as (ds1 & E1 & A1); [intros v; apply Sane; cbn; auto|].
    rewrite E1. cbn [bind]. destruct (IH (out ++ ds1)) as (ds2 & E2 & A2); [intros f v F; apply Sane; cbn; auto|].
    exists (ds1 ++ ds2). rewrite E2, app_assoc. split; [reflexivity|]. apply (metadatas_app sid [e] ds1); assumption.
Qed.

Lemma metadata_run : forall sid ps fuel, sane_eits ps -> (List.length ps < fuel)%nat ->
  exists out, FeedPackets (list_source packet) (md_sink sid) fuel ps [] = Some (Ok (0, out)) /\ metadatas sid (eits ps) out.
Proof.
  intros sid ps fuel Sane Fu.
  assert (H : forall ps out, sane_eits ps -> exists ds, handles (md_sink sid) out ps (out ++ ds) /\ metadatas sid (eits ps) ds).
  { clear. intros ps. induction ps as [|p ps IH]; intros out Sane.
    - exists []. rewrite app_nil_r. split; constructor.
    - assert (Sr : sane_eits ps) by (intros e v He; apply Sane; change (p :: ps) with ([p] ++ ps); rewrite eits_app; apply in_app_iff; auto).
      destruct (md_tables sid (p_pid p) (demux_feed [PID_EIT] 0 p) out) as (ds1 & E1 & A1).
      { intros e v He. apply Sane. change (p :: ps) with ([p] ++ ps). rewrite eits_app. apply in_app_iff. left.
        unfold eits. cbn [flat_map]. rewrite app_nil_r, eits_of_feed. exact He. }
      destruct (IH (out ++ ds1) Sr) as (ds2 & H2 & A2). exists (ds1 ++ ds2). split.
      + apply handles_cons with (out ++ ds1); [|rewrite app_assoc; exact H2]. cbn. unfold md_HandlePacket. rewrite E1. reflexivity.
      + change (p :: ps) with ([p] ++ ps). rewrite eits_app. apply metadatas_app; [|exact A2].
        unfold eits. cbn [flat_map]. rewrite app_nil_r, eits_of_feed. exact A1. }
  destruct (H ps [] Sane) as (ds & H1 & A). unfold FeedPackets. cbn [sk_start md_sink]. cbn [app] in H1.
  rewrite (feed_all _ _ _ _ _ _ H1 Fu). cbn. exists ds. auto.
Qed.
