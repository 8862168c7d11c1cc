(** Proofs about selections of services. *)
From Coq Require Import ZArith Lia List Bool.
From Verif Require Import Base.Outcome Base.Util Model.Sink Model.EitSection Model.EitCollector Model.EitpfCollector
  Spec.EitSpec Spec.PfSpec Spec.SelectSpec Proofs.EitSectionProofs Proofs.PfExact Proofs.PipeOptions Proofs.PfProofs.
From Verif Require Model.ServiceScanner Model.Ts.
Import ListNotations.
Open Scope Z_scope.

Lemma filter_one : forall A (f : A -> bool) l x, filter f (l ++ [x]) = filter f l ++ if f x then [x] else [].
Proof. intros. rewrite filter_app. cbn. destruct (f x); auto. Qed.

(** What handleSection does with a section that it considers, and with one that
    it does not. *)
Lemma scheduled : forall mjd o s x, schedule o x ->
  exists e, EitSection x = Ok e /\ parsed x e /\
    ec_deliver mjd o s (DSection x) = if cp_CheckCollected (ec_progress s) e then Ok s else ec_write mjd s e.
Proof.
  intros mjd o s x (V & N & Z & T & S & X). destruct (EitSection_parsed x Z) as (e & He & P). exists e. split; [auto|]. split; [auto|].
  assert (Hs : ei_sid e = sid_of x) by (destruct P as (_ & P1 & _); exact P1).
  cbn [ec_deliver]. unfold ec_handleSection. rewrite V. cbn [negb].
  assert (K : (if (0x50 <=? sn_tid x) && (sn_tid x <=? 0x5F) then negb (eo_actual o)
      else if (0x60 <=? sn_tid x) && (sn_tid x <=? 0x6F) then negb (eo_others o) else true) = false).
  { destruct T as [[T E]|[T E]].
    - rewrite (proj2 (Z.leb_le 0x50 (sn_tid x))), (proj2 (Z.leb_le (sn_tid x) 0x5F)) by lia. cbn. rewrite E. reflexivity.
    - rewrite (proj2 (Z.leb_gt (sn_tid x) 0x5F)) by lia. rewrite andb_false_r.
      rewrite (proj2 (Z.leb_le 0x60 (sn_tid x))), (proj2 (Z.leb_le (sn_tid x) 0x6F)) by lia. cbn. rewrite E. reflexivity. }
  cbn zeta. rewrite K, N. unfold EIT_PAYLOAD_FIXED_SIZE. rewrite (proj2 (Z.ltb_ge (zlen (sn_payload x)) 6)) by lia. rewrite He. cbn [bind]. rewrite Hs.
  replace (negb (ss_IsEmpty (eo_sids o)) && negb (ss_Contain (eo_sids o) (sid_of x))) with false.
  2:{ symmetry. destruct S as [->|S]; [reflexivity|]. unfold ss_Contain. apply zmem_In in S. rewrite S. apply andb_false_r. }
  replace (negb (ss_IsEmpty (eo_xsids o)) && ss_Contain (eo_xsids o) (sid_of x)) with false; [reflexivity|].
  symmetry. unfold ss_Contain. apply zmem_false in X. rewrite X. apply andb_false_r.
Qed.

Lemma schedule_dec : forall o x, schedule o x \/ ~ schedule o x.
Proof.
  intros o x. unfold schedule.
  destruct (sn_valid x); [|right; intros [? _]; discriminate]. destruct (sn_next x); [right; intros (_ & ? & _); discriminate|].
  destruct (Z_le_dec 6 (zlen (sn_payload x))) as [Z|Z]; [|right; tauto].
  assert (T : (0x50 <= sn_tid x <= 0x5F /\ eo_actual o = true \/ 0x60 <= sn_tid x <= 0x6F /\ eo_others o = true) \/
    ~ (0x50 <= sn_tid x <= 0x5F /\ eo_actual o = true \/ 0x60 <= sn_tid x <= 0x6F /\ eo_others o = true)).
  { destruct (eo_actual o), (eo_others o); destruct (Z_le_dec 0x50 (sn_tid x)), (Z_le_dec (sn_tid x) 0x5F), (Z_le_dec 0x60 (sn_tid x)), (Z_le_dec (sn_tid x) 0x6F);
      try tauto; right; intros [[[? ?] ?]|[[? ?] ?]]; (contradiction || discriminate). }
  destruct T as [T|T]; [|right; tauto].
  destruct (in_dec Z.eq_dec (sid_of x) (eo_xsids o)) as [X|X]; [right; tauto|].
  destruct (in_dec Z.eq_dec (sid_of x) (eo_sids o)) as [S|S]; [left; tauto|].
  destruct (eo_sids o) as [|y l]; [left; tauto|]. right. intros (_ & _ & _ & _ & [E|E] & _); [discriminate|contradiction].
Qed.

(** The key of the map tells the service. *)
Lemma key_service : forall x e, wire x -> 6 <= zlen (sn_payload x) -> parsed x e -> svc_of_key (service_triple e) = service_of x.
Proof.
  intros x e W H P. destruct (wire_ranges x e W H P) as (R1 & R2 & R3). unfold svc_of_key. destruct (triple_fields e R1 R2 R3) as (-> & -> & ->).
  destruct P as (_ & P1 & _ & P2 & P3 & _). unfold service_of, sid_of. congruence.
Qed.
Lemma json_service : forall mjd x e d, parsed x e -> MakeEitJson mjd e = Ok d -> doc_service d = service_of x.
Proof.
  intros mjd x e d (_ & P1 & _ & P2 & P3 & _) H. unfold MakeEitJson in H. destruct (MakeEventsJsonValue mjd e); cbn [bind] in H; [|discriminate].
  injection H as <-. unfold doc_service, service_of, sid_of. cbn. congruence.
Qed.

Lemma mfind_map : forall A (f : A -> A) k (m : list (Z * A)), mfind k (map (fun p => (fst p, f (snd p))) m) = option_map f (mfind k m).
Proof. induction m as [|[k' v] m IH]; cbn; [reflexivity|]. rewrite IH. destruct (k =? k'); reflexivity. Qed.

(** * collect-eits *)
Section Eits.
Variable mjd : list Z -> option Z.
Variable o : eit_option.
Variable K : Z * Z * Z -> bool.

(** The states of the runs with all and with the selected services. *)
Definition alike (s s' : eit_state) : Prop :=
  ec_out s' = filter (fun d => K (doc_service d)) (ec_out s) /\
  forall k, K (svc_of_key k) = true -> mfind k (cp_services (ec_progress s')) = mfind k (cp_services (ec_progress s)).

Lemma alike_selected : forall s s' x s1, wire x -> K (service_of x) = true -> alike s s' ->
  ec_deliver mjd o s (DSection x) = Ok s1 -> exists s1', ec_deliver mjd o s' (DSection x) = Ok s1' /\ alike s1 s1'.
Proof.
  intros s s' x s1 W Kx [O M] E. destruct (schedule_dec o x) as [Sc|N].
  2:{ rewrite unscheduled in * by auto. injection E as <-. exists s'. split; [reflexivity|split; auto]. }
  destruct (scheduled mjd o s x Sc) as (e & He & P & D). destruct (scheduled mjd o s' x Sc) as (e' & He' & _ & D').
  rewrite He in He'. injection He' as <-. rewrite D in E. rewrite D'.
  assert (Kk : svc_of_key (service_triple e) = service_of x) by (apply key_service; [auto|apply Sc|auto]).
  unfold cp_CheckCollected in *. rewrite (M (service_triple e)) by congruence.
  destruct (match mfind (service_triple e) (cp_services (ec_progress s)) with Some p => sp_CheckCollected p e | None => false end).
  - injection E as <-. exists s'. split; [reflexivity|split; auto].
  - unfold ec_write in *. destruct (MakeEitJson mjd e) as [d|f] eqn:J; cbn [bind] in *; [|discriminate]. injection E as <-.
    eexists. split; [reflexivity|]. split; cbn.
    + rewrite filter_one, (json_service mjd x e d P J), Kx, O. reflexivity.
    + intros k Hk. rewrite !mfind_minsert. unfold cp_get. rewrite (M (service_triple e)) by congruence. destruct (k =? service_triple e); auto.
Qed.
Lemma alike_other : forall s s' x s1, wire x -> K (service_of x) = false -> alike s s' ->
  ec_deliver mjd o s (DSection x) = Ok s1 -> alike s1 s'.
Proof.
  intros s s' x s1 W Kx [O M] E. destruct (schedule_dec o x) as [Sc|N].
  2:{ rewrite unscheduled in * by auto. injection E as <-. split; auto. }
  destruct (scheduled mjd o s x Sc) as (e & He & P & D). rewrite D in E.
  assert (Kk : svc_of_key (service_triple e) = service_of x) by (apply key_service; [auto|apply Sc|auto]).
  destruct (cp_CheckCollected (ec_progress s) e).
  - injection E as <-. split; auto.
  - unfold ec_write in *. destruct (MakeEitJson mjd e) as [d|f] eqn:J; cbn [bind] in *; [|discriminate]. injection E as <-. split; cbn.
    + rewrite filter_one, (json_service mjd x e d P J), Kx, app_nil_r, O. reflexivity.
    + intros k Hk. rewrite mfind_minsert. destruct (Z.eqb_spec k (service_triple e)) as [->|]; [congruence|auto].
Qed.
Lemma alike_tot : forall s s' t, alike s s' -> alike (ec_HandleTot s t) (ec_HandleTot s' t).
Proof.
  intros s s' [t|] [O M]; [|split; auto]. split; [exact O|]. intros k Hk. cbn [ec_HandleTot ec_progress cp_UpdateUnused cp_services].
  rewrite !(mfind_map _ (fun v => sp_UpdateUnused v t)), M by auto. reflexivity.
Qed.

Lemma eits_alike : forall ds s s' s1, wires ds -> alike s s' -> ec_deliver_all mjd o s ds = Ok s1 ->
  exists s1', ec_deliver_all mjd o s' (of_services K ds) = Ok s1' /\ alike s1 s1'.
Proof.
  induction ds as [|d ds IH]; intros s s' s1 W A E; cbn [ec_deliver_all] in E.
  - injection E as <-. exists s'. split; [reflexivity|auto].
  - destruct (ec_deliver mjd o s d) as [s2|f] eqn:D; cbn [bind] in E; [|discriminate].
    assert (W' : wires ds) by (intros y Hy; apply W; right; auto).
    destruct d as [x|t]; unfold of_services; cbn [filter].
    + destruct (K (service_of x)) eqn:Kx.
      * destruct (alike_selected s s' x s2 (W x (or_introl eq_refl)) Kx A D) as (s2' & D' & A'). cbn [ec_deliver_all]. rewrite D'. cbn [bind].
        exact (IH _ _ _ W' A' E).
      * apply (IH _ _ _ W' (alike_other s s' x s2 (W x (or_introl eq_refl)) Kx A D) E).
    + cbn [ec_deliver_all ec_deliver bind] in *. injection D as <-. apply (IH _ _ _ W' (alike_tot _ _ t A) E).
Qed.

Lemma eits_apart : forall ds s, wires ds -> ec_deliver_all mjd o ec_init ds = Ok s ->
  exists s', ec_deliver_all mjd o ec_init (of_services K ds) = Ok s' /\ only (fun d => K (doc_service d)) (ec_out s) (ec_out s').
Proof.
  intros ds s W E. destruct (eits_alike ds ec_init ec_init s W) as (s' & E' & O & _); [split; [reflexivity|auto]|exact E|]. exists s'. auto.
Qed.

(** A collector that considers the selected services only. *)
Lemma eits_select : forall o', (forall x, schedule o' x <-> schedule o x /\ K (service_of x) = true) ->
  forall ds s, ec_deliver_all mjd o' s ds = ec_deliver_all mjd o s (of_services K ds).
Proof.
  intros o' H. induction ds as [|d ds IH]; intros s; [reflexivity|]. destruct d as [x|t]; unfold of_services; cbn [filter].
  - assert (Same : K (service_of x) = true -> ec_deliver mjd o' s (DSection x) = ec_deliver mjd o s (DSection x)).
    { intros Kx. destruct (schedule_dec o x) as [Sc|N].
      - destruct (scheduled mjd o s x Sc) as (e & He & _ & ->). destruct (scheduled mjd o' s x (proj2 (H x) (conj Sc Kx))) as (e' & He' & _ & ->).
        rewrite He in He'. injection He' as <-. reflexivity.
      - rewrite !unscheduled; auto. rewrite H. tauto. }
    destruct (K (service_of x)) eqn:Kx.
    + cbn [ec_deliver_all]. rewrite (Same eq_refl). destruct (ec_deliver mjd o s (DSection x)); cbn [bind]; [apply IH|reflexivity].
    + cbn [ec_deliver_all]. rewrite unscheduled; [cbn [bind]; apply IH|]. rewrite H. intros [_ E]. congruence.
  - cbn [ec_deliver_all ec_deliver bind]. apply IH.
Qed.
End Eits.

Lemma eits_more : forall mjd o ds s s', ec_deliver_all mjd o s ds = Ok s' -> exists r, ec_out s' = ec_out s ++ r.
Proof.
  induction ds as [|d ds IH]; intros s s' E; cbn [ec_deliver_all] in E.
  - injection E as <-. exists []. rewrite app_nil_r. auto.
  - destruct (ec_deliver mjd o s d) as [s2|f] eqn:D; cbn [bind] in E; [|discriminate]. destruct (IH _ _ E) as [r ->].
    assert (exists q, ec_out s2 = ec_out s ++ q) as [q ->]; [|exists (q ++ r); rewrite app_assoc; auto].
    destruct d as [x|[t|]]; [|injection D as <-; exists []; rewrite app_nil_r; auto..].
    destruct (schedule_dec o x) as [Sc|N].
    + destruct (scheduled mjd o s x Sc) as (e & _ & _ & H). rewrite H in D. destruct (cp_CheckCollected _ e).
      * injection D as <-. exists []. rewrite app_nil_r. auto.
      * unfold ec_write in D. destruct (MakeEitJson mjd e); cbn [bind] in D; [|discriminate]. injection D as <-. eexists. reflexivity.
    + rewrite unscheduled in D by auto. injection D as <-. exists []. rewrite app_nil_r. auto.
Qed.
Lemma deliver_app : forall mjd o a b s, ec_deliver_all mjd o s (a ++ b) = bind (ec_deliver_all mjd o s a) (fun s1 => ec_deliver_all mjd o s1 b).
Proof.
  induction a as [|d a IH]; intros b s; cbn [app ec_deliver_all bind]; [reflexivity|]. destruct (ec_deliver mjd o s d); cbn [bind]; [apply IH|reflexivity].
Qed.

(** The run takes the packets from the start; all of them when streaming. *)
Lemma eits_taken : forall mjd o ps n s, (List.length ps < n)%nat ->
  exists taken rest, ps = taken ++ rest /\ (eo_streaming o = true -> rest = []) /\
    feed_loop (list_source _) (eit_sink mjd o) n ps s = Some (ec_deliver_all mjd o s (concat taken)).
Proof.
  intros mjd o. induction ps as [|p ps IH]; intros n s L; (destruct n; [cbn in L; lia|]); cbn [feed_loop list_source sr_next eit_sink sk_handle].
  - exists [], []. auto.
  - unfold ec_HandlePacket. destruct (ec_deliver_all mjd o s p) as [s1|f] eqn:E; cbn [bind].
    2:{ exists (p :: ps), []. rewrite app_nil_r. split; [reflexivity|]. split; [auto|]. cbn [concat]. rewrite deliver_app, E. reflexivity. }
    assert (Stop : exists taken rest, p :: ps = taken ++ rest /\ rest = ps /\ Some (Ok s1) = Some (ec_deliver_all mjd o s (concat taken))).
    { exists [p], ps. split; [reflexivity|]. split; [reflexivity|]. cbn [concat]. rewrite app_nil_r, E. reflexivity. }
    assert (Go : exists taken rest, p :: ps = taken ++ rest /\ (eo_streaming o = true -> rest = []) /\
      feed_loop (list_source _) (eit_sink mjd o) n ps s1 = Some (ec_deliver_all mjd o s (concat taken))).
    { destruct (IH n s1) as (taken & rest & -> & St & F); [cbn in L; lia|]. exists (p :: taken), rest. split; [reflexivity|]. split; [exact St|].
      rewrite F. cbn [concat]. rewrite deliver_app, E. reflexivity. }
    destruct (ec_IsCompleted o s1) eqn:C; [|destruct (ec_CheckTimeout o s1) eqn:T; [|exact Go]].
    + destruct Stop as (a & b & S1 & _ & S2). exists a, b. split; [exact S1|]. split; [|exact S2]. unfold ec_IsCompleted in C. intros St. rewrite St in C. discriminate.
    + destruct Stop as (a & b & S1 & _ & S2). exists a, b. split; [exact S1|]. split; [|exact S2]. unfold ec_CheckTimeout in T. intros St. rewrite St in T. discriminate.
Qed.
Lemma eits_run : forall mjd o ps n s, (List.length ps < n)%nat ->
  exists taken rest, ps = taken ++ rest /\ (eo_streaming o = true -> rest = []) /\
    FeedPackets (list_source _) (eit_sink mjd o) n ps s = Some (let* s1 := ec_deliver_all mjd o s (concat taken) in Ok (0, s1)).
Proof.
  intros mjd o ps n s L. destruct (eits_taken mjd o ps n s L) as (taken & rest & E & St & F). exists taken, rest. split; [auto|]. split; [auto|].
  unfold FeedPackets. cbn [eit_sink sk_start]. fold (eit_sink mjd o). rewrite F. reflexivity.
Qed.

Lemma filter_prefix : forall A (f : A -> bool) a r, filter f (a ++ r) = filter f a ++ filter f r.
Proof. intros. apply filter_app. Qed.

(** Two runs that stop at different places. *)
Lemma eits_prefix : forall mjd o o' (K : Z * Z * Z -> bool), (forall x, schedule o' x <-> schedule o x /\ K (service_of x) = true) ->
  forall ps t r t' r' s s', wires (concat ps) -> ps = t ++ r -> ps = t' ++ r' ->
  ec_deliver_all mjd o ec_init (concat t) = Ok s -> ec_deliver_all mjd o' ec_init (concat t') = Ok s' ->
  one_starts (filter (fun d => K (doc_service d)) (ec_out s)) (ec_out s').
Proof.
  intros mjd o o' K H ps t r t' r' s s' W E E' D D'. subst ps.
  rewrite concat_app in W.
  assert (Wt : wires (concat t)) by (intros x Hx; apply W, in_app_iff; auto).
  destruct (eits_apart mjd o K _ s Wt D) as (s2 & D2 & O). unfold only in O. rewrite <- (eits_select mjd o K o' H) in D2. rewrite <- O. clear O.
  assert (C : exists q, t' = t ++ q \/ t = t' ++ q).
  { clear - E'. revert t' r r' E'. induction t as [|a t IH]; intros t' r r' E'; [exists t'; auto|].
    destruct t' as [|b t']; [exists (a :: t); auto|]. cbn in E'. injection E' as -> E'. destruct (IH _ _ _ E') as [q [->| ->]]; exists q; auto. }
  destruct C as [q [->| ->]]; rewrite concat_app, deliver_app in *.
  - rewrite D2 in D'. cbn [bind] in D'. destruct (eits_more _ _ _ _ _ D') as [z ->]. exists z. auto.
  - rewrite D' in D2. cbn [bind] in D2. destruct (eits_more _ _ _ _ _ D2) as [z ->]. exists z. auto.
Qed.

(** * collect-eitpf *)
Section Pf.
Variable mjd : list Z -> option Z.
Variable o : pf_option.
Variable K : Z * Z * Z -> bool.

Definition pf_alike (s s' : pf_state) : Prop :=
  pf_out s' = filter (fun d => K (doc_service d)) (pf_out s) /\
  forall k, K (svc_of_key k) = true -> mfind k (pf_present s') = mfind k (pf_present s) /\ mfind k (pf_following s') = mfind k (pf_following s).

Lemma pf_dec : forall x, pf_counts o x \/ ~ pf_counts o x.
Proof. exact (counts_dec mjd o). Qed.
End Pf.

Lemma pf_counted : forall mjd o s x, pf_counts o x ->
  exists e, EitSection x = Ok e /\ parsed x e /\
    pf_handleSection mjd o s x =
      if sn_number x =? 0 then
        if pf_IsCollected e (pf_present s) then Ok s
        else let* out := pf_write mjd (pf_out s) e (po_present o) in Ok (mkPf (minsert (service_triple e) (ei_version e) (pf_present s)) (pf_following s) out)
      else if pf_IsCollected e (pf_following s) then Ok s
      else let* out := pf_write mjd (pf_out s) e (po_following o) in Ok (mkPf (pf_present s) (minsert (service_triple e) (ei_version e) (pf_following s)) out).
Proof.
  intros mjd o s x (V & N & T & Z & I & S). destruct (EitSection_parsed x Z) as (e & He & P). exists e. split; [auto|]. split; [auto|].
  assert (Hs : ei_sid e = sid_of x) by (destruct P as (_ & P1 & _); exact P1).
  assert (Hn : ei_number e = sn_number x) by apply P.
  unfold pf_handleSection. rewrite V, N, T. cbn [negb Z.eqb]. unfold EIT_PAYLOAD_FIXED_SIZE. rewrite (proj2 (Z.ltb_ge (zlen (sn_payload x)) 6)) by lia.
  rewrite He. cbn [bind]. rewrite Hs, Hn.
  replace (negb (ss_IsEmpty (po_sids o)) && negb (ss_Contain (po_sids o) (sid_of x))) with false.
  2:{ symmetry. destruct S as [->|S]; [reflexivity|]. unfold ss_Contain. apply zmem_In in S. rewrite S. apply andb_false_r. }
  destruct I as [->| ->]; reflexivity.
Qed.

Section Pf2.
Variable mjd : list Z -> option Z.
Variable o : pf_option.
Variable K : Z * Z * Z -> bool.
Notation alike := (pf_alike K).

Lemma pf_selected_alike : forall s s' x s1, wire x -> K (service_of x) = true -> alike s s' ->
  pf_handleSection mjd o s x = Ok s1 -> exists s1', pf_handleSection mjd o s' x = Ok s1' /\ alike s1 s1'.
Proof.
  intros s s' x s1 W Kx [O M] E. destruct (pf_dec mjd o x) as [C|N].
  2:{ rewrite pf_ignored in * by auto. injection E as <-. exists s'. split; [reflexivity|split; auto]. }
  destruct (pf_counted mjd o s x C) as (e & He & P & D). destruct (pf_counted mjd o s' x C) as (e' & He' & _ & D').
  rewrite He in He'. injection He' as <-. rewrite D in E. rewrite D'.
  assert (Kk : svc_of_key (service_triple e) = service_of x) by (apply key_service; [auto|apply C|auto]).
  assert (Kt : K (svc_of_key (service_triple e)) = true) by congruence. unfold pf_IsCollected in *. destruct (M _ Kt) as [-> ->].
  assert (Wr : forall b out, pf_write mjd (pf_out s) e b = Ok out ->
    exists out', pf_write mjd (pf_out s') e b = Ok out' /\ out' = filter (fun d => K (doc_service d)) out).
  { intros [|] out Hw; unfold pf_write in *; [|injection Hw as <-; eauto]. destruct (MakeEitJson mjd e) as [d|f] eqn:J; cbn [bind] in *; [|discriminate].
    injection Hw as <-. eexists. split; [reflexivity|]. rewrite filter_one, (json_service mjd x e d P J), Kx, O. reflexivity. }
  destruct (sn_number x =? 0).
  - match goal with |- context [if ?c then Ok s' else _] => destruct c end; [injection E as <-; exists s'; split; [reflexivity|split; auto]|].
    destruct (pf_write mjd (pf_out s) e (po_present o)) as [out|f] eqn:Hw; cbn [bind] in E; [|discriminate]. injection E as <-.
    destruct (Wr _ _ Hw) as (out' & -> & ->). cbn [bind]. eexists. split; [reflexivity|]. split; [reflexivity|]. cbn. intros k Hk.
    rewrite !mfind_minsert. destruct (M k Hk) as [-> ->]. auto.
  - match goal with |- context [if ?c then Ok s' else _] => destruct c end; [injection E as <-; exists s'; split; [reflexivity|split; auto]|].
    destruct (pf_write mjd (pf_out s) e (po_following o)) as [out|f] eqn:Hw; cbn [bind] in E; [|discriminate]. injection E as <-.
    destruct (Wr _ _ Hw) as (out' & -> & ->). cbn [bind]. eexists. split; [reflexivity|]. split; [reflexivity|]. cbn. intros k Hk.
    rewrite !mfind_minsert. destruct (M k Hk) as [-> ->]. auto.
Qed.
Lemma pf_other_alike : forall s s' x s1, wire x -> K (service_of x) = false -> alike s s' ->
  pf_handleSection mjd o s x = Ok s1 -> alike s1 s'.
Proof.
  intros s s' x s1 W Kx [O M] E. destruct (pf_dec mjd o x) as [C|N].
  2:{ rewrite pf_ignored in * by auto. injection E as <-. split; auto. }
  destruct (pf_counted mjd o s x C) as (e & He & P & D). rewrite D in E.
  assert (Kk : svc_of_key (service_triple e) = service_of x) by (apply key_service; [auto|apply C|auto]).
  assert (Wr : forall b out, pf_write mjd (pf_out s) e b = Ok out -> pf_out s' = filter (fun d => K (doc_service d)) out).
  { intros [|] out Hw; unfold pf_write in *; [|injection Hw as <-; eauto]. destruct (MakeEitJson mjd e) as [d|f] eqn:J; cbn [bind] in *; [|discriminate].
    injection Hw as <-. rewrite filter_one, (json_service mjd x e d P J), Kx, app_nil_r. exact O. }
  assert (Ne : forall k, K (svc_of_key k) = true -> (k =? service_triple e) = false).
  { intros k Hk. apply Z.eqb_neq. intros ->. congruence. }
  destruct (sn_number x =? 0).
  - match type of E with (if ?c then _ else _) = _ => destruct c end; [injection E as <-; split; auto|].
    destruct (pf_write mjd (pf_out s) e (po_present o)) as [out|f] eqn:Hw; cbn [bind] in E; [|discriminate]. injection E as <-. split; cbn; [eauto|].
    intros k Hk. rewrite mfind_minsert, (Ne k Hk). auto.
  - match type of E with (if ?c then _ else _) = _ => destruct c end; [injection E as <-; split; auto|].
    destruct (pf_write mjd (pf_out s) e (po_following o)) as [out|f] eqn:Hw; cbn [bind] in E; [|discriminate]. injection E as <-. split; cbn; [eauto|].
    intros k Hk. rewrite mfind_minsert, (Ne k Hk). auto.
Qed.

Definition pf_of (xs : list section) : list section := filter (fun x => K (service_of x)) xs.

Lemma pf_all_alike : forall xs s s' s1, pf_wires xs -> alike s s' -> pf_handle_all mjd o s xs = Ok s1 ->
  exists s1', pf_handle_all mjd o s' (pf_of xs) = Ok s1' /\ alike s1 s1'.
Proof.
  induction xs as [|x xs IH]; intros s s' s1 W A E; cbn [pf_handle_all] in E.
  - injection E as <-. exists s'. split; [reflexivity|auto].
  - destruct (pf_handleSection mjd o s x) as [s2|f] eqn:D; cbn [bind] in E; [|discriminate].
    assert (W' : pf_wires xs) by (intros y Hy; apply W; right; auto). assert (Wx : wire x) by (apply W; left; auto).
    unfold pf_of; cbn [filter]. destruct (K (service_of x)) eqn:Kx.
    + destruct (pf_selected_alike s s' x s2 Wx Kx A D) as (s2' & D' & A'). cbn [pf_handle_all]. rewrite D'. cbn [bind]. exact (IH _ _ _ W' A' E).
    + apply (IH _ _ _ W' (pf_other_alike s s' x s2 Wx Kx A D) E).
Qed.
Lemma pf_apart : forall xs s, pf_wires xs -> pf_handle_all mjd o pf_init xs = Ok s ->
  exists s', pf_handle_all mjd o pf_init (pf_of xs) = Ok s' /\ only (fun d => K (doc_service d)) (pf_out s) (pf_out s').
Proof.
  intros xs s W E. destruct (pf_all_alike xs pf_init pf_init s W) as (s' & E' & O & _); [split; [reflexivity|auto]|exact E|]. exists s'. auto.
Qed.
Lemma pf_select : forall o', (forall x, pf_counts o' x <-> pf_counts o x /\ K (service_of x) = true) ->
  po_present o' = po_present o -> po_following o' = po_following o ->
  forall xs s, pf_handle_all mjd o' s xs = pf_handle_all mjd o s (pf_of xs).
Proof.
  intros o' H Ep Ef. induction xs as [|x xs IH]; intros s; [reflexivity|]. unfold pf_of; cbn [filter]. destruct (K (service_of x)) eqn:Kx.
  - cbn [pf_handle_all].
    assert (Same : pf_handleSection mjd o' s x = pf_handleSection mjd o s x).
    { destruct (pf_dec mjd o x) as [C|N].
      - destruct (pf_counted mjd o s x C) as (e & He & _ & ->). destruct (pf_counted mjd o' s x (proj2 (H x) (conj C Kx))) as (e' & He' & _ & ->).
        rewrite He in He'. injection He' as <-. rewrite Ep, Ef. reflexivity.
      - rewrite !pf_ignored; auto. rewrite H. tauto. }
    rewrite Same. destruct (pf_handleSection mjd o s x); cbn [bind]; [apply IH|reflexivity].
  - cbn [pf_handle_all]. rewrite pf_ignored; [cbn [bind]; apply IH|]. rewrite H. intros [_ E]. congruence.
Qed.
End Pf2.

Lemma pf_app : forall mjd o a b s, pf_handle_all mjd o s (a ++ b) = bind (pf_handle_all mjd o s a) (fun s1 => pf_handle_all mjd o s1 b).
Proof.
  induction a as [|d a IH]; intros b s; cbn [app pf_handle_all bind]; [reflexivity|]. destruct (pf_handleSection mjd o s d); cbn [bind]; [apply IH|reflexivity].
Qed.
Lemma pf_loop : forall mjd o ps n s, po_streaming o = true -> (List.length ps < n)%nat ->
  feed_loop (list_source _) (pf_sink mjd o) n ps s = Some (pf_handle_all mjd o s (concat ps)).
Proof.
  intros mjd o. induction ps as [|p ps IH]; intros n s St L; (destruct n; [cbn in L; lia|]); cbn [feed_loop list_source sr_next pf_sink sk_handle].
  - reflexivity.
  - unfold pf_HandlePacket. cbn [concat]. rewrite pf_app. destruct (pf_handle_all mjd o s p) as [s1|f]; cbn [bind]; [|reflexivity].
    unfold pf_Done. rewrite St. cbn [bind negb]. apply IH; [auto|cbn in L; lia].
Qed.
Lemma pf_run : forall mjd o ps n s, po_streaming o = true -> (List.length ps < n)%nat ->
  FeedPackets (list_source _) (pf_sink mjd o) n ps s = Some (let* s1 := pf_handle_all mjd o s (concat ps) in Ok (0, s1)).
Proof. intros mjd o ps n s St L. unfold FeedPackets. cbn [pf_sink sk_start]. fold (pf_sink mjd o). rewrite pf_loop by auto. reflexivity. Qed.

(** * The service ids given *)
Lemma has_In : forall l x, existsb (Z.eqb x) l = true <-> In x l.
Proof.
  intros l x. rewrite existsb_exists. split; [intros (y & H & E); apply Z.eqb_eq in E; congruence|intros H; exists x; split; [auto|apply Z.eqb_refl]].
Qed.
Lemma picked_iff : forall ns xs v, picked ns xs v = true <-> (ns = [] \/ In v ns) /\ ~ In v xs.
Proof.
  intros ns xs v. unfold picked. rewrite andb_true_iff, negb_true_iff. split; intros [A B]; split.
  - destruct ns; [auto|]. right. apply has_In. exact A.
  - intros H. apply has_In in H. congruence.
  - destruct ns; [auto|]. destruct A as [A|A]; [discriminate|]. apply has_In. exact A.
  - destruct (existsb (Z.eqb v) xs) eqn:E; [|auto]. apply has_In in E. contradiction.
Qed.

(** * scan-services *)
Import ServiceScanner.
Lemma scan_filter : forall o o' (P : Z -> bool),
  (forall v, ((ss_IsEmpty (sco_sids o) = true \/ ss_Contain (sco_sids o) v = true) /\ (ss_Contain (sco_xsids o) v = false))) ->
  (forall v, ((sco_sids o' = [] \/ In v (sco_sids o')) /\ ~ In v (sco_xsids o')) <-> P v = true) ->
  forall n t l, sc_collect o' n t l = filter (fun d => P (sd_sid d)) (sc_collect o n t l).
Proof.
  intros o o' P A B n t. induction l as [|[v pid] l IH]; [reflexivity|]. cbn [sc_collect]. rewrite IH. destruct (A v) as [A1 A2].
  replace (negb (ss_IsEmpty (sco_sids o)) && negb (ss_Contain (sco_sids o) v)) with false by (destruct A1 as [-> | ->]; cbn; rewrite ?andb_false_r; reflexivity).
  rewrite A2, andb_false_r. specialize (B v).
  destruct (P v) eqn:Pv.
  - destruct (proj2 B eq_refl) as [B1 B2].
    replace (negb (ss_IsEmpty (sco_sids o')) && negb (ss_Contain (sco_sids o') v)) with false.
    2:{ symmetry. destruct B1 as [->|B1]; [reflexivity|]. unfold ss_Contain. apply zmem_In in B1. rewrite B1. apply andb_false_r. }
    replace (ss_Contain (sco_xsids o') v) with false by (symmetry; apply zmem_false; auto). rewrite andb_false_r.
    destruct (mfind v (Ts.sdt_services t)) as [w|]; [|reflexivity]. destruct (negb (IsAudioVideoService (Ts.sv_type w))); [reflexivity|]. cbn. rewrite Pv. reflexivity.
  - assert (Q : forall X, (if negb (ss_IsEmpty (sco_sids o')) && negb (ss_Contain (sco_sids o') v) then filter (fun d => P (sd_sid d)) (sc_collect o n t l)
       else if negb (ss_IsEmpty (sco_xsids o')) && ss_Contain (sco_xsids o') v then filter (fun d => P (sd_sid d)) (sc_collect o n t l) else X)
       = filter (fun d => P (sd_sid d)) (sc_collect o n t l)).
    { intros X. destruct (negb (ss_IsEmpty (sco_sids o')) && negb (ss_Contain (sco_sids o') v)) eqn:E1; [reflexivity|].
      destruct (negb (ss_IsEmpty (sco_xsids o')) && ss_Contain (sco_xsids o') v) eqn:E2; [reflexivity|]. exfalso.
      assert (false = true) as F by (apply B; split;
        [destruct (sco_sids o') as [|z zs]; [auto|]; right; cbn in E1; apply negb_false_iff in E1; apply zmem_In; exact E1
        |intros I; destruct (sco_xsids o') as [|z zs]; [contradiction|]; cbn in E2; apply zmem_In in I; unfold ss_Contain in E2; rewrite I in E2; discriminate]).
      discriminate. }
    rewrite Q. destruct (mfind v (Ts.sdt_services t)) as [w|]; [|reflexivity]. destruct (negb (IsAudioVideoService (Ts.sv_type w))); [reflexivity|]. cbn. rewrite Pv. reflexivity.
Qed.

Lemma scan_loop : forall o o' n ps s,
  feed_loop (list_source _) (sc_sink o') n ps s = feed_loop (list_source _) (sc_sink o) n ps s.
Proof.
  intros o o'. induction n as [|n IH]; intros ps s; [reflexivity|]. cbn [feed_loop]. destruct ps as [|p ps]; [reflexivity|]. cbn.
  destruct (sc_HandlePacket s p) as [[s1 [|]]|f]; [apply IH|reflexivity|reflexivity].
Qed.
(** Only the list at the end depends on the selection. *)
Lemma scan_run : forall o o' (P : Z -> bool),
  (forall v, ((ss_IsEmpty (sco_sids o) = true \/ ss_Contain (sco_sids o) v = true) /\ (ss_Contain (sco_xsids o) v = false))) ->
  (forall v, ((sco_sids o' = [] \/ In v (sco_sids o')) /\ ~ In v (sco_xsids o')) <-> P v = true) ->
  forall n ps c s, FeedPackets (list_source _) (sc_sink o) n ps sc_init = Some (Ok (c, s)) ->
  exists s', FeedPackets (list_source _) (sc_sink o') n ps sc_init = Some (Ok (c, s')) /\ sc_out s' = map (filter (fun d => P (sd_sid d))) (sc_out s).
Proof.
  intros o o' P A B n ps c s. unfold FeedPackets. cbn [sc_sink sk_start]. fold (sc_sink o) (sc_sink o'). rewrite (scan_loop o o').
  assert (Out : forall n ps s0 s1, feed_loop (list_source _) (sc_sink o) n ps s0 = Some (Ok s1) -> sc_out s1 = sc_out s0).
  { clear. induction n as [|n IH]; intros ps s0 s1 E; [discriminate|]. cbn [feed_loop] in E. destruct ps as [|p ps]; [injection E as <-; reflexivity|]. cbn in E.
    assert (H : forall l s1 s2, Ts.handle_tables sc_handleTable s1 (Ts.p_pid p) l = Ok s2 -> sc_out s2 = sc_out s1).
    { clear. induction l as [|t l IH]; intros s1 s2 E; cbn in E; [injection E as <-; reflexivity|].
      destruct (sc_handleTable s1 (Ts.p_pid p) t) as [s3|f] eqn:D; cbn [bind] in E; [|discriminate]. rewrite (IH _ _ E).
      unfold sc_handleTable in D. destruct (Ts.tb_body t); injection D as <-; try reflexivity.
      - unfold sc_HandlePat. destruct (negb _); [reflexivity|]. destruct t0; [|reflexivity]. destruct (_ =? 0); [reflexivity|]. destruct (_ && _); reflexivity.
      - unfold sc_HandleSdt. destruct t0; [|reflexivity]. destruct (_ =? 0); reflexivity.
      - unfold sc_HandleNit. destruct t0; reflexivity. }
    unfold sc_HandlePacket in E. destruct (Ts.handle_tables sc_handleTable s0 (Ts.p_pid p) (Ts.demux_feed (sc_pids s0) 0 p)) as [s2|f] eqn:D; cbn [bind] in E; [|discriminate]. apply H in D.
    destruct (negb (sc_completed s2)); [rewrite (IH _ _ _ E); exact D|]. injection E as <-. exact D. }
  destruct (feed_loop (list_source _) (sc_sink o) n ps sc_init) as [[s1|f]|] eqn:L; cbn [bind]; [|discriminate|discriminate].
  apply Out in L. cbn in L. cbn [sc_sink sk_end sk_exit]. unfold sc_End.
  destruct (sc_completed s1) eqn:C; cbn [negb].
  - unfold sc_completed in C. destruct (sc_pat s1) as [t|] eqn:Ep; [|discriminate]. destruct (sc_sdt s1) as [d|] eqn:Es; [|discriminate].
    cbn [bind]. unfold sc_GetExitCode, sc_completed. cbn. destruct (sc_nit s1); [|discriminate].
    cbn [bind]. intros [= <- <-]. eexists. split; [reflexivity|]. cbn. rewrite L. cbn. rewrite (scan_filter o o' P A B). reflexivity.
  - cbn [bind]. unfold sc_GetExitCode. rewrite C. cbn [bind]. intros [= <- <-]. exists s1. split; [reflexivity|]. rewrite L. reflexivity.
Qed.
