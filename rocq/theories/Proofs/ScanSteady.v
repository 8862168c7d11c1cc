(** Steady broadcasts (C79). *)
From Coq Require Import ZArith Lia List Bool Sorted.
From Verif Require Import Base.Outcome Base.Util Model.Sink Model.Ts Model.ServiceScanner Proofs.FeedProofs Proofs.ScanProofs Spec.ScanSpec.
Import ListNotations.
Open Scope Z_scope.

Definition steps (s : sc_state) (pid : Z) (tabs : list table) : sc_state := fold_left (fun s tb => sc_step s (pid, tb_body tb)) tabs s.
Definition fed (s : sc_state) (p : packet) : sc_state := if zmem (p_pid p) (sc_pids s) then steps s (p_pid p) (p_tabs p 0) else s.

Lemma steps_handle : forall tabs s pid, handle_tables sc_handleTable s pid tabs = Ok (steps s pid tabs).
Proof.
  induction tabs as [|tb tabs IH]; intros s pid; [reflexivity|]. cbn [handle_tables].
  replace (sc_handleTable s pid tb) with (Ok (sc_step s (pid, tb_body tb))) by (unfold sc_handleTable, sc_step; cbn; destruct (tb_body tb); reflexivity).
  cbn [bind]. rewrite IH. reflexivity.
Qed.

Lemma fed_packet : forall s p, sc_HandlePacket s p = Ok (fed s p, negb (sc_completed (fed s p))).
Proof.
  intros s p. unfold sc_HandlePacket, demux_feed, fed. destruct (zmem (p_pid p) (sc_pids s)).
  - rewrite steps_handle. reflexivity.
  - reflexivity.
Qed.

Lemma heard_fed : forall h, exists ts, heard h ts /\ sc_inv ts (fold_left fed h sc_init).
Proof.
  induction h as [|p h [ts [H I]]] using rev_ind.
  - exists []. split; [constructor|apply sc_inv_init].
  - destruct (sc_packet h ts _ p H I) as [ts' [s' [E [H' I']]]]. rewrite fed_packet in E. injection E as <- _.
    exists ts'. split; [exact H'|]. rewrite fold_left_app. exact I'.
Qed.

Section Steady.
Variables (t : pat) (d : sdt) (n : nit).
Hypothesis Ht : pat_tsid t <> 0.
Hypothesis Hd : sdt_tsid d <> 0.
Hypothesis Hn : forall pid, nit_on t pid -> pid <> 0.

Definition fixed (s : sc_state) : Prop :=
  (sc_pat s = None \/ sc_pat s = Some t) /\
  (sc_sdt s = None \/ sc_sdt s = Some d) /\
  ((sc_pat s = None /\ exists q, moves_nit t q) \/ sc_nit s = None \/ sc_nit s = Some n) /\
  (forall pid, In pid (sc_pids s) -> pid = 0 \/ pid = 0x11 \/ nit_on t pid \/ (pid = 0x10 /\ sc_pat s = None)) /\
  In 0 (sc_pids s) /\ In 0x11 (sc_pids s) /\
  ((sc_pat s = None /\ exists q, moves_nit t q) \/ forall pid, nit_on t pid -> In pid (sc_pids s)).

Lemma fixed_init : fixed sc_init.
Proof.
  unfold fixed, sc_init, PID_PAT, PID_NIT, PID_SDT. cbn [sc_pids sc_pat sc_sdt sc_nit In].
  repeat split; auto 6.
  - intros pid [<-|[<-|[<-|[]]]]; auto 6.
  - destruct (moves_nit_dec t) as [M|M]; [left; auto|]. right. intros pid [[q' N]|[-> _]]; [exfalso; eapply M; split; eauto|auto].
Qed.

(** The constraint on one table. *)
Definition same (pid : Z) (b : body) : Prop :=
  (forall u, pid = 0 -> b = TPat (Some u) -> pat_tsid u <> 0 -> u = t) /\
  (forall u, pid = 0 \/ pid = 0x11 \/ nit_on t pid \/ pid = 0x10 -> b = TSdt (Some u) -> sdt_tsid u <> 0 -> u = d) /\
  (forall u, pid = 0 \/ pid = 0x11 \/ nit_on t pid -> b = TNit (Some u) -> u = n).
Definition here (s : sc_state) (pid : Z) : Prop := pid = 0 \/ pid = 0x11 \/ nit_on t pid \/ (pid = 0x10 /\ sc_pat s = None).

Lemma nit_on_moved : forall q pid, moves_nit t q -> nit_on t pid -> pid = q.
Proof.
  intros q pid M [N|[_ N]]; [|exfalso; exact (N q M)].
  apply pat_nit_pid_spec in M as [_ <-]. apply pat_nit_pid_spec in N as [_ <-]. reflexivity.
Qed.

Lemma fixed_step : forall s pid b, fixed s -> same pid b -> here s pid -> fixed (sc_step s (pid, b)) /\ here (sc_step s (pid, b)) pid.
Proof.
  intros s pid b F [Sp [Ss Sn]] W. pose proof F as [F1 [F2 [F3 [F4 [F5 [F6 F7]]]]]].
  unfold sc_step. cbn [fst snd]. destruct b as [u|u|u|u|u|u|u|]; try (split; assumption).
  - unfold sc_HandlePat. destruct (Z.eqb_spec pid PID_PAT) as [E|E]; cbn [negb]; [|split; assumption].
    destruct u as [u|]; [|split; assumption]. destruct (Z.eqb_spec (pat_tsid u) 0) as [Z0|Z0]; [split; assumption|].
    pose proof (Sp u E eq_refl Z0) as ->. split; [|left; exact E].
    destruct (negb (pat_nit_pid t =? PID_NULL) && negb (pat_nit_pid t =? PID_NIT)) eqn:M.
    + assert (M' : moves_nit t (pat_nit_pid t)) by (apply pat_nit_pid_spec; auto).
      assert (On : nit_on t (pat_nit_pid t)) by (left; exact M').
      unfold fixed. cbn [sc_pids sc_pat sc_sdt sc_nit]. split; [auto|]. split; [exact F2|]. split; [auto|].
      split; [|split; [|split]].
      * intros q I. apply In_zadd in I as [->|I]; [auto|]. apply In_zrem in I as [N I]. destruct (F4 q I) as [?|[?|[?|[? _]]]]; auto. contradiction.
      * apply In_zadd. right. apply In_zrem. split; [unfold PID_NIT; lia|exact F5].
      * apply In_zadd. right. apply In_zrem. split; [unfold PID_NIT; lia|exact F6].
      * right. intros q Q. apply In_zadd. left. exact (nit_on_moved _ _ M' Q).
    + assert (M' : forall q, ~ moves_nit t q) by (intros q Q; apply pat_nit_pid_spec in Q as [Q _]; congruence).
      unfold fixed. cbn [sc_pids sc_pat sc_sdt sc_nit]. split; [auto|]. split; [exact F2|].
      split; [destruct F3 as [[_ [q Q]]|F3]; [exfalso; exact (M' q Q)|right; exact F3]|].
      split; [|split; [exact F5|split; [exact F6|]]].
      * intros q I. destruct (F4 q I) as [?|[?|[?|[? _]]]]; auto. right; right; left. right. auto.
      * right. destruct F7 as [[_ [q Q]]|F7]; [exfalso; exact (M' q Q)|exact F7].
  - unfold sc_HandleSdt. destruct u as [u|]; [|split; assumption]. destruct (Z.eqb_spec (sdt_tsid u) 0) as [Z0|Z0]; [split; assumption|].
    assert (u = d) as -> by (apply Ss; [unfold here in W; tauto|reflexivity|exact Z0]).
    split; [|exact W]. unfold fixed. cbn [sc_pids sc_pat sc_sdt sc_nit]. auto 8.
  - unfold sc_HandleNit. destruct u as [u|]; [|split; assumption]. split; [|exact W].
    unfold fixed. cbn [sc_pids sc_pat sc_sdt sc_nit]. split; [exact F1|]. split; [exact F2|]. split; [|auto].
    destruct W as [W|[W|[W|[W1 W2]]]]; try (right; right; f_equal; apply Sn; [auto; fail|reflexivity]).
    destruct (moves_nit_dec t) as [M|M]; [left; auto|]. right; right. f_equal. apply Sn; [right; right; unfold nit_on; right; auto|reflexivity].
Qed.

Lemma fixed_steps : forall tabs s pid, fixed s -> (forall tb, In tb tabs -> same pid (tb_body tb)) -> here s pid -> fixed (steps s pid tabs).
Proof.
  induction tabs as [|tb tabs IH]; intros s pid F S W; [exact F|]. cbn [steps fold_left].
  destruct (fixed_step s pid (tb_body tb) F (S tb (or_introl eq_refl)) W) as [F' W']. apply IH; [exact F'| |exact W']. intros x I. apply S. right. exact I.
Qed.

Lemma fixed_fed : forall s p, fixed s -> (forall tb, In tb (p_tabs p 0) -> same (p_pid p) (tb_body tb)) -> fixed (fed s p).
Proof.
  intros s p F S. unfold fed. destruct (zmem (p_pid p) (sc_pids s)) eqn:E; [|exact F]. apply zmem_In in E.
  apply fixed_steps; [exact F|exact S|]. destruct F as [_ [_ [_ [F4 _]]]]. exact (F4 _ E).
Qed.

Lemma fixed_run : forall ps s, fixed s -> (forall p tb, In p ps -> In tb (p_tabs p 0) -> same (p_pid p) (tb_body tb)) -> fixed (fold_left fed ps s).
Proof.
  induction ps as [|p ps IH]; intros s F S; [exact F|]. cbn [fold_left]. apply IH.
  - apply fixed_fed; [exact F|]. intros tb I. exact (S p tb (or_introl eq_refl) I).
  - intros q tb I. apply S. right. exact I.
Qed.

(** Once there, the PAT and the SDT stay. *)
Lemma stays_step : forall s x, (sc_pat s <> None -> sc_pat (sc_step s x) <> None) /\ (sc_sdt s <> None -> sc_sdt (sc_step s x) <> None) /\
  (sc_nit s <> None -> fst x <> 0 -> sc_nit (sc_step s x) <> None).
Proof.
  intros s [pid b]. unfold sc_step. cbn [fst snd]. destruct b as [u|u|u|u|u|u|u|]; auto.
  - unfold sc_HandlePat. destruct (Z.eqb_spec pid PID_PAT) as [E|E]; cbn [negb]; [|auto]. destruct u as [u|]; [|auto].
    destruct (pat_tsid u =? 0); [auto|]. destruct (negb (pat_nit_pid u =? PID_NULL) && negb (pat_nit_pid u =? PID_NIT)); cbn; repeat split; auto; try discriminate.
  - unfold sc_HandleSdt. destruct u as [u|]; [|auto]. destruct (sdt_tsid u =? 0); cbn; repeat split; auto; discriminate.
  - unfold sc_HandleNit. destruct u as [u|]; [|auto]. cbn; repeat split; auto; discriminate.
Qed.
Lemma stays_steps : forall tabs s pid, (sc_pat s <> None -> sc_pat (steps s pid tabs) <> None) /\ (sc_sdt s <> None -> sc_sdt (steps s pid tabs) <> None) /\
  (sc_nit s <> None -> pid <> 0 -> sc_nit (steps s pid tabs) <> None).
Proof.
  induction tabs as [|tb tabs IH]; intros s pid; [auto|]. cbn [steps fold_left]. destruct (stays_step s (pid, tb_body tb)) as [A [B C]].
  destruct (IH (sc_step s (pid, tb_body tb)) pid) as [A' [B' C']]. auto.
Qed.
Lemma stays_run : forall ps s, (sc_pat s <> None -> sc_pat (fold_left fed ps s) <> None) /\ (sc_sdt s <> None -> sc_sdt (fold_left fed ps s) <> None).
Proof.
  induction ps as [|p ps IH]; intros s; [auto|]. cbn [fold_left]. destruct (IH (fed s p)) as [A B]. unfold fed in *. destruct (zmem (p_pid p) (sc_pids s)); [|auto].
  destruct (stays_steps (p_tabs p 0) s (p_pid p)) as [A' [B' _]]. auto.
Qed.

(** A packet that carries a table the scanner waits for. *)
Lemma carries_split : forall p b, carries p b -> exists l tb r, p_tabs p 0 = l ++ tb :: r /\ tb_body tb = b.
Proof. intros p b [tb [I E]]. apply in_split in I as [l [r I]]. exists l, tb, r. auto. Qed.
Lemma steps_app : forall l r s pid, steps s pid (l ++ r) = steps (steps s pid l) pid r.
Proof. intros. unfold steps. apply fold_left_app. Qed.

Lemma gets_pat : forall s p, fixed s -> p_pid p = 0 -> carries p (TPat (Some t)) -> sc_pat (fed s p) <> None.
Proof.
  intros s p F P C. unfold fed. destruct F as [_ [_ [_ [_ [F5 _]]]]]. rewrite P. destruct (zmem 0 (sc_pids s)) eqn:E; [|apply zmem_false in E; contradiction].
  destruct (carries_split p _ C) as [l [tb [r [-> B]]]]. rewrite steps_app. cbn [steps fold_left]. apply (proj1 (stays_steps r _ 0)).
  rewrite B. unfold sc_step, sc_HandlePat, PID_PAT. cbn [fst snd]. rewrite (proj2 (Z.eqb_neq _ _) Ht). cbn [Z.eqb negb].
  destruct (negb (pat_nit_pid t =? PID_NULL) && negb (pat_nit_pid t =? PID_NIT)); discriminate.
Qed.
Lemma gets_sdt : forall s p, fixed s -> p_pid p = 0x11 -> carries p (TSdt (Some d)) -> sc_sdt (fed s p) <> None.
Proof.
  intros s p F P C. unfold fed. destruct F as [_ [_ [_ [_ [_ [F6 _]]]]]]. rewrite P. destruct (zmem 17 (sc_pids s)) eqn:E; [|apply zmem_false in E; contradiction].
  destruct (carries_split p _ C) as [l [tb [r [-> B]]]]. rewrite steps_app. cbn [steps fold_left]. apply (proj1 (proj2 (stays_steps r _ 17))).
  rewrite B. unfold sc_step, sc_HandleSdt. cbn [fst snd]. rewrite (proj2 (Z.eqb_neq _ _) Hd). discriminate.
Qed.
Lemma gets_nit : forall s p, fixed s -> sc_pat s <> None -> nit_on t (p_pid p) -> carries p (TNit (Some n)) -> sc_nit (fed s p) <> None.
Proof.
  intros s p F N P C. unfold fed. destruct F as [_ [_ [_ [_ [_ [_ F7]]]]]]. destruct (zmem (p_pid p) (sc_pids s)) eqn:E.
  2:{ apply zmem_false in E. destruct F7 as [[F7 _]|F7]; [contradiction|]. exfalso. apply E, F7, P. }
  destruct (carries_split p _ C) as [l [tb [r [-> B]]]]. rewrite steps_app. cbn [steps fold_left]. apply (proj2 (proj2 (stays_steps r _ (p_pid p)))); [|exact (Hn _ P)].
  rewrite B. discriminate.
Qed.

End Steady.

(** Where all three tables are broadcast, some prefix is ready; and whenever a
    prefix is ready, it is with these tables. *)
Lemma steady_ready : forall t d n ps, steady_tables t d n ps -> broadcast t d n ps -> exists h rest u v w, ps = h ++ rest /\ ready h u v w.
Proof.
  intros t d n ps [Ht [Hd [Hn S]]] [a [p [b [q [c [r [e [E [P1 [P2 [Q1 [Q2 [R1 R2]]]]]]]]]]]]].
  assert (Fx : forall h rest, ps = h ++ rest -> fixed t d n (fold_left fed h sc_init)).
  { intros h rest Eh. apply fixed_run; [apply fixed_init|]. intros x tb I. apply S. rewrite Eh. apply in_or_app. auto. }
  exists (a ++ p :: b ++ q :: c ++ [r]), e.
  assert (Eh : ps = (a ++ p :: b ++ q :: c ++ [r]) ++ e) by (rewrite E; repeat (rewrite <- ?app_assoc, <- ?app_comm_cons; cbn [app]); reflexivity).
  destruct (heard_fed (a ++ p :: b ++ q :: c ++ [r])) as [ts [Hh I]].
  assert (C : sc_completed (fold_left fed (a ++ p :: b ++ q :: c ++ [r]) sc_init) = true).
  { set (s1 := fold_left fed a sc_init). set (s2 := fold_left fed b (fed s1 p)). set (s3 := fold_left fed c (fed s2 q)).
    replace (fold_left fed (a ++ p :: b ++ q :: c ++ [r]) sc_init) with (fed s3 r)
      by (repeat (rewrite fold_left_app; cbn [fold_left]); reflexivity).
    assert (F1 : fixed t d n s1) by (apply (Fx a (p :: b ++ q :: c ++ r :: e)); exact E).
    assert (F2 : fixed t d n s2).
    { replace s2 with (fold_left fed (a ++ p :: b) sc_init) by (rewrite fold_left_app; reflexivity). apply (Fx (a ++ p :: b) (q :: c ++ r :: e)). rewrite E, <- app_assoc. reflexivity. }
    assert (F3 : fixed t d n s3).
    { replace s3 with (fold_left fed (a ++ p :: b ++ q :: c) sc_init) by (repeat (rewrite fold_left_app; cbn [fold_left]); reflexivity).
      apply (Fx _ (r :: e)). rewrite E. repeat (rewrite <- ?app_assoc, <- ?app_comm_cons; cbn [app]). reflexivity. }
    pose proof (gets_pat t d n Ht s1 p F1 P1 P2) as G1.
    pose proof (proj1 (stays_run b (fed s1 p)) G1) as G2. fold s2 in G2.
    pose proof (gets_sdt t d n Hd s2 q F2 Q1 Q2) as G3.
    pose proof (proj2 (stays_run c (fed s2 q)) G3) as G4. fold s3 in G4.
    assert (G5 : sc_pat s3 <> None).
    { subst s3. apply (proj1 (stays_run c (fed s2 q))). exact (proj1 (stays_run [q] s2) G2). }
    pose proof (gets_nit t d n Hn s3 r F3 G5 R1 R2) as G6.
    pose proof (proj1 (stays_run [r] s3) G5) as G7. pose proof (proj2 (stays_run [r] s3) G4) as G8. cbn [fold_left] in G7, G8.
    unfold sc_completed. destruct (sc_pat (fed s3 r)), (sc_sdt (fed s3 r)), (sc_nit (fed s3 r)); congruence. }
  apply (completed_ready _ _ _ Hh I) in C as [u [v [w C]]]. exists u, v, w. auto.
Qed.

Lemma ready_steady : forall t d n ps h rest u v w, steady_tables t d n ps -> ps = h ++ rest -> ready h u v w -> u = t /\ v = d /\ w = n.
Proof.
  intros t d n ps h rest u v w [Ht [Hd [Hn S]]] E [ts [Hh [Lp [Ls Ln]]]]. destruct (heard_fed h) as [ts' [Hh' [_ [I2 [I3 [I4 _]]]]]].
  rewrite (heard_det h ts' ts Hh' Hh) in *. apply I2 in Lp. apply I3 in Ls. apply I4 in Ln.
  assert (F : fixed t d n (fold_left fed h sc_init)).
  { apply fixed_run; [apply fixed_init|]. intros x tb I. apply S. rewrite E. apply in_or_app. auto. }
  destruct F as [F1 [F2 [F3 _]]]. rewrite Lp in *. rewrite Ls in *. rewrite Ln in *.
  destruct F1 as [F1|F1]; [discriminate|]. destruct F2 as [F2|F2]; [discriminate|]. destruct F3 as [[F3 _]|[F3|F3]]; [discriminate|discriminate|].
  split; [congruence|]. split; congruence.
Qed.

(** The list of services is determined by the tables. *)
Lemma sorted_same : forall (a b : list service_doc), StronglySorted (fun a b => sd_sid a < sd_sid b) a -> StronglySorted (fun a b => sd_sid a < sd_sid b) b ->
  (forall x, In x a <-> In x b) -> a = b.
Proof.
  induction a as [|x a IH]; intros [|y b] Sa Sb H; [reflexivity| | |].
  - destruct (proj2 (H y) (or_introl eq_refl)).
  - destruct (proj1 (H x) (or_introl eq_refl)).
  - inversion Sa as [|? ? Sa1 Sa2]; subst. inversion Sb as [|? ? Sb1 Sb2]; subst. rewrite Forall_forall in Sa2, Sb2.
    assert (x = y).
    { destruct (proj1 (H x) (or_introl eq_refl)) as [E|I]; [congruence|]. destruct (proj2 (H y) (or_introl eq_refl)) as [E|J]; [congruence|].
      pose proof (Sb2 x I). pose proof (Sa2 y J). lia. }
    subst y. f_equal. apply IH; [exact Sa1|exact Sb1|]. intros z. split; intros I.
    + destruct (proj1 (H z) (or_intror I)) as [E|J]; [subst z; pose proof (Sa2 x I); lia|exact J].
    + destruct (proj2 (H z) (or_intror I)) as [E|J]; [subst z; pose proof (Sb2 x I); lia|exact J].
Qed.
Lemma service_list_det : forall o t d n a b, service_list o t d n a -> service_list o t d n b -> a = b.
Proof. intros o t d n a b [A1 A2] [B1 B2]. apply sorted_same; [exact A1|exact B1|]. intros x. rewrite A2, B2. reflexivity. Qed.

Lemma scan_steady : forall o t d n ps fuel, steady_tables t d n ps -> broadcast t d n ps -> (List.length ps < fuel)%nat ->
  exists s doc, FeedPackets (list_source packet) (sc_sink o) fuel ps sc_init = Some (Ok (0, s)) /\ sc_out s = [doc] /\ service_list o t d n doc.
Proof.
  intros o t d n ps fuel S B L. destruct (feed_ok _ (sc_sink o) ps fuel sc_init (scan_total o) L) as [code [s E]].
  destruct (scan_run o ps fuel code s E) as [[-> [_ N]]|[h [p [rest [u [v [w [doc [-> [O [Ep [R [Sl _]]]]]]]]]]]]].
  - destruct (steady_ready t d n ps S B) as [h [rest [u [v [w [Eh R]]]]]]. exfalso. apply (N h rest Eh). eauto.
  - assert (Ep' : ps = (h ++ [p]) ++ rest) by (rewrite <- app_assoc; exact Ep).
    destruct (ready_steady t d n ps _ rest u v w S Ep' R) as [-> [-> ->]]. exists s, doc. auto.
Qed.
