(** filter-program on a whole transport stream. *)
From Coq Require Import ZArith Lia List Bool.
From Verif Require Import Base.Outcome Base.Util Model.Sink Model.Ts Model.ProgramFilter
  Spec.PcrSpec Spec.FilterSpec Spec.TuneSpec Spec.TransSpec Spec.ProgramSpec Spec.SeekSpec Spec.PipeSpec Spec.OnAirSpec Spec.BroadcastSpec
  Proofs.FilterProofs Proofs.FilterMain Proofs.PipeProgram Proofs.OnAirProofs.
Import ListNotations.
Open Scope Z_scope.

Section Broadcast.
Variable o : program_filter_option.
Variable t : pat.
Variable mpid : Z.
Variable m : pmt.
Variable ca : list Z.
Notation sid := (pfo_sid o).
Notation filt := (filtered sid None 0 anything).
Notation hears := (heard sid None 0).
Notation own := (own_pids m ca).
Notation take := (taken o t mpid m ca).
Hypothesis Tsid : pat_tsid t <> 0.
Hypothesis Lists : pmt_pid_of sid t = Some mpid.
Hypothesis Mpid : ~ In mpid [0; 1; 0x12; 0x14; 0x1FFF].
Hypothesis Own0 : ~ In 0 own.
Hypothesis OwnNull : ~ In 0x1FFF own.

Lemma bodies : forall p b, In b (map tb_body (p_tabs p 0)) <-> exists tb, In tb (p_tabs p 0) /\ tb_body tb = b.
Proof. intros p b. rewrite in_map_iff. split; intros (x & A & B); eauto. Qed.

(** The tables heard. *)
Definition fine (x : Z * body) : Prop :=
  match snd x with
  | TPat (Some t') => t' = t
  | TPmt (Some m') => pmt_sid m' = sid -> m' = m
  | TCat (Some c) => cat_ca_pids c = ca
  | TTot (Some _) => False
  | _ => True
  end.
Definition J (h : history) : Prop := forall x, In x h -> fine x.

Lemma fine_listing : forall x y, fine x -> listing sid x = Some y -> y = (t, mpid).
Proof.
  intros [pid b] y F L. unfold listing, usable_pat in L. destruct b as [[t'|]| | | | | | |]; try discriminate. cbn in F. subst t'.
  destruct ((pid =? 0) && negb (pat_tsid t =? 0)); [|discriminate]. rewrite Lists in L. congruence.
Qed.
Lemma fine_missing : forall x, fine x -> missing sid x = false.
Proof.
  intros [pid b] F. unfold missing, usable_pat. destruct b as [[t'|]| | | | | | |]; try reflexivity. cbn in F. subst t'.
  destruct ((pid =? 0) && negb (pat_tsid t =? 0)); [|reflexivity]. rewrite Lists. reflexivity.
Qed.
Lemma fine_tot : forall x, fine x -> a_tot x = None.
Proof. intros [pid b] F. unfold a_tot. cbn in *. destruct b as [| | | |[v|]| | |]; try reflexivity. destruct F. Qed.
Lemma fine_pmt : forall x m', fine x -> service_pmt sid x = Some m' -> m' = m.
Proof.
  intros [pid b] m' F L. unfold service_pmt in L. cbn in *. destruct b as [| |[v|]| | | | |]; try discriminate.
  destruct (Z.eqb_spec (pmt_sid v) sid); [|discriminate]. injection L as <-. auto.
Qed.
Lemma fine_cat : forall x c, fine x -> a_cat x = Some c -> cat_ca_pids c = ca.
Proof. intros [pid b] c F L. unfold a_cat in L. cbn in *. destruct b as [|[v|]| | | | | |]; try discriminate. congruence. Qed.

Lemma J_listens : forall h pid, J h -> listens sid None h pid -> In pid [0; 1; mpid].
Proof.
  intros h pid Jh [(t' & L)|[([->|[->|(_ & N)]] & _)|(-> & x & t' & I & L)]]; try (cbn; tauto).
  - destruct (latest_some_in _ _ _ _ _ L) as (x & I & E). apply fine_listing in E; [|auto]. injection E as _ ->. cbn; auto.
  - apply fine_listing in L; [|auto]. injection L as _ E. exfalso. apply Mpid. rewrite <- E. cbn. auto 10.
Qed.
Lemma J_hears01 : forall h pid, J h -> pid = 0 \/ pid = 1 -> listens sid None h pid.
Proof.
  intros h pid Jh P. right; left. split; [tauto|]. intros (x & t' & I & L). apply fine_listing in L; [|auto]. injection L as _ E.
  apply Mpid. cbn. lia.
Qed.
Lemma J_kept : forall h p h', J h -> hears h p h' -> regular o t mpid m ca p -> J h'.
Proof.
  intros h p h' Jh [(L & ->)|(_ & ->)] R; [|exact Jh]. intros x I. apply in_app_or in I as [I|I]; [|auto].
  apply in_rev in I. apply in_map_iff in I as (tb & <- & I).
  exact (R (J_listens _ _ Jh L) (tb_body tb) (in_map _ _ _ I)).
Qed.
Lemma hears_incl : forall h p h', hears h p h' -> incl h h'.
Proof. intros h p h' H x I. exact (heard_grows _ _ _ _ _ _ H x I). Qed.
Lemma hears_in : forall h p h' b, listens sid None h (p_pid p) -> hears h p h' -> In b (map tb_body (p_tabs p 0)) -> In (p_pid p, b) h'.
Proof.
  intros h p h' b L [(_ & ->)|(N & _)] I; [|tauto]. apply in_or_app. left. apply -> in_rev. apply bodies in I as (tb & I & <-).
  apply in_map_iff. eauto.
Qed.

Definition heard_pat (h : history) : Prop := In (0, TPat (Some t)) h.
Definition heard_pmt (h : history) : Prop := exists pid, In (pid, TPmt (Some m)) h.
Definition heard_cat (h : history) : Prop := ca = [] \/ exists pid c, In (pid, TCat (Some c)) h.

Lemma lists_t : listing sid (0, TPat (Some t)) = Some (t, mpid).
Proof. unfold listing, usable_pat. cbn. destruct (Z.eqb_spec (pat_tsid t) 0); [contradiction|]. cbn. rewrite Lists. reflexivity. Qed.
Lemma pat_latest : forall h, J h -> heard_pat h -> latest (listing sid) h = Some (t, mpid).
Proof.
  intros h Jh H. destruct (latest (listing sid) h) as [y|] eqn:L.
  - destruct (latest_some_in _ _ _ _ _ L) as (x & I & E). f_equal. eapply fine_listing; [|exact E]. auto.
  - rewrite latest_none in L. pose proof (L _ H) as X. rewrite lists_t in X. discriminate.
Qed.
Lemma latest_pat_heard : forall h y, J h -> latest (listing sid) h = Some y -> y = (t, mpid) /\ heard_pat h.
Proof.
  intros h y Jh L. destruct (latest_some_in _ _ _ _ _ L) as (x & I & E). pose proof (fine_listing _ _ (Jh x I) E). split; [assumption|].
  destruct x as [pid b]. unfold listing, usable_pat in E. destruct b as [[t'|]| | | | | | |]; try discriminate.
  destruct (Z.eqb_spec pid 0); [|discriminate]. specialize (Jh _ I). cbn in Jh. subst. exact I.
Qed.

Lemma wanted_passes : forall h pid, J h -> wanted sid h pid -> passes mpid m ca pid = true /\ (pid = 0 -> heard_pat h) /\ pid <> 0x1FFF.
Proof.
  intros h pid Jh [(t' & q & L & W)|[(m' & L & W)|(c & L & W)]].
  - destruct (latest_pat_heard _ _ Jh L) as (E & H). injection E as -> ->. split; [|split; [auto|]].
    + apply zmem_In. apply in_or_app. destruct W as [W | ->]; [auto|right; left; reflexivity].
    + intros ->. destruct W as [W|W]; [cbn in W; lia|]. apply Mpid. rewrite <- W. cbn. auto 10.
  - destruct (latest_some_in _ _ _ _ _ L) as (x & I & E). apply fine_pmt in E; [|auto]. subst m'.
    assert (O : In pid own). { unfold own_pids. cbn [In]. rewrite !in_app_iff. destruct W as [W|[W|W]]; auto. }
    split; [apply zmem_In, in_or_app; right; right; exact O|]. split; intros ->; contradiction.
  - destruct (latest_some_in _ _ _ _ _ L) as (x & I & E). apply fine_cat in E; [|auto]. rewrite E in W.
    assert (O : In pid own). { unfold own_pids. cbn [In]. rewrite !in_app_iff. auto. }
    split; [apply zmem_In, in_or_app; right; right; exact O|]. split; intros ->; contradiction.
Qed.
Lemma passes_si : forall h pid, J h -> heard_pat h -> In pid (si_pids ++ [mpid]) -> wanted sid h pid.
Proof.
  intros h pid Jh H I. left. exists t, mpid. split; [apply pat_latest; auto|]. apply in_app_or in I as [I|[->|[]]]; auto.
Qed.
Hypothesis Msid : pmt_sid m = sid.
Lemma passes_all : forall h pid, J h -> heard_pat h -> heard_pmt h -> heard_cat h -> passes mpid m ca pid = true -> wanted sid h pid.
Proof.
  intros h pid Jh H (pp & Hm) Hc P. apply zmem_In in P. apply in_app_or in P as [P|[P|P]].
  - apply passes_si; auto. apply in_or_app. auto.
  - apply passes_si; auto. apply in_or_app. right. left. exact P.
  - unfold own_pids in P. cbn [In] in P. rewrite !in_app_iff in P.
    assert (X : pmt_pcr_pid m = pid \/ In pid (pmt_ca_pids m) \/ In pid (map fst (pmt_entries m)) \/ In pid ca) by tauto. clear P.
    assert (Y : pmt_pcr_pid m = pid \/ In pid (pmt_ca_pids m) \/ In pid (map fst (pmt_entries m)) -> wanted sid h pid).
    { intros Q. right; left. exists m. split; [|destruct Q as [Q|Q]; auto].
      destruct (latest (service_pmt sid) h) as [m'|] eqn:L.
      - destruct (latest_some_in _ _ _ _ _ L) as (x & I & E). f_equal. exact (fine_pmt _ _ (Jh x I) E).
      - rewrite latest_none in L. specialize (L _ Hm). unfold service_pmt in L. cbn in L. rewrite Msid, Z.eqb_refl in L. discriminate. }
    destruct X as [X|[X|[X|X]]]; auto. destruct Hc as [->|(pc & c & Hc)]; [destruct X|]. right; right.
    destruct (latest a_cat h) as [c'|] eqn:L.
    + exists c'. split; [reflexivity|]. destruct (latest_some_in _ _ _ _ _ L) as (x & I & E). rewrite (fine_cat _ _ (Jh x I) E). exact X.
    + rewrite latest_none in L. specialize (L _ Hc). discriminate.
Qed.

(** One packet. *)
Lemma one : forall h d p ps out en hf df, J h -> regular o t mpid m ca p -> filt h d (p :: ps) out en hf df ->
  exists h1 out1, hears h p h1 /\ J h1 /\ filt h1 tt ps out1 en hf df /\
    ((exists q, wanted sid h1 (p_pid p) /\ (p_pid p = 0 -> heard_pat h1) /\ take p = [q] /\ out = q :: out1) \/ (~ wanted sid h1 (p_pid p) /\ out = out1)).
Proof.
  intros h d p ps out en hf df Jh R F.
  assert (X : forall h1 ac, hears h p h1 -> decide sid None h1 p ac -> J h1 /\
     ((exists q, ac = Send q /\ wanted sid h1 (p_pid p) /\ (p_pid p = 0 -> heard_pat h1) /\ take p = [q]) \/ (ac = Skip /\ ~ wanted sid h1 (p_pid p)))).
  { intros h1 ac H D. pose proof (J_kept _ _ _ Jh H R) as J1. split; [exact J1|].
    assert (No : ~ over sid None h1).
    { intros [(x & I & M)|(x & t' & l & _ & _ & E & _)]; [|discriminate]. rewrite (fine_missing x (J1 x I)) in M. discriminate. }
    inversion D as [_ (x & t' & I & E)|_ O|_ _ W|t' q _ _ W P L|_ _ W P L|_ _ W P|_ _ W P N]; subst.
    - rewrite (fine_tot x (J1 x I)) in E. discriminate.
    - contradiction.
    - auto.
    - left. destruct (wanted_passes _ _ J1 W) as (A & B & C). eexists. split; [reflexivity|]. split; [exact W|]. split; [auto|].
      unfold taken. rewrite P, Z.eqb_refl. destruct (latest_pat_heard _ _ J1 L) as (E & _). injection E as -> ->. reflexivity.
    - destruct (wanted_passes _ _ J1 W) as (A & B & C). rewrite (pat_latest _ J1 (B P)) in L. discriminate.
    - destruct (wanted_passes _ _ J1 W) as (A & B & C). contradiction.
    - left. destruct (wanted_passes _ _ J1 W) as (A & B & C). eexists. split; [reflexivity|]. split; [exact W|]. split; [auto|].
      unfold taken. destruct (Z.eqb_spec (p_pid p) 0); [contradiction|]. rewrite A. reflexivity. }
  inversion F as [|? ? ? h1 ? ? ? ? ? H D F1|? ? ? h1 q d1 ? out1 ? ? ? H D S F1|? ? ? h1 q d1 ? H D S|? ? ? h1 q f ? H D S|? ? ? h1 ? H D|? ? ? h1 f ? H D]; subst;
    destruct (X _ _ H D) as (J1 & [(q' & E & A & B & C)|(E & A)]); try discriminate; try (cbn in S; discriminate).
  - destruct d. exists h1, out. auto 10.
  - injection E as <-. destruct d1. exists h1, out1. split; [exact H|]. split; [exact J1|]. split; [exact F1|]. left. eauto.
Qed.

(** Some packets: those on PIDs that are [sure] pass. *)
Inductive thin (sure : Z -> bool) : list (packet * Z) -> list (packet * Z) -> Prop :=
| Thin_nil : thin sure [] []
| Thin_send : forall p q k l l', take p = [q] -> thin sure l l' -> thin sure ((p, k) :: l) ((q, k) :: l')
| Thin_skip : forall x l l', sure (p_pid (fst x)) = false -> thin sure l l' -> thin sure (x :: l) l'.

Lemma some_ : forall sure l h d rest out en hf df, J h -> Forall (regular o t mpid m ca) (map fst l) ->
  (forall h' pid, J h' -> incl h h' -> sure pid = true -> wanted sid h' pid) -> filt h d (map fst l ++ rest) out en hf df ->
  exists l' h1 out1, out = map fst l' ++ out1 /\ thin sure l l' /\ J h1 /\ incl h h1 /\ filt h1 tt rest out1 en hf df /\
    (forall x b, In x l -> In b (map tb_body (p_tabs (fst x) 0)) -> (p_pid (fst x) = 0 \/ p_pid (fst x) = 1) -> In (p_pid (fst x), b) h1) /\
    (heard_pat h -> forall x b, In x l -> In b (map tb_body (p_tabs (fst x) 0)) -> p_pid (fst x) = mpid -> In (mpid, b) h1) /\
    (forall q, In q l' -> p_pid (fst q) = 0 -> heard_pat h1) /\
    (forall pid b, In (pid, b) h1 -> In (pid, b) h \/ exists x, In x l /\ p_pid (fst x) = pid /\ In b (map tb_body (p_tabs (fst x) 0))).
Proof.
  intros sure. induction l as [|[p k] l IH]; intros h d rest out en hf df Jh R Su F.
  - exists [], h, out. destruct d. split; [reflexivity|]. split; [constructor|]. split; [exact Jh|]. split; [intros x I; exact I|]. split; [exact F|].
    split; [intros x b []|]. split; [intros _ x b []|]. split; [intros q []|]. auto.
  - cbn [map fst app] in R, F. apply Forall_cons_iff in R as (Rp & R).
    destruct (one _ _ _ _ _ _ _ _ Jh Rp F) as (h1 & out1 & H & J1 & F1 & C). pose proof (hears_incl _ _ _ H) as I1.
    destruct (IH h1 tt rest out1 en hf df J1 R) as (l' & h2 & out2 & E & Th & J2 & I2 & F2 & A1 & A2 & A3 & A4); [|exact F1|].
    { intros h' pid Jh' I' S. apply Su; [exact Jh'|intros x Ix; apply I', I1, Ix|exact S]. }
    assert (B1 : forall x b, In x ((p, k) :: l) -> In b (map tb_body (p_tabs (fst x) 0)) -> (p_pid (fst x) = 0 \/ p_pid (fst x) = 1) -> In (p_pid (fst x), b) h2).
    { intros x b [<-|Ix] Ib P; [|auto]. cbn [fst] in *. apply I2. eapply hears_in; [|exact H|exact Ib]. apply J_hears01; auto. }
    assert (B2 : heard_pat h -> forall x b, In x ((p, k) :: l) -> In b (map tb_body (p_tabs (fst x) 0)) -> p_pid (fst x) = mpid -> In (mpid, b) h2).
    { intros Hp x b [<-|Ix] Ib P; [|apply (A2 (I1 _ Hp) x); auto]. cbn [fst] in *. apply I2. rewrite <- P. eapply hears_in; [|exact H|exact Ib].
      left. exists t. rewrite P. apply pat_latest; auto. }
    assert (B4 : forall pid b, In (pid, b) h2 -> In (pid, b) h \/ exists x, In x ((p, k) :: l) /\ p_pid (fst x) = pid /\ In b (map tb_body (p_tabs (fst x) 0))).
    { intros pid b I. destruct (A4 pid b I) as [I'|(x & Ix & P & Ib)]; [|right; exists x; split; [right; exact Ix|auto]].
      destruct H as [(_ & ->)|(_ & ->)]; [|auto]. apply in_app_or in I' as [I'|I']; [|auto]. right. exists (p, k). split; [left; reflexivity|].
      apply in_rev in I'. apply in_map_iff in I' as (tb & Q & It). injection Q as <- <-. split; [reflexivity|]. apply in_map. exact It. }
    destruct C as [(q & W & P0 & Tk & ->)|(W & ->)].
    + exists ((q, k) :: l'), h2, out2. split; [cbn [map fst app]; rewrite E; reflexivity|]. split; [constructor; auto|]. split; [exact J2|].
      split; [intros x Ix; apply I2, I1, Ix|]. split; [exact F2|]. split; [exact B1|]. split; [exact B2|]. split; [|exact B4].
      intros x [<-|Ix] P; [|eauto]. apply I2, P0. cbn [fst] in P. unfold taken in Tk. destruct (Z.eqb_spec (p_pid p) 0); [assumption|].
      destruct (passes _ _ _ _); [|discriminate]. injection Tk as <-. contradiction.
    + exists l', h2, out2. split; [exact E|]. split; [constructor; [|exact Th]; cbn [fst]|].
      * destruct (sure (p_pid p)) eqn:S; [|reflexivity]. exfalso. apply W. apply Su; auto.
      * split; [exact J2|]. split; [intros x Ix; apply I2, I1, Ix|]. auto 10.
Qed.

Lemma thin_in : forall sure l l' q, thin sure l l' -> In q l' -> exists p, In p l /\ snd p = snd q /\ take (fst p) = [fst q].
Proof.
  intros sure l l' q T. induction T as [|p q' k l l' Tk T IH|x l l' S T IH]; intros I; [destruct I| |].
  - destruct I as [<-|I]; [exists (p, k); cbn; auto|]. destruct (IH I) as (x & A & B). exists x. cbn; auto.
  - destruct (IH I) as (y & A & B). exists y. cbn; auto.
Qed.
Lemma take_cases : forall p q, take p = [q] -> (p_pid p = 0 /\ q = gen_pat p (only_service sid t mpid)) \/ (p_pid p <> 0 /\ q = p /\ passes mpid m ca (p_pid p) = true).
Proof.
  intros p q T. unfold taken in T. destruct (Z.eqb_spec (p_pid p) 0); [left; split; [assumption|congruence]|].
  destruct (passes mpid m ca (p_pid p)) eqn:E; [|discriminate]. injection T as <-. auto.
Qed.
Lemma thin_sure : forall sure l l' p, thin sure l l' -> In p l -> p_pid (fst p) <> 0 -> sure (p_pid (fst p)) = true -> In p l'.
Proof.
  intros sure l l' p T. induction T as [|x q' k l l' Tk T IH|x l l' S T IH]; intros I N Y; [destruct I| |].
  - destruct I as [<-|I]; [|right; auto]. cbn [fst] in *. destruct (take_cases _ _ Tk) as [(E & _)|(_ & -> & _)]; [contradiction|left; reflexivity].
  - destruct I as [<-|I]; [congruence|auto].
Qed.
Lemma thin_pats : forall sure l l', sure 0 = true -> thin sure l l' -> pat_packets (map fst l') = pats_of o t mpid m ca (map fst l).
Proof.
  intros sure l l' S0 T. unfold pat_packets, pats_of, taken_all. induction T as [|p q k l l' Tk T IH|x l l' S T IH]; [reflexivity| |].
  - cbn [map fst filter]. destruct (take_cases _ _ Tk) as [(E & ->)|(N & -> & _)].
    + rewrite E. cbn [gen_pat p_pid]. change (PID_PAT =? 0) with true. change (0 =? 0) with true. cbn [flat_map]. rewrite Tk, IH. reflexivity.
    + destruct (Z.eqb_spec (p_pid p) 0); [contradiction|]. exact IH.
  - cbn [map filter]. destruct (Z.eqb_spec (p_pid (fst x)) 0) as [E|]; [rewrite E, S0 in S; discriminate|exact IH].
Qed.
Lemma thin_exact : forall l l', thin (passes mpid m ca) l l' -> map fst l' = taken_all o t mpid m ca (map fst l).
Proof.
  intros l l' T. induction T as [|p q k l l' Tk T IH|x l l' S T IH]; [reflexivity| |]; cbn [map fst taken_all flat_map].
  - rewrite Tk. cbn [app]. f_equal. exact IH.
  - unfold taken at 1. destruct (Z.eqb_spec (p_pid (fst x)) 0) as [E|]; [|rewrite S; exact IH]. rewrite E in S. discriminate.
Qed.

(** Packets that are sent. *)
Definition comes_from (p q : packet * Z) : Prop := snd p = snd q /\ take (fst p) = [fst q].
Lemma from_same : forall p q, comes_from p q -> p_pid (fst q) <> 0 -> q = p /\ passes mpid m ca (p_pid (fst p)) = true.
Proof.
  intros [p k] [q k'] (E & T) N. cbn [fst snd] in *. destruct (take_cases _ _ T) as [(_ & ->)|(_ & -> & P)]; [contradiction|]. subst. auto.
Qed.
Lemma from_gen : forall p q, comes_from p q -> p_pid (fst q) = 0 -> p_pid (fst p) = 0 /\ fst q = gen_pat (fst p) (only_service sid t mpid).
Proof.
  intros [p k] [q k'] (E & T) N. cbn [fst snd] in *. destruct (take_cases _ _ T) as [(Z0 & ->)|(Nz & -> & P)]; [auto|contradiction].
Qed.
Lemma from_taken : forall p, p_pid p <> 0 -> passes mpid m ca (p_pid p) = true -> take p = [p].
Proof. intros p N P. unfold taken. destruct (Z.eqb_spec (p_pid p) 0); [contradiction|]. rewrite P. reflexivity. Qed.

Lemma pats_pusi : forall ps, (forall p, In p ps -> p_pid p = 0 -> p_pusi p = true) -> forall acc,
  latest_pat acc ps = match pat_packets ps with [] => acc | _ => skipn (length (pat_packets ps) - 1) (pat_packets ps) end.
Proof.
  unfold pat_packets. induction ps as [|p ps IH]; intros Pu acc; [reflexivity|]. cbn [latest_pat filter].
  rewrite IH by (intros; apply Pu; cbn; auto). destruct (Z.eqb_spec (p_pid p) 0) as [E|]; [|reflexivity].
  rewrite (Pu p) by (cbn; auto). destruct (filter _ ps) as [|q r]; [reflexivity|].
  cbn [length app]. replace (S (length r) - 1)%nat with (length r) by lia. replace (S (S (length r)) - 1)%nat with (S (length r)) by lia. reflexivity.
Qed.
Lemma pats_all : forall ps, Forall (fun p => p_pid p = 0) (pats_of o t mpid m ca ps).
Proof.
  intros ps. apply Forall_forall. intros q I. unfold pats_of, taken_all in I. apply in_flat_map in I as (p & I & T). apply filter_In in I as (_ & E).
  unfold taken in T. rewrite E in T. destruct T as [<-|[]]. reflexivity.
Qed.
Lemma gen_lists : usable_pat (0, TPat (Some (only_service sid t mpid))) = Some (only_service sid t mpid) /\ pmt_pid_of sid (only_service sid t mpid) = Some mpid.
Proof. exact (only_service_lists _ _ _ _ lists_t). Qed.
Lemma gen_listing : listing sid (0, TPat (Some (only_service sid t mpid))) = Some (only_service sid t mpid, mpid).
Proof. destruct gen_lists as (U & P). unfold listing. rewrite U, P. reflexivity. Qed.
Lemma gen_normal : forall e st p, normal o 1 mpid m e st (gen_pat p (only_service sid t mpid)).
Proof.
  intros e st p tb I x. cbn [gen_pat p_tabs p_pid] in I. apply repeat_spec in I. subst tb x. cbn [gen_pat p_pid tb_body].
  change PID_PAT with 0. split; [|split; [discriminate|split; [discriminate|reflexivity]]]. split; [|split; [|discriminate]].
  - destruct gen_lists as (U & P). unfold missing. rewrite U, P. reflexivity.
  - intros t' q E. rewrite gen_listing in E. congruence.
Qed.
End Broadcast.

Lemma on_broadcast : forall npackets o t mpid m ca e K a y b z c x mid post q1 en h out en' h',
  broadcast o t mpid m ca e K a y b z c x mid post ->
  filtered (pfo_sid o) None 0 anything [] tt (map fst (a ++ y :: b ++ z :: c ++ x :: mid ++ post)) q1 en h tt ->
  trans (program_step npackets o 1) anything [] tt q1 out en' h' tt ->
  out = recorded npackets o t mpid m ca y b z c x mid /\ begun h' = true /\
  (en' = Halted \/ (en' = AtEnd /\ en = Exhausted /\ forall v, In v h -> missing (pfo_sid o) v = false)).
Proof.
  intros npackets o t mpid m ca e K a y b z c x mid post q1 en h out en' h' BC F T.
  destruct BC as [(Tsid & Lists) Mp (O0 & ON) Rg Fi ((Py & By) & Ry) (Ms & Pz & Bz) Ca (pp & pe & Ipp & Ipe & Ppp & Bpp & Ppe & Bpe) (Nm1 & Nm2) Pc Ck Ti Ne Or Be (Bg1 & Bg2 & Bg3) Wi Af].
  set (sid := pfo_sid o) in *.
  (* the regular packets *)
  rewrite !map_app in Rg. cbn [map] in Rg. rewrite !map_app in Rg. cbn [map] in Rg. rewrite !map_app in Rg. cbn [map] in Rg. rewrite map_app in Rg.
  apply Forall_app in Rg as (Rga & Rg). apply Forall_cons_iff in Rg as (Rgy & Rg).
  assert (Rgb : Forall (regular o t mpid m ca) (map fst (b ++ z :: c))).
  { rewrite map_app. cbn [map]. apply Forall_app in Rg as (R1 & R2). apply Forall_cons_iff in R2 as (R2 & R3). apply Forall_app in R3 as (R3 & _).
    apply Forall_app. auto. }
  apply Forall_app in Rg as (_ & Rg). apply Forall_cons_iff in Rg as (_ & Rg). apply Forall_app in Rg as (_ & Rg). apply Forall_cons_iff in Rg as (Rgx & Rg).
  apply Forall_app in Rg as (Rgm & Rgp).
  assert (Sh : a ++ y :: b ++ z :: c ++ x :: mid ++ post = a ++ [y] ++ (b ++ z :: c) ++ x :: mid ++ post).
  { rewrite <- app_assoc. cbn [app]. reflexivity. }
  assert (Sm : map fst (a ++ y :: b ++ z :: c ++ x :: mid ++ post) = map fst a ++ fst y :: map fst (b ++ z :: c) ++ fst x :: map fst mid ++ map fst post).
  { rewrite Sh. repeat (progress (rewrite ?map_app; cbn [map app])). reflexivity. }
  rewrite Sm in F.
  assert (J0 : J o t m ca []) by (intros v []).
  (* before the PAT *)
  assert (Su1 : forall hh pid, J o t m ca hh -> incl [] hh -> false = true -> wanted sid hh pid) by discriminate.
  destruct (some_ o t mpid m ca Tsid Lists Mp O0 ON (fun _ => false) a [] tt _ _ _ _ _ J0 Rga Su1 F) as (la & h1 & o1 & E1 & Th1 & J1 & _ & F1 & Ha1 & _ & Ha3 & Ha4).
  assert (Na : forall q, In q la -> p_pid (fst q) <> 0).
  { intros q Iq Q. destruct (Ha4 _ _ (Ha3 q Iq Q)) as [[]|(v & Iv & Pv & Bv)]. apply (Fi v Iv). split; auto. }
  (* the PAT *)
  destruct (one o t mpid m ca Tsid Lists Mp O0 ON _ _ _ _ _ _ _ _ J1 Rgy F1) as (h2 & o2 & H2 & J2 & F2 & C2).
  assert (HP2 : heard_pat t h2).
  { unfold heard_pat. rewrite <- Py. eapply hears_in; [|exact H2|exact By]. rewrite Py. eapply J_hears01; eauto. }
  assert (I12 : incl h1 h2) by (eapply hears_incl; exact H2).
  destruct C2 as [(gy & _ & _ & Ty & ->)|(W & _)]; [|exfalso; apply W; rewrite Py; eapply passes_si; eauto; cbn; auto].
  assert (Gy : gy = gen_pat (fst y) (only_service sid t mpid)).
  { destruct (take_cases _ _ _ _ _ _ _ Ty) as [(_ & G)|(N & _)]; [exact G|congruence]. }
  (* the tables *)
  assert (Su2 : forall hh pid, J o t m ca hh -> incl h2 hh -> zmem pid (si_pids ++ [mpid]) = true -> wanted sid hh pid).
  { intros hh pid Jh Ih S. apply zmem_In in S. eapply passes_si; eauto. apply Ih. exact HP2. }
  destruct (some_ o t mpid m ca Tsid Lists Mp O0 ON (fun pid => zmem pid (si_pids ++ [mpid])) (b ++ z :: c) h2 tt _ _ _ _ _ J2 Rgb Su2 F2)
    as (lb & h3 & o3 & E3 & Th3 & J3 & I23 & F3 & Hb1 & Hb2 & _ & _).
  assert (HP3 : heard_pat t h3) by (apply I23; exact HP2).
  assert (HM3 : heard_pmt m h3).
  { exists mpid. apply (Hb2 HP2 z); [apply in_or_app; right; left; reflexivity|exact Bz|exact Pz]. }
  assert (HC3 : heard_cat ca h3).
  { destruct Ca as [->|(p & c' & Ip & Pp & Bp)]; [left; reflexivity|]. right. exists 1, c'.
    apply in_app_or in Ip as [Ip|[<-|Ip]].
    - apply I23, I12. rewrite <- Pp. apply (Ha1 p); auto.
    - congruence.
    - rewrite <- Pp. apply (Hb1 p); auto. }
  assert (All : forall hh pid, J o t m ca hh -> incl h3 hh -> passes mpid m ca pid = true -> wanted sid hh pid).
  { intros hh pid Jh Ih P. eapply passes_all; eauto; [apply Ih; exact HP3| |].
    - destruct HM3 as (v & V). exists v. apply Ih. exact V.
    - destruct HC3 as [->|(v & w & V)]; [left; reflexivity|right; exists v, w; apply Ih; exact V]. }
  assert (Pclk : forall v, has_pcr o v -> p_pid (fst v) <> 0 /\ passes mpid m ca (p_pid (fst v)) = true).
  { intros v (V & _). rewrite V, <- Pc. split; [intros E; apply O0; rewrite <- E; left; reflexivity|].
    apply zmem_In, in_or_app. right. right. left. reflexivity. }
  (* the first packet *)
  destruct (one o t mpid m ca Tsid Lists Mp O0 ON _ _ _ _ _ _ _ _ J3 Rgx F3) as (h4 & o4 & H4 & J4 & F4 & C4).
  assert (I34 : incl h3 h4) by (eapply hears_incl; exact H4).
  destruct (Pclk x Bg1) as (Nx & Px).
  destruct C4 as [(gx & _ & _ & Tx & ->)|(W & _)]; [|exfalso; apply W; apply All; auto].
  rewrite (from_taken _ _ _ _ _ _ Nx Px) in Tx. injection Tx as <-.
  (* the rest of the program *)
  assert (Su3 : forall hh pid, J o t m ca hh -> incl h4 hh -> passes mpid m ca pid = true -> wanted sid hh pid).
  { intros hh pid Jh Ih S. apply All; auto. intros v V. apply Ih, I34, V. }
  destruct (some_ o t mpid m ca Tsid Lists Mp O0 ON (passes mpid m ca) mid h4 tt _ _ _ _ _ J4 Rgm Su3 F4)
    as (lm & h5 & o5 & E5 & Th5 & J5 & I45 & F5 & _).
  (* what comes after it *)
  assert (Post : exists post', map fst post' = o5 /\ firstn 1 post' = firstn 1 post /\ (post = [] -> post' = [] /\ en = Exhausted /\ h = h5)).
  { destruct post as [|p r].
    - exists []. cbn [map] in F5. inversion F5; subst. auto.
    - cbn [map] in F5. assert (Rp : regular o t mpid m ca (fst p)) by (cbn [firstn map] in Rgp; apply Forall_inv in Rgp; exact Rgp).
      destruct (one o t mpid m ca Tsid Lists Mp O0 ON _ _ _ _ _ _ _ _ J5 Rp F5) as (h6 & o6 & H6 & J6 & F6 & C6).
      destruct (Af p r eq_refl) as (Ap & _). destruct (Pclk p Ap) as (Np & Pp).
      destruct C6 as [(gp & _ & _ & Tp & ->)|(W & _)].
      + rewrite (from_taken _ _ _ _ _ _ Np Pp) in Tp. injection Tp as <-. exists (p :: map (fun q => (q, 0)) o6).
        split; [cbn [map]; rewrite map_map; cbn [fst]; rewrite map_id; reflexivity|]. split; [reflexivity|discriminate].
      + exfalso. apply W. apply All; auto. intros v V. eapply hears_incl; [exact H6|]. apply I45, I34, V. }
  destruct Post as (post' & <- & Fpo & Epo). 
  set (pre := la ++ (gy, snd y) :: lb).
  assert (Eq : q1 = map fst (pre ++ x :: lm ++ post')).
  { unfold pre. rewrite E1, E3, E5. rewrite !map_app. cbn [map fst]. rewrite !map_app. rewrite <- !app_assoc. cbn [app]. reflexivity. }
  clear E1 E3 E5.
  (* where the packets come from *)
  assert (From : forall q, In q pre -> exists p, In p (a ++ y :: b ++ z :: c) /\ comes_from o t mpid m ca p q).
  { intros q Iq. apply in_app_or in Iq as [Iq|[<-|Iq]].
    - destruct (thin_in _ _ _ _ _ _ _ _ _ Th1 Iq) as (p & Ip & C). exists p. split; [apply in_or_app; auto|exact C].
    - exists y. split; [apply in_or_app; right; left; reflexivity|]. split; [reflexivity|exact Ty].
    - destruct (thin_in _ _ _ _ _ _ _ _ _ Th3 Iq) as (p & Ip & C). exists p. split; [apply in_or_app; right; right; exact Ip|exact C]. }
  assert (FromM : forall q, In q lm -> exists p, In p mid /\ comes_from o t mpid m ca p q).
  { intros q Iq. destruct (thin_in _ _ _ _ _ _ _ _ _ Th5 Iq) as (p & Ip & C). exists p. split; [exact Ip|exact C]. }
  assert (Whole : forall P : packet * Z -> Prop, (forall p, In p (a ++ y :: b ++ z :: c ++ x :: mid ++ firstn 1 post) -> P p) ->
    forall q, In q (pre ++ x :: lm ++ firstn 1 post') -> p_pid (fst q) <> 0 -> P q).
  { intros P HP q Iq N. assert (Sh2 : a ++ y :: b ++ z :: c ++ x :: mid ++ firstn 1 post = (a ++ y :: b ++ z :: c) ++ x :: mid ++ firstn 1 post).
    { rewrite <- app_assoc. cbn [app]. rewrite <- app_assoc. reflexivity. }
    rewrite Sh2 in HP. apply in_app_or in Iq as [Iq|[<-|Iq]].
    - destruct (From q Iq) as (p & Ip & C). destruct (from_same _ _ _ _ _ _ _ C N) as (-> & _). apply HP, in_or_app. auto.
    - apply HP, in_or_app. right. left. reflexivity.
    - apply in_app_or in Iq as [Iq|Iq].
      + destruct (FromM q Iq) as (p & Ip & C). destruct (from_same _ _ _ _ _ _ _ C N) as (-> & _). apply HP, in_or_app. right. right. apply in_or_app. auto.
      + rewrite Fpo in Iq. apply HP, in_or_app. right. right. apply in_or_app. auto. }
  assert (Clk0 : pfo_clock_pid o <> 0) by (rewrite <- Pc; intros E; apply O0; rewrite <- E; left; reflexivity).
  assert (OA : on_air o 1 mpid m e K pre x lm post').
  { constructor; auto.
    - intros I. apply Mp. cbn in I |- *. tauto.
    - apply Forall_forall. intros q Iq Pq. rewrite Forall_forall in Ti. refine (Whole (timed o K) Ti q Iq _ Pq). congruence.
    - intros q Iq Hq. refine (Whole (fun v => has_pcr o v -> near (snd v) (start_tick o e) /\ near (snd v) (end_tick o e)) Ne q Iq _ Hq). apply Pclk; auto.
    - intros q Iq Hq. destruct (From q Iq) as (p & Ip & C). destruct (from_same _ _ _ _ _ _ _ C (proj1 (Pclk q Hq))) as (-> & _). auto.
    - intros q [<-|Iq] Hq; [apply Wi; [left; reflexivity|exact Hq]|]. destruct (FromM q Iq) as (p & Ip & C).
      destruct (from_same _ _ _ _ _ _ _ C (proj1 (Pclk q Hq))) as (-> & _). apply Wi; [right; exact Ip|exact Hq].
    - intros q r Eq'. rewrite Eq' in Fpo. cbn [firstn] in Fpo. destruct post as [|p r']; [discriminate|]. injection Fpo as ->. exact (Af p r' eq_refl).
    - assert (Sh3 : forall p, In p (a ++ y :: b ++ z :: c) -> In p (a ++ y :: b ++ z :: c ++ [x])).
      { intros p Ip. replace (a ++ y :: b ++ z :: c ++ [x]) with ((a ++ y :: b ++ z :: c) ++ [x]) by (rewrite <- app_assoc; cbn [app]; rewrite <- app_assoc; reflexivity).
        apply in_or_app. auto. }
      split; apply Forall_forall; intros q Iq; apply in_map_iff in Iq as (v & <- & Iv); apply in_app_or in Iv as [Iv|Iv].
      + destruct (From v Iv) as (p & Ip & C). destruct (Z.eq_dec (p_pid (fst v)) 0) as [Z0|N].
        * destruct (from_gen _ _ _ _ _ _ _ C Z0) as (_ & ->). eapply gen_normal; eauto.
        * destruct (from_same _ _ _ _ _ _ _ C N) as (-> & P). apply Nm1; auto.
      + destruct Iv as [<-|[]]. apply Nm1; auto. apply in_or_app. right. right. apply in_or_app. right. right. apply in_or_app. right. left. reflexivity.
      + destruct (FromM v Iv) as (p & Ip & C). destruct (Z.eq_dec (p_pid (fst v)) 0) as [Z0|N].
        * destruct (from_gen _ _ _ _ _ _ _ C Z0) as (_ & ->). eapply gen_normal; eauto.
        * destruct (from_same _ _ _ _ _ _ _ C N) as (-> & P). apply Nm2; auto. apply in_or_app. auto.
      + rewrite Fpo in Iv. assert (Hv : has_pcr o v). { destruct post as [|p r]; [destruct Iv|]. cbn [firstn] in Iv. destruct Iv as [<-|[]]. apply (Af p r eq_refl). }
        apply Nm2; try apply Pclk; auto. apply in_or_app. auto.
    - assert (Sure : forall p, In p (b ++ z :: c) -> In (p_pid (fst p)) [0x12; mpid] -> In p lb).
      { intros p Ip Pp. eapply thin_sure; [exact Th3|exact Ip| |].
        - intros E. rewrite E in Pp. destruct Pp as [Pp|[Pp|[]]]; [discriminate|]. apply Mp. rewrite Pp. left. reflexivity.
        - apply zmem_In, in_or_app. destruct Pp as [<-|[<-|[]]]; [left; cbn; auto 10|right; left; reflexivity]. }
      exists (map fst la ++ [gy]), (map fst lb). split; [unfold pre; rewrite map_app; cbn [map fst]; rewrite <- app_assoc; reflexivity|]. split; [|split].
      + exists gy. split; [apply in_or_app; right; left; reflexivity|]. subst gy. exists (mkTable (TPat (Some (only_service sid t mpid))) 0). eexists. split.
        * cbn [gen_pat p_tabs]. destruct (p_regen (fst y) 1); [lia|]. left. reflexivity.
        * cbn [gen_pat p_pid tb_body]. eapply gen_listing; eauto.
      + exists (fst pp). split; [apply in_map, Sure; [exact Ipp|rewrite Ppp; cbn; auto]|exact Bpp].
      + exists (fst pe). split; [apply in_or_app; right; apply in_map, Sure; [exact Ipe|rewrite Ppe; cbn; auto]|auto]. }
  rewrite Eq in T.
  assert (Wl : willing anything tt).
  { intros qs. exists tt, tt, 0. split; [|auto]. induction qs as [|q qs IH]; [reflexivity|]. cbn in *. rewrite IH. reflexivity. }
  destruct (trans_on_air _ _ _ _ _ _ _ _ _ _ _ _ _ _ _ _ _ OA Wl T) as (-> & _ & _ & D & Bh).
  split; [|split; [exact Bh|]].
  - unfold programme, recorded. cbn zeta. f_equal; [|rewrite (thin_exact _ _ _ _ _ _ _ Th5); reflexivity].
    assert (PP : pat_packets (map fst pre) = pats_of o t mpid m ca (map fst (y :: b ++ z :: c))).
    { unfold pre. rewrite map_app. cbn [map fst]. unfold pat_packets. rewrite filter_app.
      assert (Z1 : filter (fun p => p_pid p =? 0) (map fst la) = []).
      { clear - Na. induction la as [|v la IH]; [reflexivity|]. cbn [map filter]. destruct (Z.eqb_spec (p_pid (fst v)) 0) as [E|]; [exfalso; apply (Na v); [left; reflexivity|exact E]|].
        apply IH. intros q Iq. apply Na. right. exact Iq. }
      rewrite Z1. cbn [app filter]. unfold pats_of at 1, taken_all. cbn [filter]. rewrite Py. cbn [Z.eqb flat_map]. rewrite Ty. rewrite Gy at 1. cbn [gen_pat p_pid app].
      change (PID_PAT =? 0) with true. cbn [app]. f_equal. exact (thin_pats _ _ _ _ _ _ _ _ eq_refl Th3). }
    destruct (pfo_pre_streaming o); [exact PP|]. rewrite pats_pusi.
    + rewrite PP. destruct (pats_of o t mpid m ca (map fst (y :: b ++ z :: c))); reflexivity.
    + intros p Ip Z0. apply in_map_iff in Ip as (v & <- & Iv). destruct (From v Iv) as (p & Ip & C). destruct (from_gen _ _ _ _ _ _ _ C Z0) as (_ & ->). reflexivity.
  - destruct D as [(-> & Ep)|(-> & _)]; [|auto]. right. split; [reflexivity|]. destruct post as [|p r].
    + destruct (Epo eq_refl) as (_ & -> & ->). split; [reflexivity|]. intros v Iv. eapply fine_missing; eauto.
    + rewrite Ep in Fpo. discriminate.
Qed.
