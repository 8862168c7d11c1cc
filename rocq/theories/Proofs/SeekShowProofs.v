(** seek-start on the stream of a service that changes its streams. *)
From Coq Require Import ZArith List Bool Lia.
From Verif Require Import Base.Outcome Base.Util Model.Sink Model.Ts Model.StartSeeker Spec.PcrSpec Spec.FilterSpec Spec.TuneSpec Spec.ProgramSpec Spec.SeekSpec
  Spec.SeekShowSpec Proofs.SeekProofs.
Import ListNotations.
Open Scope Z_scope.

Lemma latest_map_some : forall A B C (g : A -> B) (f : B -> option C) l, latest f (map g l) = latest (fun x => f (g x)) l.
Proof. induction l as [|x l IH]; cbn; [reflexivity|]. rewrite IH. reflexivity. Qed.
Lemma latest_found : forall A B (f : A -> option B) l v, latest f l = Some v -> exists x, In x l /\ f x = Some v.
Proof.
  induction l as [|x l IH]; cbn; intros v E; [discriminate|]. destruct (f x) eqn:F; [injection E as <-; eauto|].
  destruct (IH v E) as (y & I & Y). eauto.
Qed.
Lemma latest_any : forall A B (f : A -> option B) l x, In x l -> f x <> None -> latest f l <> None.
Proof.
  induction l as [|y l IH]; cbn; intros x I F; [destruct I|]. destruct (f y) eqn:G; [discriminate|].
  destruct I as [<-|I]; [congruence|]. eapply IH; eauto.
Qed.
Lemma latest_skip : forall A B (f : A -> option B) l r, (forall x, In x l -> f x = None) -> latest f (l ++ r) = latest f r.
Proof. induction l as [|x l IH]; cbn; intros r H; [reflexivity|]. rewrite (H x) by auto. apply IH. intros y I. apply H. auto. Qed.
Lemma pairs_app : forall A (R : A -> A -> Prop) l1 l2, ForallOrdPairs R (l1 ++ l2) -> ForallOrdPairs R l1 /\ ForallOrdPairs R l2 /\ forall x y, In x l1 -> In y l2 -> R x y.
Proof.
  induction l1 as [|a l1 IH]; cbn; intros l2 H; [split; [constructor|split; [exact H|intros x y []]]|].
  inversion H as [|? ? F G]; subst. destruct (IH _ G) as (A1 & A2 & A3). rewrite Forall_app in F. destruct F as [F1 F2].
  split; [constructor; assumption|]. split; [exact A2|]. intros x y [<-|I] J; [|auto]. rewrite Forall_forall in F2. auto.
Qed.

(** Not reached while less than the duration has passed. *)
Lemma early : forall b v t, 0 <= v < pcr_cycle -> 2 * t <= pcr_cycle -> (v - b) mod pcr_cycle < t -> reached v ((b + t) mod pcr_cycle) = false.
Proof.
  intros b v t V T E. unfold reached. destruct (Z.leb_spec ((b + t) mod pcr_cycle) v) as [L|]; [|reflexivity]. cbn [andb]. apply Z.ltb_ge.
  assert (C : 0 < pcr_cycle) by reflexivity.
  pose proof (Z.mod_pos_bound (v - b) pcr_cycle C) as B1. pose proof (Z.mod_pos_bound (b + t) pcr_cycle C) as B2.
  pose proof (Z.div_mod (v - b) pcr_cycle) as D1. pose proof (Z.div_mod (b + t) pcr_cycle) as D2.
  set (x := (v - b) / pcr_cycle) in *. set (y := (b + t) / pcr_cycle) in *. set (e := (v - b) mod pcr_cycle) in *. set (f := (b + t) mod pcr_cycle) in *.
  assert (v - f = pcr_cycle * (x + y) + (e - t)) by lia. assert (1 <= x + y) by nia. nia.
Qed.

Section Show.
Variable o : start_seeker_option.
Variable stage : nat.
Variable q : Z.
Variable m0 : pmt.
Hypothesis q_pid : q <> 0 /\ q <> 0x1FFF.

Notation sid := (sso_sid o).
Notation calm := (calm o stage q m0).
Notation pcrs := (pcrs m0).
Notation T := (ticks_per_ms * sso_max_duration o).
Definition body_of (x : Z * table) : Z * body := (fst x, tb_body (snd x)).

Record told (h : tables) : Prop := mkTold {
  t_pat : forall x u pid, In x h -> listing sid (body_of x) = Some (u, pid) -> pid = q;
  t_pmt : forall x m, In x h -> service_pmt sid (body_of x) = Some m -> same_streams m0 m }.

Definition listed (h : tables) : bool := existsb (fun x => match listing sid (body_of x) with Some _ => true | None => false end) h.
Definition ear (h : tables) (p : packet) : list table :=
  if (p_pid p =? 0) || ((p_pid p =? q) && listed h) then p_tabs p stage else [].
Fixpoint hear (h : tables) (ps : list packet) : tables :=
  match ps with [] => h | p :: r => hear (add h p (ear h p)) r end.

Lemma hear_app : forall a b h, hear h (a ++ b) = hear (hear h a) b.
Proof. induction a as [|p a IH]; intros b h; cbn [hear app]; [reflexivity|apply IH]. Qed.
Lemma hear_keeps : forall l h x, In x h -> In x (hear h l).
Proof. induction l as [|p l IH]; intros h x I; cbn [hear]; [exact I|]. apply IH. apply add_in. right. exact I. Qed.

Lemma told_nil : told [].
Proof. split; [intros x u pid []|intros x m []]. Qed.
Lemma told_pmt : forall h m, told h -> pmt_of o h = Some m -> same_streams m0 m.
Proof.
  intros h m H E. unfold pmt_of, bodies in E. rewrite latest_map_some in E. apply latest_found in E as (x & I & S). exact (t_pmt _ H _ _ I S).
Qed.
Lemma same_unchanged : forall m m', same_streams m0 m -> same_streams m0 m' -> ~ changed_by m m'.
Proof.
  intros m m' (_ & A) (_ & B) (f & F & _ & N). apply N. intros pid. rewrite <- (A f F pid). apply (B f F).
Qed.
Lemma told_still : forall h, told h -> forall j, ~ transition o h j.
Proof.
  induction h as [|x h IH]; intros H j Tr; inversion Tr as [y r C|y r j' C Tr']; subst.
  - destruct C as (m & m' & E1 & E2 & C). assert (H' : told h) by (destruct H as [A B]; split; [intros y u pid I; apply A; right; exact I|intros y m1 I; apply B; right; exact I]).
    eapply same_unchanged; [eapply told_pmt; eauto|eapply (t_pmt _ H x); [left; reflexivity|exact E2]|exact C].
  - eapply IH; [|exact Tr']. destruct H as [A B]. split; [intros y u pid I; apply A; right; exact I|intros y m1 I; apply B; right; exact I].
Qed.

Lemma listed_iff : forall h, listed h = true <-> exists x r, In x h /\ listing sid (body_of x) = Some r.
Proof.
  intros h. unfold listed. rewrite existsb_exists. split.
  - intros (x & I & E). destruct (listing sid (body_of x)) eqn:L; [eauto|discriminate].
  - intros (x & r & I & E). exists x. rewrite E. auto.
Qed.
Lemma told_tuned : forall h pid, told h -> (tuned [0] sid (bodies h) pid <-> pid = 0 \/ (pid = q /\ listed h = true)).
Proof.
  intros h pid H. unfold tuned. split.
  - intros [(t & E)|[([<-|[]] & _)|(E1 & x & t & I & E)]]; [| left; reflexivity |].
    + unfold bodies in E. rewrite latest_map_some in E. apply latest_found in E as (x & I & L). right. split; [exact (t_pat _ H _ _ _ I L)|].
      apply listed_iff. eauto.
    + unfold bodies in I. apply in_map_iff in I as (y & <- & I). pose proof (t_pat _ H _ _ _ I E). subst. destruct q_pid. congruence.
  - intros [->|(-> & L)].
    + right. left. split; [left; reflexivity|]. intros (x & t & I & E). unfold bodies in I. apply in_map_iff in I as (y & <- & I).
      pose proof (t_pat _ H _ _ _ I E). destruct q_pid. congruence.
    + left. apply listed_iff in L as (x & r & I & E).
      destruct (latest (listing sid) (bodies h)) as [[t pid]|] eqn:F.
      * unfold bodies in F. rewrite latest_map_some in F. apply latest_found in F as (y & Iy & G). rewrite (t_pat _ H _ _ _ Iy G) in *. eauto.
      * exfalso. revert F. unfold bodies. apply latest_any with (x := body_of x); [apply in_map_iff; exists x; split; [reflexivity|exact I]|congruence].
Qed.
Lemma told_hears : forall h p ts, told h -> hears o stage h p ts -> ts = ear h p.
Proof.
  intros h p ts H D. unfold ear. destruct D as [(A & ->)|(A & ->)]; rewrite (told_tuned _ _ H) in A.
  - destruct A as [->|(-> & ->)]; [reflexivity|]. rewrite Z.eqb_refl, orb_true_r. reflexivity.
  - destruct (Z.eqb_spec (p_pid p) 0) as [E|_]; [exfalso; auto|]. destruct (Z.eqb_spec (p_pid p) q) as [E|_]; [|reflexivity].
    cbn [orb andb]. destruct (listed h); [exfalso; auto|reflexivity].
Qed.
Lemma ear_in : forall h p t, In t (ear h p) -> (p_pid p = 0 \/ p_pid p = q) /\ In t (p_tabs p stage).
Proof.
  intros h p t I. unfold ear in I. destruct (Z.eqb_spec (p_pid p) 0) as [E|_]; [cbn [orb] in I; auto|].
  destruct (Z.eqb_spec (p_pid p) q) as [E|_]; [|destruct I]. cbn [orb andb] in I. destruct (listed h); [auto|destruct I].
Qed.
Lemma told_add : forall h p, told h -> calm p -> told (add h p (ear h p)).
Proof.
  intros h p H C. split; intros x.
  - intros u pid I L. apply add_in in I as [(t & It & ->)|I]; [|exact (t_pat _ H _ _ _ I L)].
    apply ear_in in It as (P & It). exact (proj1 (C P t It) u pid L).
  - intros m I S. apply add_in in I as [(t & It & ->)|I]; [|exact (t_pmt _ H _ _ I S)].
    apply ear_in in It as (P & It). exact (proj2 (C P t It) m S).
Qed.
Lemma told_hear : forall l h, told h -> Forall calm l -> told (hear h l).
Proof. induction l as [|p l IH]; intros h H F; cbn [hear]; [exact H|]. inversion F; subst. apply IH; [apply told_add|]; assumption. Qed.

Lemma told_pcr : forall h p v, told h -> pcr_of o h p = Some v -> pcrs [p] = [v].
Proof.
  intros h p v H E. unfold pcr_of in E. destruct (pmt_of o h) as [m|] eqn:M; [|discriminate].
  destruct (told_pmt _ _ H M) as (R & _). rewrite R in E. unfold pcrs. cbn [flat_map].
  destruct (Z.eqb_spec (p_pid p) (pmt_pcr_pid m0)); rewrite ?andb_false_r, ?andb_true_r in E; [|discriminate].
  destruct (negb _); [|discriminate]. rewrite E. reflexivity.
Qed.
Lemma told_pcr_back : forall h p v, told h -> pmt_of o h <> None -> pmt_pcr_pid m0 <> 0x1FFF -> pcrs [p] = [v] -> pcr_of o h p = Some v.
Proof.
  intros h p v H M N E. unfold pcr_of. destruct (pmt_of o h) as [m|] eqn:Em; [|congruence]. destruct (told_pmt _ _ H Em) as (R & _). rewrite R.
  unfold pcrs in E. cbn [flat_map] in E. rewrite app_nil_r in E. destruct (Z.eqb_spec (p_pid p) (pmt_pcr_pid m0)); [|discriminate].
  destruct (Z.eqb_spec (pmt_pcr_pid m0) 0x1FFF); [contradiction|]. cbn [negb andb]. destruct (p_pcr p); [congruence|discriminate].
Qed.
Lemma pcrs_app : forall a b, pcrs (a ++ b) = pcrs a ++ pcrs b.
Proof. intros. apply flat_map_app. Qed.
Lemma pcrs_cons : forall p l, pcrs (p :: l) = pcrs [p] ++ pcrs l.
Proof. intros p l. apply (pcrs_app [p] l). Qed.

(** The search goes on, or a limit is reached. *)
Definition stopped (base : option Z) (n : Z) (l : list packet) (r : outcome) : Prop :=
  exists m, r = Whole m /\ n < m <= n + zlen l /\
    ((sso_max_packets o <> 0 /\ m = sso_max_packets o) \/
     exists b v, reached v ((b + T) mod pcr_cycle) = true /\
       ((base = Some b /\ In v (pcrs l)) \/ exists u1 u2 u3, pcrs l = u1 ++ b :: u2 ++ v :: u3)).
Definition next_base (base : option Z) (l : list packet) (base' : option Z) : Prop :=
  match base with
  | Some b => base' = Some b
  | None => base' = None \/ exists v, base' = Some v /\ In v (pcrs l)
  end.

Lemma one : forall h base n p rest r, seek o stage h base n (p :: rest) r -> told h -> calm p ->
  stopped base n [p] r \/
  exists base', seek o stage (add h p (ear h p)) base' (n + 1) rest r /\
    match base, pcr_of o (add h p (ear h p)) p with
    | None, Some v => base' = Some v
    | b, _ => base' = b
    end /\ n + 1 <> sso_max_packets o /\
    (forall b v, base = Some b -> pcr_of o (add h p (ear h p)) p = Some v -> reached v ((b + T) mod pcr_cycle) = false).
Proof.
  intros h base n p rest r K H C. pose proof (told_add _ _ H C) as H'. pose proof (told_still _ H') as St.
  inversion K as [|? ? ? ? ? ts ? D Tr|? ? ? ? ? ts D Tr M0 M|? ? ? ? ts v ? D Tr M P K'|? ? ? ? ? ts v D Tr M P R|? ? ? ? ? ts v ? D Tr M P R K'|? ? ? ? ? ts ? D Tr M P K']; subst;
    rewrite (told_hears _ _ _ H D) in *.
  - exfalso. eapply St. exact Tr.
  - left. exists (n + 1). split; [reflexivity|]. split; [change (zlen [p]) with 1; lia|]. left. split; [assumption|assumption].
  - right. exists (Some v). rewrite P. split; [exact K'|]. split; [reflexivity|]. split; [assumption|]. intros b w E. discriminate.
  - left. exists (n + 1). split; [reflexivity|]. split; [change (zlen [p]) with 1; lia|]. right. exists b, v. split; [exact R|]. left. split; [reflexivity|].
    rewrite (told_pcr _ _ _ H' P). left. reflexivity.
  - right. exists (Some b). rewrite P. split; [exact K'|]. split; [reflexivity|]. split; [assumption|]. intros b' w E E'. injection E as <-. injection E' as <-. exact R.
  - right. exists base. rewrite P. split; [exact K'|]. split; [destruct base; reflexivity|]. split; [assumption|]. intros b w _ E. discriminate.
Qed.

Lemma pass : forall l h base n rest r, seek o stage h base n (l ++ rest) r -> told h -> Forall calm l ->
  stopped base n l r \/
  exists base', seek o stage (hear h l) base' (n + zlen l) rest r /\ next_base base l base'.
Proof.
  induction l as [|p l IH]; intros h base n rest r K H F.
  - right. exists base. cbn [hear app zlen] in *. change (zlen (@nil packet)) with 0. rewrite Z.add_0_r. split; [exact K|]. destruct base; cbn; auto.
  - inversion F as [|? ? Cp Cl]; subst. cbn [app] in K. destruct (one _ _ _ _ _ _ K H Cp) as [(m & -> & B & S)|(b1 & K1 & E1 & _)].
    + left. exists m. split; [reflexivity|]. split; [rewrite zlen_cons; unfold zlen in B |- *; cbn [List.length] in B; lia|].
      destruct S as [S|(b & v & R & S)]; [left; exact S|right; exists b, v; split; [exact R|]]. rewrite pcrs_cons.
      destruct S as [(E & I)|(u1 & u2 & u3 & E)]; [left; split; [exact E|apply in_or_app; left; exact I]|right].
      exists u1, u2, (u3 ++ pcrs l). rewrite E. repeat rewrite <- app_assoc. cbn [app]. rewrite <- app_assoc. reflexivity.
    + pose proof (told_add _ _ H Cp) as H1. destruct (IH _ _ _ _ _ K1 H1 Cl) as [(m & -> & B & S)|(b2 & K2 & E2)].
      * left. exists m. split; [reflexivity|]. rewrite zlen_cons. split; [lia|].
        destruct S as [S|(b & v & R & S)]; [left; exact S|right; exists b, v; split; [exact R|]]. rewrite pcrs_cons.
        destruct S as [(E & I)|(u1 & u2 & u3 & E)].
        -- destruct base as [b0|]; [assert (b1 = Some b0) by (exact E1); left; split; [congruence|apply in_or_app; right; exact I]|].
           destruct (pcr_of o (add h p (ear h p)) p) as [w|] eqn:P; [|congruence].
           apply (told_pcr _ _ _ H1) in P. rewrite P. assert (w = b) by congruence. subst w. right. apply in_split in I as (i1 & i2 & ->). exists [], i1, i2. reflexivity.
        -- right. exists (pcrs [p] ++ u1), u2, u3. rewrite E, app_assoc. reflexivity.
      * right. exists b2. cbn [hear]. rewrite zlen_cons. replace (n + (1 + zlen l)) with (n + 1 + zlen l) by lia. split; [exact K2|].
        destruct base as [b0|]; cbn [next_base].
        -- assert (b1 = Some b0) by (exact E1). subst b1. exact E2.
        -- destruct (pcr_of o (add h p (ear h p)) p) as [w|] eqn:P; subst b1; cbn [next_base] in E2.
           ++ right. exists w. split; [exact E2|]. rewrite pcrs_cons, (told_pcr _ _ _ H1 P). left. reflexivity.
           ++ destruct E2 as [E2|(v & E2 & I)]; [left; exact E2|right; exists v; split; [exact E2|]]. rewrite pcrs_cons. apply in_or_app. right. exact I.
Qed.

Lemma in_pcrs : forall v l, In v (pcrs l) -> exists p, In p l /\ p_pcr p = Some v.
Proof.
  intros v l I. unfold pcrs in I. apply in_flat_map in I as (p & I & E). exists p. split; [exact I|].
  destruct (p_pid p =? pmt_pcr_pid m0); [|destruct E]. destruct (p_pcr p) as [w|]; [|destruct E]. destruct E as [<-|[]]. reflexivity.
Qed.

(** Within the limits it goes on. *)
Lemma pass_within : forall l rest r, seek o stage [] None 0 (l ++ rest) r -> Forall calm l -> within o m0 l ->
  (forall p v, In p l -> p_pcr p = Some v -> 0 <= v < pcr_cycle) ->
  exists base', seek o stage (hear [] l) base' (zlen l) rest r.
Proof.
  intros l rest r K F (W1 & W2 & W3) R. destruct (pass _ _ _ _ _ _ K told_nil F) as [(m & -> & B & S)|(b & K' & _)]; [exfalso|exists b; exact K'].
  destruct S as [(N & ->)|(b & v & Re & [(E & _)|(u1 & u2 & u3 & E)])]; [lia|discriminate|].
  rewrite E in W3. apply pairs_app in W3 as (_ & W3 & _). inversion W3 as [|? ? G _]; subst. rewrite Forall_forall in G.
  assert (I : In v (u2 ++ v :: u3)) by (apply in_or_app; right; left; reflexivity). specialize (G v I). cbv beta in G.
  assert (Iv : In v (pcrs l)) by (rewrite E; apply in_or_app; right; right; exact I).
  apply in_pcrs in Iv as (p & Ip & Ep). rewrite (early b v T (R p v Ip Ep) W2 G) in Re. discriminate.
Qed.

(** What is heard. *)
Lemma heard_pat : forall y t h, says_pat o stage q y t -> In (0, t) (add h y (ear h y)) /\ listed (add h y (ear h y)) = true.
Proof.
  intros y t h (P & E & u & L). assert (I : In (0, t) (add h y (ear h y))).
  { apply add_in. left. exists t. split; [|rewrite P; reflexivity]. unfold ear. rewrite P, E. left. reflexivity. }
  split; [exact I|]. apply listed_iff. exists (0, t), (u, q). split; [exact I|exact L].
Qed.
Lemma listed_keeps : forall l h, listed h = true -> listed (hear h l) = true.
Proof. intros l h L. apply listed_iff in L as (x & r & I & E). apply listed_iff. exists x, r. split; [apply hear_keeps; exact I|exact E]. Qed.
Lemma heard_pmt : forall a y ty b x tx m h, says_pat o stage q y ty -> says_pmt o stage q x tx m ->
  In (q, tx) (hear h (a ++ y :: b ++ [x])).
Proof.
  intros a y ty b x tx m h Y (P & E & _). rewrite hear_app. cbn [hear]. rewrite hear_app. cbn [hear].
  pose proof (listed_keeps b _ (proj2 (heard_pat _ _ (hear h a) Y))) as L.
  revert L. generalize (hear (add (hear h a) y (ear (hear h a) y)) b). intros hh L.
  apply add_in. left. exists tx. split; [|rewrite P; reflexivity]. unfold ear. rewrite P, Z.eqb_refl, L, orb_true_r, E. left. reflexivity.
Qed.
Lemma pmt_heard : forall h x tx m, says_pmt o stage q x tx m -> In (q, tx) h -> pmt_of o h <> None.
Proof.
  intros h x tx m (P & E & B & S) I. unfold pmt_of, bodies. rewrite latest_map_some. apply latest_any with (x := (q, tx)); [exact I|].
  unfold service_pmt. cbn [snd]. rewrite B, S, Z.eqb_refl. discriminate.
Qed.
Lemma hear_origin : forall l h x, In x (hear h l) -> In x h \/ exists p, In p l /\ fst x = p_pid p /\ In (snd x) (p_tabs p stage).
Proof.
  induction l as [|p l IH]; intros h x I; cbn [hear] in I; [left; exact I|]. destruct (IH _ _ I) as [J|(p' & J & E)]; [|right; exists p'; split; [right; exact J|exact E]].
  apply add_in in J as [(t & It & ->)|J]; [|left; exact J]. right. exists p. split; [left; reflexivity|]. split; [reflexivity|]. apply ear_in in It. apply It.
Qed.
Lemma hear_suffix : forall l h, exists hh, hear h l = hh ++ h /\ forall x, In x hh -> exists p, In p l /\ fst x = p_pid p /\ In (snd x) (p_tabs p stage).
Proof.
  induction l as [|p l IH]; intros h; cbn [hear]; [exists []; split; [reflexivity|intros x []]|].
  destruct (IH (add h p (ear h p))) as (hh & -> & O). unfold add. exists (hh ++ rev (map (fun t => (p_pid p, t)) (ear h p))).
  split; [apply app_assoc|]. intros x I. apply in_app_or in I as [I|I]; [destruct (O x I) as (p' & J & E); exists p'; split; [right; exact J|exact E]|].
  rewrite <- in_rev, in_map_iff in I. destruct I as (t & <- & I). exists p. split; [left; reflexivity|]. split; [reflexivity|]. apply ear_in in I. apply I.
Qed.
(** The latest PAT. *)
Lemma pat_latest : forall a y ty b h, says_pat o stage q y ty ->
  (forall p t, In p b -> In t (p_tabs p stage) -> listing sid (p_pid p, tb_body t) = None) ->
  pat_start o (hear h (a ++ y :: b)) = tb_first ty.
Proof.
  intros a y ty b h Y N. rewrite hear_app. cbn [hear]. destruct (hear_suffix b (add (hear h a) y (ear (hear h a) y))) as (hh & -> & O).
  unfold pat_start. rewrite latest_skip.
  - destruct Y as (P & E & u & L). unfold add, ear. rewrite P, E. cbn [Z.eqb orb map rev app latest fst snd]. rewrite L. reflexivity.
  - intros x I. destruct (O x I) as (p & J & E & K). rewrite E, (N p (snd x) J K). reflexivity.
Qed.

(** The first change within the limits is found. *)
Lemma show_cut : forall before a y ty b a' y' ty' b' x tx m c' z tz m1 c r,
  seek o stage [] None 0 (before ++ z :: c) r ->
  Forall calm before -> within o m0 before -> (forall p v, In p before -> p_pcr p = Some v -> 0 <= v < pcr_cycle) ->
  before = a' ++ y' :: b' ++ x :: c' -> says_pat o stage q y' ty' -> says_pmt o stage q x tx m ->
  before = a ++ y :: b -> says_pat o stage q y ty ->
  (forall p t, In p b -> In t (p_tabs p stage) -> listing sid (p_pid p, tb_body t) = None) ->
  says_pmt o stage q z tz m1 -> changed_by m0 m1 -> 0 < tb_first tz ->
  r = Cut (tb_first ty) (tb_first tz) (zlen before + 1).
Proof.
  intros before a y ty b a' y' ty' b' x tx m c' z tz m1 c r K F W Rg E1 Y' X E2 Y N Z C J.
  destruct (pass_within _ _ _ K F W Rg) as (base & K'). pose proof (told_hear _ _ told_nil F) as H. set (h := hear [] before) in *.
  assert (Ip : In (q, tx) h).
  { unfold h. rewrite E1. replace (a' ++ y' :: b' ++ x :: c') with ((a' ++ y' :: b' ++ [x]) ++ c') by (rewrite <- app_assoc; cbn [app]; rewrite <- app_assoc; reflexivity).
    rewrite hear_app. apply hear_keeps. eapply heard_pmt; eauto. }
  assert (Ls : listed h = true).
  { unfold h. rewrite E1, hear_app. cbn [hear]. apply listed_keeps. apply (heard_pat _ _ _ Y'). }
  assert (Ez : ear h z = [tz]).
  { unfold ear. destruct Z as (P & Et & _). rewrite P, Et, Z.eqb_refl, Ls, orb_true_r. reflexivity. }
  destruct (pmt_of o h) as [mm|] eqn:Pm; [|exfalso; exact (pmt_heard h x tx m X Ip Pm)].
  assert (Sm : same_streams m0 mm) by (eapply told_pmt; eauto).
  assert (Cm : changed_by mm m1).
  { destruct C as (f & Ff & (pid & V) & Nf). destruct Sm as (_ & Sv). exists f. split; [exact Ff|]. split; [exists pid; apply (Sv f Ff); exact V|].
    intros Q. apply Nf. intros pd. rewrite (Sv f Ff pd). apply Q. }
  assert (Sz : service_pmt sid (q, tb_body tz) = Some m1) by (destruct Z as (_ & _ & Bz & Si); unfold service_pmt; cbn [snd]; rewrite Bz, Si, Z.eqb_refl; reflexivity).
  assert (Pz : p_pid z = q) by apply Z.
  assert (Tr : transition o (add h z [tz]) (tb_first tz)).
  { unfold add. cbn [map rev app]. rewrite Pz. apply (T_here o (q, tz) h). exists mm, m1. cbn [fst snd]. auto. }
  assert (Ps : pat_start o (add h z [tz]) = tb_first ty).
  { unfold add. cbn [map rev app]. rewrite Pz. unfold pat_start. cbn [latest fst snd].
    assert (L0 : listing sid (q, tb_body tz) = None) by (destruct Z as (_ & _ & Bz & _); rewrite Bz; reflexivity). rewrite L0.
    fold (pat_start o h). unfold h. rewrite E2. apply pat_latest; assumption. }
  inversion K' as [|? ? ? ? ? ts j D Tr'|? ? ? ? ? ts D Tr'|? ? ? ? ts v ? D Tr'|? ? ? ? ? ts v D Tr'|? ? ? ? ? ts v ? D Tr'|? ? ? ? ? ts ? D Tr']; subst ;
    rewrite (told_hears _ _ _ H D), Ez in *; try (exfalso; eapply Tr'; eassumption).
  rewrite Ps, (transition_det _ _ _ Tr _ Tr'). reflexivity.
Qed.

Lemma show_found : forall before z c i j r, seek o stage [] None 0 (before ++ z :: c) r -> orderly o stage (before ++ z :: c) ->
  Forall calm before -> within o m0 before -> tuned_in o stage q before -> latest_pat o stage q before i -> changes_streams o stage q m0 z j ->
  r = Cut i j (zlen before + 1).
Proof.
  intros before z c i j r K O F W (a' & y' & ty' & b' & x & tx & m & c' & E1 & Y' & X) (a & y & ty & b & E2 & Y & <- & N) (tz & m1 & Z & C & <-).
  assert (Nz : znth (zlen before) (before ++ z :: c) = Some z).
  { unfold znth, zlen. destruct (Z.ltb_spec (Z.of_nat (List.length before)) 0); [lia|]. rewrite Nat2Z.id, nth_error_app2, Nat.sub_diag by lia. reflexivity. }
  eapply show_cut; eauto.
  - intros p v I. destruct (in_znth _ p (before ++ z :: c)) as (k & Ek); [apply in_or_app; left; exact I|]. apply (proj1 (O k p Ek)).
  - destruct Z as (P & Et & B & S). assert (It : In tz (p_tabs z stage)) by (rewrite Et; left; reflexivity).
    destruct (proj2 (O _ _ Nz) tz It) as (_ & _ & _ & G). apply G. rewrite P. unfold service_pmt. cbn [snd]. rewrite B, S, Z.eqb_refl. discriminate.
Qed.

(** Time is counted in PCRs: without them nothing ends the search. *)
Lemma show_endless : forall ps r, seek o stage [] None 0 ps r -> Forall calm ps -> sso_max_packets o = 0 -> pcrs ps = [] -> r = Whole (zlen ps).
Proof.
  intros ps r K F M P. rewrite <- (app_nil_r ps) in K. destruct (pass _ _ _ _ _ _ K told_nil F) as [(m & -> & _ & S)|(b & K' & _)].
  - exfalso. destruct S as [(N & _)|(b & v & _ & [(E & _)|(u1 & u2 & u3 & E)])]; [congruence|discriminate|]. rewrite P in E. destruct u1; discriminate.
  - inversion K'. reflexivity.
Qed.

(** Without a change everything is sent. *)
Lemma show_none : forall ps r, seek o stage [] None 0 ps r -> Forall calm ps -> exists n, r = Whole n.
Proof.
  intros ps r K F. rewrite <- (app_nil_r ps) in K. destruct (pass _ _ _ _ _ _ K told_nil F) as [(m & -> & _)|(b & K' & _)]; [eauto|].
  inversion K'. eauto.
Qed.

(** When a limit is reached before the change, everything is sent. *)
Lemma show_late : forall ps p c r, seek o stage [] None 0 (ps ++ p :: c) r -> Forall calm ps -> calm p -> at_limit o stage q m0 ps p -> 0 <= sso_max_duration o ->
  exists n, r = Whole n /\ n <= zlen ps + 1.
Proof.
  intros ps p c r K F C L Dn. destruct L as [(N & E)|L].
  - destruct (pass _ _ _ _ _ _ K told_nil F) as [(m & -> & B & _)|(b & K' & _)]; [exists m; split; [reflexivity|lia]|].
    destruct (one _ _ _ _ _ _ K' (told_hear _ _ told_nil F) C) as [(m & -> & B & _)|(b' & _ & _ & M & _)].
    + exists m. split; [reflexivity|]. unfold zlen in B at 3. cbn [List.length] in B. lia.
    + lia.
  - destruct L as (a & y & ty & b & x & tx & m & d & z & e & v0 & v & -> & Y & X & N & Pz & Pp & T0 & Lw & Rg & V).
    set (l1 := a ++ y :: b ++ x :: d) in *.
    replace (a ++ y :: b ++ x :: d ++ z :: e) with (l1 ++ z :: e) in * by (unfold l1; rewrite <- app_assoc; cbn [app]; rewrite <- app_assoc; reflexivity).
    replace (a ++ y :: b ++ x :: d ++ [z]) with (l1 ++ [z]) in * by (unfold l1; rewrite <- app_assoc; cbn [app]; rewrite <- app_assoc; reflexivity).
    rewrite zlen_app, zlen_cons. apply Forall_app in F as (F1 & F2). inversion F2 as [|? ? Cz Fe]; subst.
    rewrite <- app_assoc in K. cbn [app] in K.
    destruct (pass _ _ _ _ _ _ K told_nil F1) as [(k & -> & B & _)|(b1 & K1 & N1)].
    { exists k. split; [reflexivity|]. pose proof (zlen_nonneg _ e). lia. }
    pose proof (told_hear _ _ told_nil F1) as H1.
    assert (M1 : In (q, tx) (hear [] l1)).
    { unfold l1. replace (a ++ y :: b ++ x :: d) with ((a ++ y :: b ++ [x]) ++ d) by (rewrite <- app_assoc; cbn [app]; rewrite <- app_assoc; reflexivity).
      rewrite hear_app. apply hear_keeps. eapply heard_pmt; eauto. }
    destruct (one _ _ _ _ _ _ K1 H1 Cz) as [(k & -> & B & _)|(b2 & K2 & N2 & _)].
    { exists k. split; [reflexivity|]. pose proof (zlen_nonneg _ e). change (zlen [z]) with 1 in B. lia. }
    pose proof (told_add _ _ H1 Cz) as H2. set (h2 := add (hear [] l1) z (ear (hear [] l1) z)) in *.
    assert (M2 : In (q, tx) h2) by (apply add_in; right; exact M1).
    assert (P2 : pcr_of o h2 z = Some v0) by (apply told_pcr_back; auto; eapply pmt_heard; eauto). rewrite P2 in N2.
    assert (Bs : exists w, b2 = Some w /\ w <= v0 /\ 0 <= w /\ 2 * (v - w) < pcr_cycle).
    { rewrite pcrs_app, Forall_app in Rg. destruct Rg as (Rg1 & Rg2). rewrite Pz in Rg2. rewrite Forall_forall in Lw, Rg1, Rg2. cbn [next_base] in N1.
      destruct N1 as [->|(w & -> & I)].
      - exists v0. split; [exact N2|]. specialize (Rg2 v0 (or_introl eq_refl)). cbv beta in Rg2. lia.
      - exists w. split; [exact N2|]. specialize (Lw w I). specialize (Rg1 w I). cbv beta in *. lia. }
    destruct Bs as (w & -> & Bw & Bn & Bh).
    destruct (pass _ _ _ _ _ _ K2 H2 Fe) as [(k & -> & B & _)|(b3 & K3 & N3)].
    { exists k. split; [reflexivity|]. lia. }
    cbn [next_base] in N3. subst b3. pose proof (told_hear _ _ H2 Fe) as H3.
    destruct (one _ _ _ _ _ _ K3 H3 C) as [(k & -> & B & _)|(b4 & _ & _ & _ & Nr)].
    { exists k. split; [reflexivity|]. change (zlen [p]) with 1 in B. lia. }
    exfalso. pose proof (told_add _ _ H3 C) as H4. set (h4 := add (hear h2 e) p (ear (hear h2 e) p)) in *.
    assert (M4 : In (q, tx) h4) by (apply add_in; right; apply hear_keeps; exact M2).
    assert (P4 : pcr_of o h4 p = Some v) by (apply told_pcr_back; auto; eapply pmt_heard; eauto).
    specialize (Nr w v eq_refl P4). unfold reached in Nr.
    assert (Ed : (w + T) mod pcr_cycle = w + T) by (apply Z.mod_small; unfold ticks_per_ms in *; lia).
    rewrite Ed in Nr. apply andb_false_iff in Nr as [Nr|Nr]; [apply Z.leb_gt in Nr; lia|apply Z.ltb_ge in Nr; unfold ticks_per_ms in *; lia].
Qed.

End Show.
