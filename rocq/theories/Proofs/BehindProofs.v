From Coq Require Import ZArith Lia List Bool.
From Verif Require Import Base.Outcome Base.Util Model.Sink Model.Ts Model.FileSource Model.StdoutSink Model.ServiceFilter Model.Commands Model.PosixFile Model.Main
  Spec.SourceSpec Spec.StdoutSpec Spec.TransSpec Spec.FilterSpec Spec.TuneSpec Spec.PipeSpec Spec.TwiceSpec Spec.OthersSpec Spec.MainSpec Spec.PipelineSpec Spec.BehindSpec
  Proofs.SourceProofs Proofs.FilterProofs Proofs.FilterMain Proofs.PipeProofs Proofs.WallMain Proofs.MainProofs Proofs.CommandProofs Proofs.OthersJson.
From Verif Require Proofs.TwiceProofs.
Import ListNotations.
Open Scope Z_scope.

(** * Which packets pass *)
Section Passing.
Variable sid : Z.
Notation filt := (filtered sid None 0 anything).
Definition info (p : packet) : bool := zmem (p_pid p) info_pids.

Lemma info_nonzero : forall p, info p = true -> p_pid p <> 0 /\ p_pid p <> 0x1FFF.
Proof. intros p I. apply zmem_In in I. unfold info_pids in I. cbn [In] in I. lia. Qed.
Lemma info_si : forall p, info p = true -> In (p_pid p) si_pids.
Proof. intros p I. apply zmem_In in I. unfold info_pids in I. unfold si_pids. cbn [In] in *. tauto. Qed.

Lemma missing_zero : forall x, missing sid x = true -> fst x = 0.
Proof.
  intros [pid b] H. unfold missing, usable_pat in H. destruct b as [[t|]| | | | | | |]; try discriminate. destruct (Z.eqb_spec pid 0); [assumption|discriminate].
Qed.
Lemma listing_zero : forall x y, listing sid x = Some y -> fst x = 0.
Proof.
  intros [pid b] y H. unfold listing, usable_pat in H. destruct b as [[t|]| | | | | | |]; try discriminate. destruct (Z.eqb_spec pid 0); [assumption|discriminate].
Qed.

(** No PMT PID so far was 0: PID 0 is heard. *)
Definition hears_zero (h : history) : Prop := forall x t q, In x h -> listing sid x = Some (t, q) -> ~ In q [0; 1; 0x14; 0x1FFF].
Definition no_missing (h : history) : Prop := forall x, In x h -> missing sid x = false.
Definition unlisted (h : history) : Prop := latest (listing sid) h = None /\ latest (service_pmt sid) h = None /\ latest a_cat h = None.

Lemma listens_zero : forall h, hears_zero h -> listens sid None h 0.
Proof. intros h H. right; left. split; [auto|]. intros (x & t & I & L). apply (H x t 0 I L). cbn. auto. Qed.

Lemma heard_in : forall h p h' x, heard sid None 0 h p h' -> In x h' -> In x h \/ exists t, In t (p_tabs p 0) /\ x = (p_pid p, tb_body t).
Proof.
  intros h p h' x [[_ ->]|[_ ->]] I; [|auto]. apply in_app_iff in I as [I|I]; [|auto]. right.
  apply in_rev in I. apply in_map_iff in I as (t & <- & I). eauto.
Qed.
Lemma heard_zero : forall h p h', hears_zero h -> heard sid None 0 h p h' -> p_pid p = 0 -> h' = rev (map (fun t => (0, tb_body t)) (p_tabs p 0)) ++ h.
Proof. intros h p h' Z [[_ ->]|[N _]] P; [rewrite P; reflexivity|]. exfalso. apply N. rewrite P. apply listens_zero. exact Z. Qed.

Lemma zero_kept : forall h p h', hears_zero h -> heard sid None 0 h p h' -> well_placed sid [p] -> hears_zero h'.
Proof.
  intros h p h' Z H W x t q I L. destruct (heard_in _ _ _ _ H I) as [I'|(tb & It & ->)]; [exact (Z x t q I' L)|].
  pose proof (listing_zero _ _ L) as P. cbn [fst] in P. rewrite P in L. exact (proj2 (W p tb (or_introl eq_refl) It P) t q L).
Qed.

Lemma denies_missing : forall h p h', hears_zero h -> no_missing h -> heard sid None 0 h p h' -> (denies sid p <-> exists x, In x h' /\ missing sid x = true).
Proof.
  intros h p h' Z N H. split.
  - intros (P & t & It & M). rewrite (heard_zero _ _ _ Z H P). exists (0, tb_body t). split; [|exact M].
    apply in_app_iff. left. apply -> in_rev. apply in_map_iff. eauto.
  - intros (x & I & M). destruct (heard_in _ _ _ _ H I) as [I'|(t & It & ->)]; [rewrite (N x I') in M; discriminate|].
    pose proof (missing_zero _ M) as P. cbn [fst] in P. split; [exact P|]. exists t. rewrite P in M. auto.
Qed.

Lemma announces_latest : forall h p h', hears_zero h -> heard sid None 0 h p h' -> announces sid p -> latest (listing sid) h' <> None.
Proof.
  intros h p h' Z H (P & t & It & L). rewrite (heard_zero _ _ _ Z H P). intros N. rewrite latest_none in N. apply L. apply N.
  apply in_app_iff. left. apply -> in_rev. apply in_map_iff. eauto.
Qed.

Lemma listed_kept : forall h p h', heard sid None 0 h p h' -> latest (listing sid) h <> None -> latest (listing sid) h' <> None.
Proof.
  intros h p h' H N L. apply N. rewrite latest_none in *. intros x I. apply L. exact (heard_grows _ _ _ _ _ _ H x I).
Qed.

Lemma unlisted_kept : forall h p h', hears_zero h -> unlisted h -> heard sid None 0 h p h' -> ~ announces sid p -> well_placed sid [p] ->
  (p_pid p = 1 -> forall t, In t (p_tabs p 0) -> a_cat (p_pid p, tb_body t) = None /\ service_pmt sid (p_pid p, tb_body t) = None) -> unlisted h'.
Proof.
  intros h p h' Z (A & B & C) H Na W F. rewrite latest_none in A, B, C.
  assert (X : forall x, In x h' -> listing sid x = None /\ service_pmt sid x = None /\ a_cat x = None).
  { destruct H as [[Ls ->]|[_ ->]]; [|auto]. intros x I. apply in_app_iff in I as [I|I]; [|auto].
    apply in_rev in I. apply in_map_iff in I as (t & <- & It).
    assert (P : p_pid p = 0 \/ p_pid p = 1).
    { destruct Ls as [(u & L)|[([P|[P|[_ P]]] & _)|(_ & x & u & I & L)]]; [|auto|auto|contradiction|].
      - apply latest_some_in in L as (x & I & L). rewrite (A x I) in L. discriminate.
      - rewrite (A x I) in L. discriminate. }
    destruct P as [P|P].
    - destruct (W p t (or_introl eq_refl) It P) as [Bd _]. split.
      + destruct (listing sid (p_pid p, tb_body t)) eqn:L; [|reflexivity]. exfalso. apply Na. split; [exact P|]. exists t. rewrite <- P at 1. rewrite L. split; [exact It|discriminate].
      + unfold service_pmt, a_cat. cbn [snd]. destruct (tb_body t); try contradiction; auto.
    - destruct (F P t It) as [F1 F2]. split; [|auto].
      destruct (listing sid (p_pid p, tb_body t)) eqn:L; [|reflexivity]. apply listing_zero in L. cbn [fst] in L. lia. }
  unfold unlisted. rewrite !latest_none. split; [|split]; intros x I; apply (X x I).
Qed.

(** While the service is listed. *)
Lemma during_pass : forall h ps mid e h' d d', filt h d ps mid e h' d' -> (forall f, e <> Crashed f) ->
  hears_zero h -> no_missing h -> latest (listing sid) h <> None -> well_placed sid ps ->
  exists b c, ps = b ++ c /\ (forall p, In p b -> ~ denies sid p) /\ match c with [] => True | p :: _ => denies sid p end /\
    filter info mid = filter info b /\ ((exists x, In x h' /\ missing sid x = true) <-> c <> []).
Proof.
  intros h ps mid e h' d d' F. induction F as [h d|h d p h1 ps out e he de Hh D F IH|h d p h1 q d1 ps out e he de Hh D K F IH|h d p h1 q d1 ps Hh D K|h d p h1 q f ps Hh D K|h d p h1 ps Hh D|h d p h1 f ps Hh D];
    intros N Z M L W.
  - exists [], []. split; [reflexivity|]. split; [intros p []|]. split; [exact I|]. split; [reflexivity|]. split; [|congruence].
    intros (x & Ix & Mx). rewrite (M x Ix) in Mx. discriminate.
  - assert (Wp : well_placed sid [p]) by (intros x t [<-|[]]; apply W; left; reflexivity).
    assert (Z1 := zero_kept _ _ _ Z Hh Wp).
    assert (No : ~ over sid None h1) by (inversion D; assumption).
    assert (Nd : ~ denies sid p) by (intros X; apply No; left; apply (denies_missing _ _ _ Z M Hh); exact X).
    assert (M1 : no_missing h1) by (intros x Ix; destruct (missing sid x) eqn:E; [exfalso; apply No; left; eauto|reflexivity]).
    destruct (IH N Z1 M1 (listed_kept _ _ _ Hh L)) as (b & c & -> & B & C & Fi & X); [intros x t Ix; apply W; right; exact Ix|].
    exists (p :: b), c. split; [reflexivity|]. split; [intros x [<-|Ix]; auto|]. split; [exact C|]. split; [|exact X].
    cbn [filter]. destruct (info p) eqn:E; [|exact Fi]. exfalso. inversion D as [| |? ? Nw| | | |]; subst.
    apply Nw. left. destruct (latest (listing sid) h1) as [[t q]|] eqn:El; [|exfalso; exact (listed_kept _ _ _ Hh L El)]. exists t, q. split; [reflexivity|]. left. apply info_si. exact E.
  - assert (Wp : well_placed sid [p]) by (intros x t [<-|[]]; apply W; left; reflexivity).
    assert (Z1 := zero_kept _ _ _ Z Hh Wp).
    assert (No : ~ over sid None h1) by (inversion D; assumption).
    assert (Nd : ~ denies sid p) by (intros X; apply No; left; apply (denies_missing _ _ _ Z M Hh); exact X).
    assert (M1 : no_missing h1) by (intros x Ix; destruct (missing sid x) eqn:E; [exfalso; apply No; left; eauto|reflexivity]).
    destruct (IH N Z1 M1 (listed_kept _ _ _ Hh L)) as (b & c & -> & B & C & Fi & X); [intros x t Ix; apply W; right; exact Ix|].
    exists (p :: b), c. split; [reflexivity|]. split; [intros x [<-|Ix]; auto|]. split; [exact C|]. split; [|exact X].
    inversion D as [| | |t q0 ? ? ? P0| | |? ? ? P0]; subst.
    + cbn [filter]. assert (E1 : info p = false) by (unfold info; rewrite P0; reflexivity). rewrite E1. exact Fi.
    + cbn [filter]. destruct (info q); [f_equal; exact Fi|exact Fi].
  - discriminate K.
  - discriminate K.
  - exists [], (p :: ps). split; [reflexivity|]. split; [intros x []|].
    assert (O : over sid None h1) by (inversion D; assumption). destruct O as [O|(x & t & l & _ & _ & O & _)]; [|discriminate].
    split; [apply (denies_missing _ _ _ Z M Hh); exact O|]. split; [reflexivity|]. split; [discriminate|intros _; exact O].
  - exfalso. exact (N f eq_refl).
Qed.

Lemma pass : forall h ps mid e h' d d', filt h d ps mid e h' d' -> (forall f, e <> Crashed f) ->
  hears_zero h -> no_missing h -> unlisted h -> well_placed sid ps -> pat_first sid ps ->
  exists a b c, ps = a ++ b ++ c /\ on_air sid a b c /\
    filter info mid = filter info b /\ ((exists x, In x h' /\ missing sid x = true) <-> c <> []).
Proof.
  intros h ps mid e h' d d' F. induction F as [h d|h d p h1 ps out e he de Hh D F IH|h d p h1 q d1 ps out e he de Hh D K F IH|h d p h1 q d1 ps Hh D K|h d p h1 q f ps Hh D K|h d p h1 ps Hh D|h d p h1 f ps Hh D];
    intros N Z M L W Pf.
  - exists [], [], []. split; [reflexivity|]. split; [split; [intros p []|split; [exact I|split; [intros p []|exact I]]]|]. split; [reflexivity|]. split; [|congruence].
    intros (x & Ix & Mx). rewrite (M x Ix) in Mx. discriminate.
  - assert (Wp : well_placed sid [p]) by (intros x t [<-|[]]; apply W; left; reflexivity).
    assert (Wr : well_placed sid ps) by (intros x t Ix; apply W; right; exact Ix).
    assert (Z1 := zero_kept _ _ _ Z Hh Wp).
    assert (No : ~ over sid None h1) by (inversion D; assumption).
    assert (Nd : ~ denies sid p) by (intros X; apply No; left; apply (denies_missing _ _ _ Z M Hh); exact X).
    assert (M1 : no_missing h1) by (intros x Ix; destruct (missing sid x) eqn:E; [exfalso; apply No; left; eauto|reflexivity]).
    destruct (TwiceProofs.announces_dec (mkSfOption sid None) p) as [A|A]; cbn [sfo_sid] in A.
    + destruct (during_pass _ _ _ _ _ _ _ F N Z1 M1 (announces_latest _ _ _ Z Hh A) Wr) as (b & c & -> & B & C & Fi & X).
      exists [], (p :: b), c. split; [reflexivity|]. split; [split; [intros x []|]; split; [exact A|]; split; [intros x [<-|Ix]; auto|exact C]|]. split; [|exact X].
      cbn [filter]. destruct (info p) eqn:E; [|exact Fi]. exfalso. destruct A as (P & _). apply info_nonzero in E. lia.
    + assert (U1 : unlisted h1).
      { apply (unlisted_kept h p h1 Z L Hh A Wp). intros P t It.
        pose proof (Pf [] p ps t eq_refl (or_introl P) It) as G.
        destruct (a_cat (p_pid p, tb_body t)) eqn:E1; [destruct G as [x [[] _]]; left; discriminate|].
        destruct (service_pmt sid (p_pid p, tb_body t)) eqn:E2; [destruct G as [x [[] _]]; right; discriminate|]. auto. }
      destruct (IH N Z1 M1 U1 Wr (TwiceProofs.pat_first_tail (mkSfOption sid None) p ps A Pf)) as (a & b & c & -> & (O1 & O2 & O3 & O4) & Fi & X).
      exists (p :: a), b, c. split; [reflexivity|]. split; [split; [intros x [<-|Ix]; auto|auto]|]. auto.
  - assert (Wp : well_placed sid [p]) by (intros x t [<-|[]]; apply W; left; reflexivity).
    assert (Wr : well_placed sid ps) by (intros x t Ix; apply W; right; exact Ix).
    assert (Z1 := zero_kept _ _ _ Z Hh Wp).
    assert (No : ~ over sid None h1) by (inversion D; assumption).
    assert (Nd : ~ denies sid p) by (intros X; apply No; left; apply (denies_missing _ _ _ Z M Hh); exact X).
    assert (M1 : no_missing h1) by (intros x Ix; destruct (missing sid x) eqn:E; [exfalso; apply No; left; eauto|reflexivity]).
    destruct (TwiceProofs.announces_dec (mkSfOption sid None) p) as [A|A]; cbn [sfo_sid] in A.
    + destruct (during_pass _ _ _ _ _ _ _ F N Z1 M1 (announces_latest _ _ _ Z Hh A) Wr) as (b & c & -> & B & C & Fi & X).
      exists [], (p :: b), c. split; [reflexivity|]. split; [split; [intros x []|]; split; [exact A|]; split; [intros x [<-|Ix]; auto|exact C]|]. split; [|exact X].
      destruct A as (P & _). inversion D as [| | |t q0 ? ? ? P0| | |? ? ? P0]; subst; [|contradiction].
      cbn [filter]. assert (E1 : info p = false) by (unfold info; rewrite P0; reflexivity). rewrite E1. exact Fi.
    + exfalso. assert (U1 : unlisted h1).
      { apply (unlisted_kept h p h1 Z L Hh A Wp). intros P t It.
        pose proof (Pf [] p ps t eq_refl (or_introl P) It) as G.
        destruct (a_cat (p_pid p, tb_body t)) eqn:E1; [destruct G as [x [[] _]]; left; discriminate|].
        destruct (service_pmt sid (p_pid p, tb_body t)) eqn:E2; [destruct G as [x [[] _]]; right; discriminate|]. auto. }
      assert (Wa : wanted sid h1 (p_pid p)) by (inversion D; assumption). destruct U1 as (U1 & U2 & U3).
      destruct Wa as [(t & x & Y & _)|[(m & Y & _)|(m & Y & _)]]; congruence.
  - discriminate K.
  - discriminate K.
  - exists [], [], (p :: ps). split; [reflexivity|].
    assert (O : over sid None h1) by (inversion D; assumption). destruct O as [O|(x & t & l & _ & _ & O & _)]; [|discriminate].
    split; [split; [intros x []|split; [exact I|split; [intros x []|]]]; apply (denies_missing _ _ _ Z M Hh); exact O|].
    split; [reflexivity|]. split; [discriminate|intros _; exact O].
  - exfalso. exact (N f eq_refl).
Qed.
End Passing.

(** * Bytes *)
Lemma packets_synced : forall bs ps, packets_of bs ps -> Forall (fun p => zlen p = 188 /\ sync_at p 0) ps.
Proof.
  induction 1 as [|p rest ps Hl Hs Hp IH|bs i p rest ps Hb Hn Hi Hs Hf Hd Hl Hp IH| |]; constructor; auto.
  split; [exact Hl|]. destruct Hs as (Hs & _). unfold sync_at in *.
  assert (E : znth i bs = znth 0 (zdrop i bs)) by (rewrite znth_zdrop by lia; f_equal; lia).
  rewrite E, Hd in Hs. rewrite znth_app_l in Hs by lia. exact Hs.
Qed.

Lemma views_split : forall P (view : list (list Z) -> list Z -> P) a b h, views view h (a ++ b) = views view h a ++ views view (rev a ++ h) b.
Proof.
  induction a as [|x a IH]; intros b h; cbn [app views rev]; [reflexivity|]. rewrite IH, <- app_assoc. reflexivity.
Qed.

Lemma views_cut : forall P (view : list (list Z) -> list Z -> P) x y bs h, views view h bs = x ++ y ->
  exists a b, bs = a ++ b /\ x = views view h a /\ y = views view (rev a ++ h) b.
Proof.
  induction x as [|p x IH]; intros y bs h E; cbn [app] in E.
  - exists [], bs. cbn. auto.
  - destruct bs as [|b bs]; [discriminate|]. cbn [views] in E. injection E as E1 E2. destruct (IH _ _ _ E2) as (a & c & -> & -> & ->).
    exists (b :: a), c. cbn [app views rev]. rewrite <- E1, <- app_assoc. auto.
Qed.

Lemma filter_agree : forall (f : list Z -> bool) (own : Z -> Prop), (forall b, f b = true <-> own (pid_bytes b)) ->
  forall bs cs, filter f bs = filter f cs -> agree pid_bytes own bs cs.
Proof.
  intros f own Hf. induction bs as [|b bs IH]; intros cs E.
  - induction cs as [|c cs IHc]; [constructor|]. cbn [filter] in E. destruct (f c) eqn:Fc; [discriminate|].
    apply agree_right; [rewrite <- Hf, Fc; discriminate|]. auto.
  - cbn [filter] in E. destruct (f b) eqn:Fb; [|apply agree_left; [rewrite <- Hf, Fb; discriminate|auto]].
    induction cs as [|c cs IHc]; [discriminate|]. cbn [filter] in E. destruct (f c) eqn:Fc.
    + injection E as <- E. apply agree_both; [apply Hf; exact Fb|auto].
    + apply agree_right; [rewrite <- Hf, Fc; discriminate|auto].
Qed.

Definition info_bytes (b : list Z) : bool := zmem (pid_bytes b) info_pids.

Lemma views_filter : forall view bytes bs h, faithful view bytes -> Forall ts_packet bs -> map bytes (filter info (views view h bs)) = filter info_bytes bs.
Proof.
  intros view bytes bs h (F1 & F2 & _) T. revert h. induction T as [|b bs Tb T IH]; intros h; cbn [views filter map]; [reflexivity|].
  unfold info at 1, info_bytes at 1. rewrite (F2 h b Tb). destruct (zmem _ _); cbn [map]; rewrite IH; [rewrite (F1 h b Tb)|]; reflexivity.
Qed.

Lemma sent_filter : forall view bytes sid bs h mid, faithful view bytes -> true_pats bytes -> Forall ts_packet bs -> Forall (fun b => zlen b = 188 /\ sync_at b 0) bs ->
  thinned sid (views view h bs) mid ->
  map bytes (filter info mid) = filter info_bytes (map bytes mid) /\ Forall ts_packet (map bytes mid) /\ Forall (fun b => zlen b = 188 /\ sync_at b 0) (map bytes mid).
Proof.
  intros view bytes sid bs h mid F Tp. revert h mid. induction bs as [|b bs IH]; intros h mid T Sy H; cbn [views] in H.
  - inversion H; subst. cbn. auto.
  - inversion T as [|? ? Tb T']; subst. inversion Sy as [|? ? Sb Sy']; subst. inversion H as [|? ? ? H'|? q ? out Sf H']; subst.
    + cbn. auto.
    + exact (IH _ _ T' Sy' H').
    + destruct (IH _ _ T' Sy' H') as (I1 & I2 & I3). cbn [map filter]. destruct F as (F1 & F2 & F3).
      assert (X : p_pid q = pid_bytes (bytes q) /\ ts_packet (bytes q) /\ sync_at (bytes q) 0).
      { destruct Sf as [[_ ->]|(_ & t & r & -> & _)].
        - rewrite (F1 h b Tb), (F2 h b Tb). split; [reflexivity|]. split; [exact Tb|apply Sb].
        - destruct (Tp (view h b) t) as (X1 & X2 & X3). rewrite X3. split; [reflexivity|]. split; [split; [apply F3|exact X1]|exact X2]. }
      destruct X as (X1 & X2 & X3). unfold info at 1, info_bytes at 1. rewrite <- X1.
      split; [destruct (zmem _ _); cbn [map]; rewrite I1; reflexivity|]. split; constructor; auto.
Qed.

(** * The commands *)
Section Behind.
Variable lib : library.
Hypothesis faith : faithful (li_packet lib) (li_bytes lib).
Hypothesis pats : true_pats (li_bytes lib).
Hypothesis apart : keeps_apart lib.
Variable sid : Z.
Notation id := (sid mod 2 ^ 16).
Variables (sys1 : system) (bs : list (list Z)) (n1 : nat) (e1 : ended).
Hypothesis input : has_input sys1 bs n1.
Hypothesis are_bytes : Forall is_byte (input_bytes sys1).
Hypothesis writes1 : Forall no_error (sy_writes sys1).
Hypothesis first : main lib sys1 (FilterService sid) n1 = Some (Ok e1).
Hypothesis placed : well_placed id (views (li_packet lib) [] bs).
Hypothesis pat1st : pat_first id (views (li_packet lib) [] bs).

Lemma behind_sent : exists mid e h, filtered id None 0 anything [] tt (views (li_packet lib) [] bs) mid e h tt /\
  (forall f, e <> FilterSpec.Crashed f) /\ exit_code id h 0 (en_code e1) /\ en_stdout e1 = concat (map (li_bytes lib) mid).
Proof.
  destruct (input_the _ _ _ input) as (R & Pk & L).
  destruct (filter_service_exact (li_packet lib) (li_bytes lib) (proj2 (proj2 faith)) sid (the_reads sys1) bs (sy_writes sys1) n1 R Pk writes1 L) as (mid & e & h & F & M).
  exists mid, e, h. split; [exact F|]. unfold main in first.
  assert (X : (forall f, e <> FilterSpec.Crashed f) /\ exists code seen s w, filter_service_main (li_packet lib) (li_bytes lib) sid (the_reads sys1) (sy_writes sys1) n1 = Some (Ok (code, (seen, (s, w)))) /\
      exit_code id h 0 code /\ so_out w = concat (map (li_bytes lib) mid)).
  { destruct e as [| | |f]; try (split; [discriminate|exact M]). rewrite M in first. discriminate first. }
  destruct X as (N & code & seen & s & w & E & X & O). split; [exact N|]. rewrite E in first. cbn in first. injection first as <-. auto.
Qed.

Lemma behind_info : exists a b c out, bs = a ++ b ++ c /\
  on_air id (views (li_packet lib) [] a) (views (li_packet lib) (rev a) b) (views (li_packet lib) (rev b ++ rev a) c) /\
  (en_code e1 = 0 /\ c = [] \/ en_code e1 = 1 /\ c <> []) /\
  packets_of (en_stdout e1) out /\ Forall is_byte (en_stdout e1) /\ agree pid_bytes (fun pid => In pid info_pids) b out.
Proof.
  destruct behind_sent as (mid & e & h & F & N & X & O).
  assert (Ts : Forall ts_packet bs) by (destruct input as (_ & Pk & _); exact (packets_are _ _ Pk are_bytes)).
  assert (Sy : Forall (fun b => zlen b = 188 /\ sync_at b 0) bs) by (destruct input as (_ & Pk & _); exact (packets_synced _ _ Pk)).
  destruct (pass id [] _ mid e h tt tt F N) as (pa & pb & pc & E & On & Fi & Ms); auto.
  - intros x t q [].
  - intros x [].
  - split; [reflexivity|]. split; reflexivity.
  - destruct (views_cut _ _ _ _ _ _ E) as (a & r & -> & -> & E2). destruct (views_cut _ _ _ _ _ _ (eq_sym E2)) as (b & c & -> & -> & ->).
    rewrite app_nil_r in *. destruct (sent_filter _ _ _ _ _ _ faith pats Ts Sy (filtered_thinned _ _ _ _ _ _ _ _ _ _ _ F)) as (S1 & S2 & S3).
    exists a, b, c, (map (li_bytes lib) mid). split; [reflexivity|]. split; [exact On|].
    split; [|split; [|split]].
    + assert (Y : c <> [] <-> views (li_packet lib) (rev b ++ rev a) c <> []) by (destruct c; cbn [views]; split; congruence).
      destruct X as [(_ & Mx & ->)|(Nx & ->)].
      * right. split; [reflexivity|]. apply Y. apply Ms. exact Mx.
      * left. split; [reflexivity|]. destruct c as [|x c]; [reflexivity|]. exfalso. apply Nx. split; [reflexivity|]. apply Ms. apply Y. discriminate.
    + rewrite O, <- (app_nil_r (concat _)). apply aligned; [exact S3|rewrite zlen_nil; lia].
    + rewrite O. apply Forall_concat. apply Forall_forall. intros x Ix. rewrite Forall_forall in S2. apply (S2 x Ix).
    + apply (filter_agree info_bytes); [intros x; apply zmem_In|]. rewrite <- S1, Fi. apply Forall_app in Ts as [_ Ts]. apply Forall_app in Ts as [Ts _].
      symmetry. apply views_filter; auto.
Qed.

Lemma agree_less : forall own own' : Z -> Prop, (forall pid, own' pid -> own pid) -> (forall pid, own' pid \/ ~ own' pid) ->
  forall xs ys : list (list Z), agree pid_bytes own xs ys -> agree pid_bytes own' xs ys.
Proof.
  intros own own' Sub Dec xs ys A. induction A as [|p ps qs O A IH|p ps qs O A IH|q ps qs O A IH].
  - constructor.
  - destruct (Dec (pid_bytes p)) as [D|D]; [apply agree_both; auto|]. apply agree_left; [exact D|]. apply agree_right; [exact D|exact IH].
  - apply agree_left; auto.
  - apply agree_right; auto.
Qed.

Lemma report_end : forall S (r r' : option (res (Z * (list (list Z) * S)))) out, same_end r r' -> report r out (fun _ => []) = report r' out (fun _ => []).
Proof.
  intros S r r' out H. unfold same_end in H. destruct r as [[[c [h x]]|f]|]; [|subst; reflexivity|destruct H]. destruct H as (h' & ->). reflexivity.
Qed.

Lemma same_events : forall c sys n sys2 n2 b out, reads_events c -> has_input sys b n -> Forall is_byte (input_bytes sys) -> has_input sys2 out n2 ->
  Forall is_byte (input_bytes sys2) -> sy_flushes sys2 = sy_flushes sys -> agree pid_bytes (fun pid => pid = 0x12 \/ pid = 0x14) b out ->
  main lib sys c n = main lib sys2 c n2.
Proof.
  intros c sys n sys2 n2 b out H I B I2 B2 Fl A. destruct apart as (V1 & V2 & V3 & S2 & S3).
  destruct (input_the _ _ _ I) as (R & P & L), (input_the _ _ _ I2) as (R2 & P2 & L2).
  rewrite <- (input_read sys) in B. rewrite <- (input_read sys2) in B2.
  assert (Two : two_files (fun pid => pid = 0x12 \/ pid = 0x14) (the_reads sys) (the_reads sys2) b out) by (repeat (split; [assumption|]); exact A).
  assert (One : two_files (fun pid => pid = 0x12) (the_reads sys) (the_reads sys2) b out).
  { repeat (split; [assumption|]). apply (agree_less (fun pid => pid = 0x12 \/ pid = 0x14)); [auto|intros pid; lia|exact A]. }
  destruct c; cbn [reads_events] in H; try contradiction; unfold main, report_jsonl; rewrite Fl; apply report_end.
  - apply (eits_idle _ _ _ _ _ _ _ _ _ _ b out); auto.
  - destruct H as (ns & G & H). apply (eitpfs_idle _ _ _ ns _ _ _ _ _ b out); auto.
  - apply (metadata_idle _ _ _ _ b out); auto. apply faith.
  - apply (airtime_idle _ _ _ _ _ b out); auto. apply faith.
Qed.

Lemma behind_events : exists a b c, bs = a ++ b ++ c /\
  on_air id (views (li_packet lib) [] a) (views (li_packet lib) (rev a) b) (views (li_packet lib) (rev b ++ rev a) c) /\
  (en_code e1 = 0 /\ c = [] \/ en_code e1 = 1 /\ c <> []) /\
  forall cmd sys n sys2 n2, reads_events cmd -> has_input sys b n -> Forall is_byte (input_bytes sys) -> reads_from sys2 (en_stdout e1) n2 ->
    sy_flushes sys2 = sy_flushes sys -> main lib sys cmd n = main lib sys2 cmd n2.
Proof.
  destruct behind_info as (a & b & c & out & E & On & Cd & Pk & By & A). exists a, b, c. split; [exact E|]. split; [exact On|]. split; [exact Cd|].
  intros cmd sys n sys2 n2 H I B (R2 & I2 & L2) Fl. apply (same_events cmd sys n sys2 n2 b out); auto.
  - split; [exact R2|]. rewrite I2. auto.
  - rewrite I2. exact By.
  - apply (agree_less (fun pid => In pid info_pids)); [|intros pid; lia|exact A]. unfold info_pids. intros pid [->| ->]; cbn; auto 10.
Qed.

Lemma behind_whole : en_code e1 = 0 ->
  (forall pre x post, bs = pre ++ x :: post -> pid_bytes x = 0x12 \/ pid_bytes x = 0x14 -> exists p, In p (views (li_packet lib) [] pre) /\ announces id p) ->
  forall cmd sys n sys2 n2, reads_events cmd -> has_input sys bs n -> Forall is_byte (input_bytes sys) -> reads_from sys2 (en_stdout e1) n2 ->
    sy_flushes sys2 = sy_flushes sys -> main lib sys cmd n = main lib sys2 cmd n2.
Proof.
  intros Z0 Fi. destruct behind_info as (a & b & c & out & E & (On & _) & Cd & Pk & By & A).
  assert (c = []) as -> by (destruct Cd as [[_ C]|[C _]]; [exact C|congruence]). rewrite app_nil_r in E.
  intros cmd sys n sys2 n2 H I B (R2 & I2 & L2) Fl. apply (same_events cmd sys n sys2 n2 bs out); auto.
  - split; [exact R2|]. rewrite I2. auto.
  - rewrite I2. exact By.
  - rewrite E. assert (Sk : forall x, In x a -> ~ (pid_bytes x = 0x12 \/ pid_bytes x = 0x14)).
    { intros x Ix P. apply in_split in Ix as (pre & post & Ea). destruct (Fi pre x (post ++ b)) as (p & Ip & Ap).
      - rewrite E, Ea, <- app_assoc. reflexivity.
      - exact P.
      - apply (proj1 (On p ltac:(rewrite Ea, views_split; apply in_app_iff; auto))). exact Ap. }
    clear E On. induction a as [|x a IH]; cbn [app].
    + apply (agree_less (fun pid => In pid info_pids)); [|intros pid; lia|exact A]. unfold info_pids. intros pid [->| ->]; cbn; auto 10.
    + apply agree_left; [apply Sk; left; reflexivity|]. apply IH. intros y Iy. apply Sk. right. exact Iy.
Qed.

End Behind.
