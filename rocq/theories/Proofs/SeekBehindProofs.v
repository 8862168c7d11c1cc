(** seek-start behind filter-service in a pipe. *)
From Coq Require Import ZArith Lia List Bool.
From Verif Require Import Base.Outcome Base.Util Model.Sink Model.Ts Model.FileSource Model.StdoutSink Model.ServiceFilter Model.StartSeeker Model.Commands Model.Main
  Spec.PcrSpec Spec.SourceSpec Spec.StdoutSpec Spec.TransSpec Spec.FilterSpec Spec.TuneSpec Spec.PipeSpec Spec.TwiceSpec Spec.ProgramSpec Spec.SeekSpec Spec.MainSpec Spec.PipelineSpec
  Spec.BehindSpec Spec.SeekBehindSpec
  Proofs.SourceProofs Proofs.FilterProofs Proofs.FilterMain Proofs.PipeProofs Proofs.WallMain Proofs.MainProofs Proofs.CommandProofs Proofs.BehindProofs.
From Verif Require Proofs.TwiceProofs Proofs.ContinuityMain Proofs.PipeSeek Proofs.SeekProofs Proofs.MainProofs.
Import ListNotations.
Open Scope Z_scope.

(** * What filter-service sends *)
(** Packets of PID 0 are generated, with a PAT that lists the service. *)
Definition opt_of (sid : Z) := mkSfOption sid None.
Lemma sent_pats : forall sid h ps mid e h' d d', filtered sid None 0 anything h d ps mid e h' d' ->
  forall q, In q mid -> (exists p u pid, q = gen_pat p (only_service sid u pid) /\ listing sid (0, TPat (Some u)) = Some (u, pid)) \/ (In q ps /\ p_pid q <> 0).
Proof.
  intros sid h ps mid e h' d d' F. induction F as [h d|h d p h1 ps out e he de Hh D F IH|h d p h1 q d1 ps out e he de Hh D K F IH|h d p h1 q d1 ps Hh D K|h d p h1 q f ps Hh D K|h d p h1 ps Hh D|h d p h1 f ps Hh D];
    intros x Ix; try (destruct Ix; fail); try discriminate K.
  - destruct (IH x Ix) as [A|[A B]]; [left; exact A|right; split; [right; exact A|exact B]].
  - destruct Ix as [<-|Ix].
    + inversion D as [| | |t q0 ? ? ? P0 La| | |? ? ? P0]; subst.
      * left. exists p, t, q0. split; [reflexivity|]. apply latest_some_in in La as (y & _ & Ly).
        destruct (TwiceProofs.listing_inv (opt_of sid) _ _ _ Ly) as (Ey & _). cbn [sfo_sid opt_of] in *. rewrite <- Ey. exact Ly.
      * right. split; [left; reflexivity|assumption].
    + destruct (IH x Ix) as [A|[A B]]; [left; exact A|right; split; [right; exact A|exact B]].
Qed.

(** The first one is such a packet. *)
Lemma sent_first : forall sid h ps mid e h' d d', filtered sid None 0 anything h d ps mid e h' d' ->
  hears_zero sid h -> unlisted sid h -> well_placed sid ps -> pat_first sid ps -> match mid with [] => True | q :: _ => p_pid q = 0 end.
Proof.
  intros sid h ps mid e h' d d' F. induction F as [h d|h d p h1 ps out e he de Hh D F IH|h d p h1 q d1 ps out e he de Hh D K F IH|h d p h1 q d1 ps Hh D K|h d p h1 q f ps Hh D K|h d p h1 ps Hh D|h d p h1 f ps Hh D];
    intros Z L W Pf; try exact I; try discriminate K;
    assert (Wp : well_placed sid [p]) by (intros x t [<-|[]]; apply W; left; reflexivity);
    assert (Wr : well_placed sid ps) by (intros x t Ix; apply W; right; exact Ix);
    assert (Z1 := zero_kept _ _ _ _ Z Hh Wp);
    (assert (U1 : ~ announces sid p -> unlisted sid h1);
     [ intros A; apply (unlisted_kept sid h p h1 Z L Hh A Wp); intros P t It;
       pose proof (Pf [] p ps t eq_refl (or_introl P) It) as G;
       destruct (a_cat (p_pid p, tb_body t)) eqn:E1; [destruct G as [x [[] _]]; left; discriminate|];
       destruct (service_pmt sid (p_pid p, tb_body t)) eqn:E2; [destruct G as [x [[] _]]; right; discriminate|]; auto | ]).
  - destruct (TwiceProofs.announces_dec (opt_of sid) p) as [A|A]; cbn [sfo_sid opt_of] in A.
    + exfalso. inversion D as [| |? ? Nw| | | |]; subst. apply Nw. left.
      destruct (latest (listing sid) h1) as [[t q]|] eqn:El; [|exfalso; exact (announces_latest _ _ _ _ Z Hh A El)]. exists t, q. split; [reflexivity|]. left.
      destruct A as [-> _]. left. reflexivity.
    + apply IH; auto. exact (TwiceProofs.pat_first_tail (opt_of sid) p ps A Pf).
  - destruct (TwiceProofs.announces_dec (opt_of sid) p) as [A|A]; cbn [sfo_sid opt_of] in A.
    + destruct A as [P _]. inversion D; subst; [reflexivity|contradiction].
    + exfalso. destruct (U1 A) as (V1 & V2 & V3). assert (Wa : wanted sid h1 (p_pid p)) by (inversion D; assumption).
      destruct Wa as [(t & x & Y & _)|[(m & Y & _)|(m & Y & _)]]; congruence.
Qed.

(** * The second process *)
Section SeekBehind.
Variable lib : library.
Variable view : list (list Z) -> list Z -> packet.
Hypothesis faith : faithful (li_packet lib) (li_bytes lib).
Hypothesis faith2 : faithful view (li_bytes lib).
Hypothesis pats : true_pats (li_bytes lib).
Variable sid : Z.
Notation id := (sid mod 2 ^ 16).
Variables (sys1 : system) (bs : list (list Z)) (n1 : nat) (e1 : ended).
Hypothesis input : has_input sys1 bs n1.
Hypothesis are_bytes : Forall is_byte (input_bytes sys1).
Hypothesis writes1 : Forall no_error (sy_writes sys1).
Hypothesis first : main lib sys1 (FilterService sid) n1 = Some (Ok e1).
Hypothesis pip : seeks lib view sid bs.

Lemma seen_znth : forall a b, Forall2 seen_as a b -> forall n q, znth n b = Some q -> exists p, znth n a = Some p /\ seen_as p q.
Proof.
  intros a b Fa m x. unfold znth. destruct (m <? 0); [discriminate|]. generalize (Z.to_nat m). clear m. induction Fa as [|y z a b H Fa IH]; intros [|m] Em; try discriminate; cbn in *.
  - injection Em as <-. eauto.
  - eauto.
Qed.
Lemma zero_pats : forall mid e h, filtered id None 0 anything [] tt (views (li_packet lib) [] bs) mid e h tt ->
  forall n q t, znth n (views view [] (map (li_bytes lib) mid)) = Some q -> In t (p_tabs q 0) -> p_pid q = 0 ->
  exists u pid, tb_body t = TPat (Some (only_service id u pid)) /\ listing id (0, TPat (Some u)) = Some (u, pid).
Proof.
  intros mid e h F n q t E It P0. destruct pip as (W & Pf & Pc & V). destruct (V mid e h F) as (Se & St).
  destruct (seen_znth _ _ Se n q E) as (p & Ep & P1 & P2 & P3). assert (Ip : In p mid) by exact (ContinuityMain.znth_In _ _ _ _ Ep).
  assert (Bd : In (tb_body t) (map tb_body (p_tabs p 1))) by (rewrite <- P3; apply in_map; exact It).
  destruct (sent_pats _ _ _ _ _ _ _ _ F p Ip) as [(a & u & pid & -> & Lu)|[_ Nz]]; [|congruence].
  apply in_map_iff in Bd as (t' & <- & It'). cbn [gen_pat p_tabs] in It'. apply repeat_spec in It'. subst t'. exists u, pid. auto.
Qed.

Lemma seen_orderly : forall o mid e h, sso_sid o = id -> filtered id None 0 anything [] tt (views (li_packet lib) [] bs) mid e h tt ->
  orderly o 0 (views view [] (map (li_bytes lib) mid)).
Proof.
  intros o mid e h So F. destruct pip as (W & Pf & Pc & V). destruct (V mid e h F) as (Se & St). clear V. intros n q E.
  destruct (seen_znth _ _ Se n q E) as (p & Ep & P1 & P2 & P3). assert (Ip : In p mid) by (exact (ContinuityMain.znth_In _ _ _ _ Ep)).
  split.
  - intros v Ev. rewrite P2 in Ev. destruct (sent_pats _ _ _ _ _ _ _ _ F p Ip) as [(a & u & pid & -> & _)|[I0 _]]; [discriminate Ev|exact (Pc p v I0 Ev)].
  - intros t It. destruct (St n q t E It) as (B & x & Ex & Px).
    assert (Gp := zero_pats mid e h F n q t E It).
    split; [|split; [exact B|split; [exists x; auto|]]].
    + rewrite So. destruct (missing id (p_pid q, tb_body t)) eqn:M; [|reflexivity]. exfalso. pose proof (missing_zero _ _ M) as P0. cbn [fst] in P0.
      destruct (Gp P0) as (u & pid & Eb & Lu). rewrite P0, Eb in M. destruct (TwiceProofs.only_again (opt_of id) u pid Lu) as [X _]. cbn [sfo_sid opt_of] in X.
      unfold missing in M. unfold listing in X. destruct (usable_pat _); [|discriminate]. destruct (pmt_pid_of _ _); discriminate.
    + intros Sp. destruct (Z.eq_dec (tb_first t) 0) as [Z0|]; [|lia]. exfalso.
      assert (P0 : p_pid x = 0).
      { destruct (seen_znth _ _ Se _ _ Ex) as (y & Ey & Y1 & _). rewrite Z0 in Ey.
        pose proof (sent_first _ _ _ _ _ _ _ _ F) as Hf. destruct mid as [|m mid]; [discriminate Ey|]. injection Ey as <-. rewrite Y1. apply Hf; auto.
        - intros z t0 q0 [].
        - split; [reflexivity|]. split; reflexivity. }
      rewrite P0 in Px. destruct (Gp (eq_sym Px)) as (u & pid & Eb & _). apply Sp. unfold service_pmt. cbn [snd]. rewrite Eb. reflexivity.
Qed.

(** A change has just been heard: on the PID of the packet. *)
Lemma change_here : forall o h l j, (forall j, ~ transition o h j) -> transition o (l ++ h) j ->
  exists x, In x l /\ tb_first (snd x) = j /\ service_pmt (sso_sid o) (fst x, tb_body (snd x)) <> None.
Proof.
  intros o h l j N. induction l as [|x l IH]; cbn [app]; intros T; [exfalso; exact (N j T)|]. inversion T as [y r C|y r j' C T']; subst.
  - exists x. split; [left; reflexivity|]. split; [reflexivity|]. destruct C as (m0 & m & _ & E & _). rewrite E. discriminate.
  - destruct (IH T') as (y & Iy & Y). exists y. split; [right; exact Iy|exact Y].
Qed.

Lemma seen_pid : forall out h i a, Forall ts_packet out -> znth i (views view h out) = Some a -> pid_bytes (li_bytes lib a) = p_pid a.
Proof.
  induction out as [|b out IH]; intros h i a B E; [unfold znth in E; destruct (i <? 0); [discriminate|destruct (Z.to_nat i); discriminate E]|].
    inversion B as [|? ? B1 B2]; subst. unfold znth in E. cbn [views] in E. destruct (i <? 0) eqn:Ei; [discriminate|]. destruct (Z.to_nat i) as [|k] eqn:Ek; cbn [nth_error] in E.
    - injection E as <-. rewrite (proj1 faith2 h b B1), (proj1 (proj2 faith2) h b B1). reflexivity.
    - apply (IH (b :: h) (Z.of_nat k)); [exact B2|]. unfold znth. rewrite (proj2 (Z.ltb_ge _ _)) by lia. rewrite Nat2Z.id. exact E.
Qed.

Lemma seek_behind : forall d p sys2 n2, ~ no_limit d p -> reads_from sys2 (en_stdout e1) n2 -> Forall no_error (sy_writes sys2) ->
  let o := mkSsOption id (match d with Some v => v | None => 0 end) (match p with Some v => v mod 2 ^ 32 | None => 0 end) in
  sane_seek o ->
  exists out e r, packets_of (en_stdout e1) out /\ main (with_packet lib view) sys2 (SeekStart sid d p) n2 = Some (Ok e) /\ en_code e = 0 /\
    seek o 0 [] None 0 (views view [] out) r /\
    match r with
    | Whole _ => en_stdout e = en_stdout e1
    | Cut i j _ => exists a, znth i out = Some a /\ pid_bytes a = 0 /\ 0 < j < zlen out /\ en_stdout e = a ++ concat (zdrop j out)
    end.
Proof.
  intros d p sys2 n2 Nl (R2 & I2 & L2) W2 o Sa.
  destruct (behind_sent lib faith sid sys1 bs n1 e1 input writes1 first) as (mid & e & h & F & N & X & O).
  assert (Ts : Forall ts_packet bs) by (destruct input as (_ & Pk & _); exact (packets_are _ _ Pk are_bytes)).
  assert (Sy : Forall (fun b => zlen b = 188 /\ sync_at b 0) bs) by (destruct input as (_ & Pk & _); exact (packets_synced _ _ Pk)).
  destruct (sent_filter _ _ _ _ _ _ faith pats Ts Sy (filtered_thinned _ _ _ _ _ _ _ _ _ _ _ F)) as (S1 & S2 & S3).
  assert (Pk : packets_of (en_stdout e1) (map (li_bytes lib) mid)) by (rewrite O, <- (app_nil_r (concat _)); apply aligned; [exact S3|rewrite zlen_nil; lia]).
  assert (In2 : has_input sys2 (map (li_bytes lib) mid) n2) by (split; [exact R2|]; rewrite I2; split; [exact Pk|exact L2]).
  destruct (input_the _ _ _ In2) as (R2' & Pk2 & L2').
  assert (Bt : Forall ts_packet (map (li_bytes lib) mid)) by exact S2.
  pose proof (seen_orderly o mid e h eq_refl F) as Or.
  destruct (PipeSeek.seek_start_exact view (li_bytes lib) (proj2 (proj2 faith2)) o (the_reads sys2) _ (sy_writes sys2) n2 R2' Pk2 W2 L2' Or Sa) as (r & seen & s & w & K & M & Q).
  assert (Y : ss_LoadOption sid d p = Some o).
  { destruct (ss_LoadOption sid d p) eqn:Y; [|apply MainProofs.load_none in Y; contradiction]. rewrite <- Y. unfold ss_LoadOption in *. fold o in Y |- *.
    destruct (_ && _)%bool; [discriminate|reflexivity]. }
  exists (map (li_bytes lib) mid). eexists. exists r. split; [exact Pk|]. unfold main. rewrite Y. cbn [with_packet li_packet li_bytes].
  match goal with |- context [report ?a _ _] => replace a with (Some (Ok (0, (seen, (s, w))))) by (symmetry; exact M) end.
  split; [apply report_ok; reflexivity|]. split; [reflexivity|]. split; [exact K|]. cbn [en_stdout].
  pose proof (PipeSeek.views_bytes view (li_bytes lib) (proj1 faith2) (map (li_bytes lib) mid) [] Bt) as Vb.
  cbn [snd]. rewrite Q. destruct r as [m|i j m]; cbn [seek_output]; [rewrite Vb, O; reflexivity|].
  set (out := map (li_bytes lib) mid) in *.
  destruct (SeekProofs.seek_shape o 0 _ i j m Or K) as (pk & ts & ha & Nm & Hr & Nh & T & Bj & Bi & q & Eq & Pa).
  assert (Lb : zlen (views view [] out) = zlen out) by (unfold zlen; rewrite views_length; reflexivity).
  destruct (znth_range _ _ _ _ Nm) as [_ Lm].
  assert (Pq : p_pid q <> 0).
  { destruct (change_here o ha _ j Nh T) as (x & Ix & Fx & Px). apply in_rev in Ix. apply in_map_iff in Ix as (t & <- & It). cbn [fst snd] in *.
    assert (It' : In t (p_tabs pk 0)) by (destruct Hr as [[_ ->]|[_ ->]]; [exact It|destruct It]).
    destruct (Or _ _ Nm) as [_ Ot]. destruct (Ot t It') as (_ & _ & (q' & Eq' & Pq') & _). rewrite Fx, Eq in Eq'. injection Eq' as <-. rewrite Pq'. intros P0.
    destruct (zero_pats mid e h F _ pk t Nm It' P0) as (u & pid & Eb & _). apply Px. unfold service_pmt. cbn [snd]. rewrite Eb. reflexivity. }
  destruct (Pa Pq) as (a & Ea & P0).
  assert (Eb : znth i out = Some (li_bytes lib a)) by (rewrite <- Vb, PipeSeek.map_znth, Ea; reflexivity).
  exists (li_bytes lib a). split; [exact Eb|]. split; [|split; [lia|rewrite Ea, map_app, concat_app; cbn [map concat]; rewrite app_nil_r, <- PipeSeek.map_zdrop, Vb; reflexivity]].
  assert (Ia : In (li_bytes lib a) out) by exact (ContinuityMain.znth_In _ _ _ _ Eb).
  rewrite <- P0. exact (seen_pid out [] i a Bt Ea).
Qed.
End SeekBehind.
