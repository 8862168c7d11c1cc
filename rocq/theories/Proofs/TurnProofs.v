(** Two programs, one after the other. *)
From Coq Require Import ZArith Lia List Bool.
From Verif Require Import Base.Outcome Base.Util Model.Sink Model.Ts Model.ProgramFilter Spec.ProgramSpec Spec.OnAirSpec.
Import ListNotations.
Open Scope Z_scope.

(** Two ways to cut a list: the one is not behind the other. *)
Lemma cut_order : forall A (a b c d : list A), a ++ b = c ++ d -> (exists r, c = a ++ r /\ b = r ++ d) \/ (exists y r, a = c ++ y :: r /\ d = y :: r ++ b).
Proof.
  intros A a. induction a as [|x a IH]; intros b c d E.
  - left. exists c. auto.
  - destruct c as [|y c]; cbn in E.
    + right. exists x, a. subst. auto.
    + injection E as <- E. destruct (IH _ _ _ E) as [(r & -> & ->)|(z & r & -> & ->)]; [left; exists r; auto|right; exists z, r; auto].
Qed.

Section Turn.
Variable stage : nat.
Variable oa ob : program_filter_option.
Variable mpid : Z.
Variable m mb : pmt.
Variable ea eb : event.
Variable K : Z.
Hypothesis Pid : pfo_clock_pid oa = pfo_clock_pid ob.
Variable prea mida posta preb midb postb : list (packet * Z).
Variable xa xb : packet * Z.
Hypothesis Aa : on_air oa stage mpid m ea K prea xa mida posta.
Hypothesis Ab : on_air ob stage mpid mb eb K preb xb midb postb.
Hypothesis Same : prea ++ xa :: mida ++ posta = preb ++ xb :: midb ++ postb.

Lemma same_pcr : forall y, has_pcr oa y <-> has_pcr ob y.
Proof. intros y. unfold has_pcr. rewrite Pid. tauto. Qed.

Lemma turn_lost : start_tick ob eb <= end_tick oa ea -> exists r, prea ++ xa :: mida = preb ++ r.
Proof.
  intros L. assert (S : (prea ++ xa :: mida) ++ posta = preb ++ xb :: midb ++ postb) by (rewrite <- Same, <- app_assoc; reflexivity).
  destruct (cut_order _ _ _ _ _ S) as [(r & E & P)|(y & r & E & _)]; [|eexists; exact E].
  destruct r as [|y r]; [exists []; rewrite E; rewrite !app_nil_r; reflexivity|]. exfalso. cbn in P.
  destruct (oa_after _ _ _ _ _ _ _ _ _ _ Aa y (r ++ xb :: midb ++ postb) P) as (H & T & _).
  apply same_pcr in H. assert (Iy : In y preb) by (rewrite E; apply in_or_app; right; left; reflexivity).
  pose proof (oa_before _ _ _ _ _ _ _ _ _ _ Ab y Iy H). lia.
Qed.

Lemma turn_twice : end_tick oa ea <= start_tick ob eb -> exists r, preb = prea ++ xa :: mida ++ r.
Proof.
  intros L. assert (S : (prea ++ xa :: mida) ++ posta = preb ++ xb :: midb ++ postb) by (rewrite <- Same, <- app_assoc; reflexivity).
  destruct (cut_order _ _ _ _ _ S) as [(r & E & _)|(y & r & E & P)]; [exists r; rewrite E, <- app_assoc; reflexivity|]. exfalso.
  injection P as <- _. destruct (oa_first _ _ _ _ _ _ _ _ _ _ Ab) as (H & T & _). apply same_pcr in H.
  assert (Iy : In xb (prea ++ xa :: mida)) by (rewrite E; apply in_or_app; right; left; reflexivity).
  assert (snd xb < end_tick oa ea); [|lia]. apply in_app_or in Iy as [Iy|Iy].
  - pose proof (oa_before _ _ _ _ _ _ _ _ _ _ Aa xb Iy H). pose proof (oa_order _ _ _ _ _ _ _ _ _ _ Aa). lia.
  - exact (oa_within _ _ _ _ _ _ _ _ _ _ Aa xb Iy H).
Qed.

Lemma turn_exact : start_tick ob eb = end_tick oa ea -> preb = prea ++ xa :: mida /\ posta = xb :: midb ++ postb.
Proof.
  intros E. destruct (turn_lost ltac:(lia)) as [r R]. destruct (turn_twice ltac:(lia)) as [r' R'].
  assert (r = []) as ->.
  { pose proof (f_equal (@length _) R) as L. pose proof (f_equal (@length _) R') as L'.
    rewrite !app_length in L, L'. cbn [length] in L, L'. rewrite ?app_length in L, L'. apply length_zero_iff_nil. lia. }
  rewrite app_nil_r in R. split; [symmetry; exact R|]. rewrite <- R in Same. rewrite <- app_assoc in Same. cbn [app] in Same.
  apply app_inv_head in Same. injection Same as Same. apply app_inv_head in Same. exact Same.
Qed.
End Turn.
