From Coq Require Import ZArith Lia List Bool.
From Verif Require Import Base.Outcome Base.Util Model.Sink Model.Ts Model.ProgramFilter Spec.FeedSpec Spec.FilterSpec Spec.TransSpec Spec.TuneSpec
  Spec.ProgramSpec Spec.ContinuitySpec Proofs.FilterProofs Proofs.FilterMain Proofs.TransProofs Proofs.ProgramMain.
Import ListNotations.
Open Scope Z_scope.

Definition starts {A} (l m : list A) : Prop := exists b, m = l ++ b.
Lemma starts_nil : forall A (m : list A), starts [] m.
Proof. intros A m. exists m. reflexivity. Qed.
Lemma starts_cons : forall A (x : A) l m, starts l m -> starts (x :: l) (x :: m).
Proof. intros A x l m [b ->]. exists b. reflexivity. Qed.
Lemma starts_app : forall A (c l m : list A), starts l m -> starts (c ++ l) (c ++ m).
Proof. intros A c l m [b ->]. exists b. apply app_assoc. Qed.
Lemma starts_stretch : forall A (l m : list A), starts l m -> stretch l m.
Proof. intros A l m [b ->]. exists [], b. reflexivity. Qed.
Lemma stretch_app : forall A (c l m : list A), stretch l m -> stretch l (c ++ m).
Proof. intros A c l m (a & b & ->). exists (c ++ a), b. rewrite <- !app_assoc. reflexivity. Qed.
Lemma stretch_trans : forall A (l m n : list A), stretch l m -> stretch m n -> stretch l n.
Proof. intros A l m n (a & b & ->) (c & d & ->). exists (c ++ a), (b ++ d). rewrite <- !app_assoc. reflexivity. Qed.

Lemma on_cons : forall pid p ps, on pid (p :: ps) = (if p_pid p =? pid then [p] else []) ++ on pid ps.
Proof. intros. unfold on. cbn. destruct (p_pid p =? pid); reflexivity. Qed.
Lemma on_app : forall pid a b, on pid (a ++ b) = on pid a ++ on pid b.
Proof. intros. unfold on. apply filter_app. Qed.
Lemma on_none : forall pid l, (forall q, In q l -> p_pid q <> pid) -> on pid l = [].
Proof.
  intros pid l. induction l as [|q l IH]; intros N; [reflexivity|]. rewrite on_cons, IH by (intros; apply N; cbn; auto).
  destruct (Z.eqb_spec (p_pid q) pid) as [E|E]; [|reflexivity]. exfalso. apply (N q); cbn; auto.
Qed.

(** * The service filter *)
Lemma heard_tables : forall sid limit stage h p h' ps, heard sid limit stage h p h' ->
  forall x, In x (h' ++ tables stage ps) -> In x (h ++ tables stage (p :: ps)).
Proof.
  intros sid limit stage h p h' ps H x Hx. apply in_app_or in Hx as [Hx|Hx].
  - destruct H as [[_ ->]|[_ ->]].
    + apply in_app_or in Hx as [Hx|Hx]; [|apply in_or_app; auto]. apply in_rev in Hx. apply in_or_app. right.
      cbn. apply in_or_app. auto.
    + apply in_or_app. auto.
  - apply in_or_app. right. cbn. apply in_or_app. auto.
Qed.

Lemma unvarying_sub : forall sid pid l m, unvarying sid pid m -> (forall x, In x l -> In x m) -> unvarying sid pid l.
Proof. intros sid pid l m (A & B & C) S. split; [|split]; intros; eauto. Qed.

(** Once wanted, always wanted. *)
Lemma wanted_stays : forall sid limit stage pid h p h', unvarying sid pid (h ++ tables stage [p]) ->
  heard sid limit stage h p h' -> wanted sid h pid -> wanted sid h' pid.
Proof.
  intros sid limit stage pid h p h' U H W.
  assert (Sub : forall x, In x h' -> In x (h ++ tables stage [p])).
  { intros x Hx. eapply (heard_tables sid limit stage h p h' [] H). apply in_or_app. auto. }
  assert (G : forall x, In x h -> In x h') by (intros x; eapply heard_grows; eauto).
  assert (Sub0 : forall x, In x h -> In x (h ++ tables stage [p])) by (intros; apply in_or_app; auto).
  destruct U as (Up & Uc & Ul).
  destruct W as [(t & q & L & D)|[(m & L & D)|(c & L & D)]].
  - left. destruct (latest (listing sid) h') as [[u r]|] eqn:E.
    + exists u, r. split; [reflexivity|]. destruct D as [D|D]; [auto|]. right.
      apply latest_some_in in L as (x & Hx & Lx). apply latest_some_in in E as (y & Hy & Ly). symmetry. eapply (Ul x y); eauto.
    + exfalso. apply latest_some_in in L as (x & Hx & Lx). rewrite FilterProofs.latest_none in E. rewrite (E x (G x Hx)) in Lx. discriminate.
  - right. left. destruct (latest (service_pmt sid) h') as [m'|] eqn:E.
    + exists m'. split; [reflexivity|]. apply latest_some_in in L as (x & Hx & Lx). apply latest_some_in in E as (y & Hy & Ly).
      apply (Up x y m m'); auto.
    + exfalso. apply latest_some_in in L as (x & Hx & Lx). rewrite FilterProofs.latest_none in E. rewrite (E x (G x Hx)) in Lx. discriminate.
  - right. right. destruct (latest a_cat h') as [c'|] eqn:E.
    + exists c'. split; [reflexivity|]. apply latest_some_in in L as (x & Hx & Lx). apply latest_some_in in E as (y & Hy & Ly).
      apply (Uc x y c c'); auto.
    + exfalso. apply latest_some_in in L as (x & Hx & Lx). rewrite FilterProofs.latest_none in E. rewrite (E x (G x Hx)) in Lx. discriminate.
Qed.

Lemma tables_one : forall stage p ps h x, In x (h ++ tables stage [p]) -> In x (h ++ tables stage (p :: ps)).
Proof.
  intros stage p ps h x Hx. apply in_app_or in Hx as [Hx|Hx]; apply in_or_app; [auto|right].
  cbn in *. rewrite app_nil_r in Hx. apply in_or_app. auto.
Qed.

Lemma send_on : forall sid limit h p q pid, decide sid limit h p (Send q) -> pid <> 0 ->
  on pid [q] = on pid [p] /\ (p_pid p = pid -> wanted sid h pid).
Proof.
  intros sid limit h p q pid D N. inversion D as [| | |t pmt_pid A B W Z L| | |A B W Z0 Zn]; subst.
  - split; [|congruence]. unfold on. cbn [filter gen_pat p_pid]. change PID_PAT with 0. rewrite Z.
    destruct (Z.eqb_spec 0 pid); [congruence|reflexivity].
  - split; [reflexivity|]. intros <-. exact W.
Qed.

Lemma on_tl : forall pid p q ps out, on pid [q] = on pid [p] -> starts (on pid out) (on pid ps) -> starts (on pid (q :: out)) (on pid (p :: ps)).
Proof.
  intros pid p q ps out E S. change (q :: out) with ([q] ++ out). change (p :: ps) with ([p] ++ ps).
  rewrite !on_app, E. apply starts_app. exact S.
Qed.
Lemma on_one : forall pid p q ps, on pid [q] = on pid [p] -> starts (on pid [q]) (on pid (p :: ps)).
Proof. intros pid p q ps E. change (p :: ps) with ([p] ++ ps). rewrite on_app, E. eexists. reflexivity. Qed.

Lemma wanted_prefix : forall sid limit stage k h d ps out e h' d' pid, filtered sid limit stage k h d ps out e h' d' ->
  pid <> 0 -> unvarying sid pid (h ++ tables stage ps) -> wanted sid h pid -> starts (on pid out) (on pid ps).
Proof.
  intros sid limit stage k h d ps out e h' d' pid F N.
  induction F as [h d|h d p h' ps out e he de H D F IH|h d p h' q d' ps out e he de H D K F IH|h d p h' q d' ps H D K|h d p h' q f ps H D K|h d p h' ps H D|h d p h' f ps H D];
    intros U W; try apply starts_nil.
  - assert (W' : wanted sid h' pid) by (eapply wanted_stays; eauto; eapply unvarying_sub; [exact U|apply tables_one]).
    rewrite on_cons. destruct (Z.eqb_spec (p_pid p) pid) as [E|E].
    + exfalso. inversion D; subst; contradiction.
    + apply IH; auto. eapply unvarying_sub; [exact U|]. eapply heard_tables; eauto.
  - assert (W' : wanted sid h' pid) by (eapply wanted_stays; eauto; eapply unvarying_sub; [exact U|apply tables_one]).
    apply on_tl; [apply (send_on _ _ _ _ _ _ D N)|]. apply IH; auto. eapply unvarying_sub; [exact U|]. eapply heard_tables; eauto.
  - apply on_one. apply (send_on _ _ _ _ _ _ D N).
  - apply on_one. apply (send_on _ _ _ _ _ _ D N).
Qed.

Lemma service_stretch : forall sid limit stage k h d ps out e h' d' pid, filtered sid limit stage k h d ps out e h' d' ->
  pid <> 0 -> unvarying sid pid (h ++ tables stage ps) -> stretch (on pid out) (on pid ps).
Proof.
  intros sid limit stage k h d ps out e h' d' pid F N.
  induction F as [h d|h d p h' ps out e he de H D F IH|h d p h' q d' ps out e he de H D K F IH|h d p h' q d' ps H D K|h d p h' q f ps H D K|h d p h' ps H D|h d p h' f ps H D];
    intros U; try (apply starts_stretch; apply starts_nil).
  - rewrite on_cons. apply stretch_app. apply IH. eapply unvarying_sub; [exact U|]. eapply heard_tables; eauto.
  - assert (U' : unvarying sid pid (h' ++ tables stage ps)) by (eapply unvarying_sub; [exact U|]; eapply heard_tables; eauto).
    destruct (send_on _ _ _ _ _ _ D N) as [Eq Wq]. destruct (Z.eq_dec (p_pid p) pid) as [E|E].
    + apply starts_stretch. apply on_tl; [exact Eq|]. eapply wanted_prefix; eauto.
    + assert (E0 : on pid [p] = []) by (apply on_none; intros x [<-|[]]; exact E).
      change (q :: out) with ([q] ++ out). change (p :: ps) with ([p] ++ ps). rewrite !on_app, Eq, E0. apply IH. exact U'.
  - apply starts_stretch. apply on_one. apply (send_on _ _ _ _ _ _ D N).
  - apply starts_stretch. apply on_one. apply (send_on _ _ _ _ _ _ D N).
Qed.

Lemma send_pat : forall sid limit h p q, decide sid limit h p (Send q) -> p_pid q = 0 -> made_pat q.
Proof. intros sid limit h p q D E. inversion D; subst; [eexists; reflexivity|contradiction]. Qed.

Lemma service_pats : forall sid limit stage k h d ps out e h' d', filtered sid limit stage k h d ps out e h' d' -> Forall made_pat (on 0 out).
Proof.
  intros sid limit stage k h d ps out e h' d' F.
  assert (O : forall q out, (p_pid q = 0 -> made_pat q) -> Forall made_pat (on 0 out) -> Forall made_pat (on 0 (q :: out))).
  { intros q l Q Fl. rewrite on_cons. destruct (Z.eqb_spec (p_pid q) 0); cbn; auto. }
  induction F; auto; try constructor; apply O; auto; try constructor; eapply send_pat; eauto.
Qed.
