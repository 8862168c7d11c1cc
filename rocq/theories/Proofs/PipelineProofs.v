(** A service filter, a pipe, and a command that starts with a service filter. *)
From Coq Require Import ZArith Lia List Bool.
From Verif Require Import Base.Outcome Base.Util Model.Sink Model.Ts Model.FileSource Model.StdoutSink Model.ServiceFilter Model.ServiceRecorder Model.Commands
  Spec.SourceSpec Spec.StdoutSpec Spec.TransSpec Spec.FilterSpec Spec.PipeSpec Spec.TwiceSpec Spec.PipelineSpec
  Proofs.SourceProofs Proofs.FilterProofs Proofs.FilterMain Proofs.PipeProofs Proofs.TwiceProofs Proofs.WallMain.
From Verif Require Model.ProgramFilter.
Import ListNotations.
Open Scope Z_scope.

(** ** Sinks that do the same with a packet and with what becomes of it *)
Definition simr {A B} (R : A -> B -> Prop) (x : res (A * bool)) (y : res (B * bool)) : Prop :=
  match x, y with Ok (a, b), Ok (a', b') => b = b' /\ R a a' | Fail f, Fail g => f = g | _, _ => False end.
Definition sime {A B} (R : A -> B -> Prop) (x : res (Z * A)) (y : res (Z * B)) : Prop :=
  match x, y with Ok (c, a), Ok (c', a') => c = c' /\ R a a' | Fail f, Fail g => f = g | _, _ => False end.
Definition echoes (k1 k2 : sink packet) (R : sk_state k1 -> sk_state k2 -> Prop) : Prop :=
  forall d e p, R d e -> simr R (sk_handle k1 d p) (sk_handle k2 e (again p)).

Lemma echo_hand : forall k1 k2 R, echoes k1 k2 R -> forall ps d e, R d e -> simr R (snd (hand k1 d ps)) (snd (hand k2 e (map again ps))).
Proof.
  intros k1 k2 R H. induction ps as [|p ps IH]; intros d e Rd; cbn [hand map]; [cbn; auto|].
  pose proof (H d e p Rd) as X. destruct (sk_handle k1 d p) as [[d1 b]|f], (sk_handle k2 e (again p)) as [[e1 b']|f']; cbn in X; try contradiction; [|cbn; exact X].
  destruct X as [<- X]. destruct b; [|cbn; auto]. specialize (IH d1 e1 X).
  destruct (hand k1 d1 ps), (hand k2 e1 (map again ps)). exact IH.
Qed.

(** ** The service filter *)
Lemma again_gen : forall p t, gen_pat (again p) t = again (gen_pat p t).
Proof. reflexivity. Qed.

Lemma echo_filter : forall opt k1 k2 R, echoes k1 k2 R ->
  echoes (service_filter 1 opt k1) (service_filter 0 opt k2) (fun x y => fst y = fst x /\ R (snd x) (snd y)).
Proof.
  intros opt k1 k2 R H [s d] [s' e] p [E Rd]. cbn [fst snd] in *. subst s'. cbn [service_filter sk_handle sk_state]. unfold sf_HandlePacket.
  change (p_pid (again p)) with (p_pid p). change (demux_feed (sf_demux s) 0 (again p)) with (demux_feed (sf_demux s) 1 p).
  destruct (handle_tables (sf_handleTable opt) s (p_pid p) (demux_feed (sf_demux s) 1 p)) as [s1|f]; cbn [bind]; [|reflexivity].
  destruct (sf_done s1); [cbn; auto|]. destruct (sf_CheckFilterForDrop s1 (p_pid p)); [cbn; auto|].
  assert (X : forall q, simr (fun (x : sf_state * sk_state k1) (y : sf_state * sk_state k2) => fst y = fst x /\ R (snd x) (snd y))
    (let* (d1, ok) := sk_handle k1 d q in Ok ((s1, d1), ok)) (let* (d1, ok) := sk_handle k2 e (again q) in Ok ((s1, d1), ok))).
  { intros q. pose proof (H d e q Rd) as X. destruct (sk_handle k1 d q) as [[d1 b]|f], (sk_handle k2 e (again q)) as [[e1 b']|f']; cbn in X; try contradiction; cbn [bind]; [|exact X].
    destruct X as [<- X]. cbn. auto. }
  destruct (p_pid p =? PID_PAT).
  - destruct (sf_pat s1) as [t|]; [|reflexivity]. rewrite again_gen. apply X.
  - unfold assert. destruct (negb _); [|reflexivity]. apply X.
Qed.

(** ** What gets through *)
Lemma keeping_echo : echoes keeping keeping (fun d e => e = map again d).
Proof. intros d e p ->. cbn. split; [reflexivity|]. rewrite map_app. reflexivity. Qed.

Lemma keeping_count : forall stage opt ps s d s' d' b, snd (hand (service_filter stage opt keeping) (s, d) ps) = Ok ((s', d'), b) ->
  (List.length d' <= List.length d + List.length ps)%nat /\ (b = false -> (List.length d' < List.length d + List.length ps)%nat).
Proof.
  intros stage opt. induction ps as [|p ps IH]; intros s d s' d' b E; cbn [hand] in E; [injection E as <- <- <-; split; [cbn; lia|discriminate]|].
  change (sk_handle (service_filter stage opt keeping) (s, d) p) with (sf_HandlePacket stage opt keeping (s, d) p) in E.
  assert (X : match sf_HandlePacket stage opt keeping (s, d) p with Ok ((_, d1), b1) => (List.length d1 <= List.length d + 1)%nat /\ (b1 = false -> d1 = d) | Fail _ => True end).
  { unfold sf_HandlePacket. destruct (handle_tables _ _ _ _) as [s1|f]; cbn [bind]; [|exact Logic.I]. destruct (sf_done s1); [split; [lia|auto]|].
    destruct (sf_CheckFilterForDrop _ _); [split; [lia|discriminate]|]. destruct (_ =? _).
    - destruct (sf_pat s1); [|exact Logic.I]. cbn. rewrite app_length. cbn. split; [lia|discriminate].
    - unfold assert. destruct (negb _); [|exact Logic.I]. cbn. rewrite app_length. cbn. split; [lia|discriminate]. }
  destruct (sf_HandlePacket stage opt keeping (s, d) p) as [[[s1 d1] [|]]|f]; cbn [snd] in E.
  - specialize (IH s1 d1). destruct (hand (service_filter stage opt keeping) (s1, d1) ps) as [o r]. cbn [snd] in *. rewrite E in IH.
    destruct (IH _ _ _ eq_refl) as [A B]. cbn [List.length]. split; [lia|]. intros Y. specialize (B Y). lia.
  - injection E as <- <- <-. destruct X as [_ X]. rewrite (X eq_refl). cbn [List.length]. split; intros; lia.
  - discriminate.
Qed.

Section Pipe.
Variable opt : service_filter_option.
Notation sid := (sfo_sid opt).
Notation limit := (sfo_time_limit opt).
Variables (ps mid : list packet) (e : FilterSpec.ending) (h : history).
Hypothesis placed : well_placed sid ps.
Hypothesis heard : hears_again sid ps.
Hypothesis order : pat_first sid ps.
Hypothesis fil : filtered sid limit 0 anything [] tt ps mid e h tt.
Hypothesis well : forall f, e <> FilterSpec.Crashed f.

Lemma twice_fed : forall k n d d1 code s x, (List.length ps < n)%nat -> sk_start k d = Ok (d1, true) ->
  FeedPackets (list_source packet) (service_filter 0 opt k) n ps (sf_init opt, d) = Some (Ok (code, (s, x))) ->
  exists b, sf_error b = false /\
    FeedPackets (list_source packet) (service_filter 0 opt (service_filter 1 opt k)) n ps (sf_init opt, (sf_init opt, d)) = Some (Ok (code, (s, (b, x)))).
Proof.
  intros k n d d1 code s x L S A.
  rewrite (feed_hand _ (service_filter 0 opt k) ps n (sf_init opt, d) (sf_init opt, d1) L) in A by (cbn; rewrite S; reflexivity).
  rewrite (feed_hand _ (service_filter 0 opt (service_filter 1 opt k)) ps n (sf_init opt, (sf_init opt, d)) (sf_init opt, (sf_init opt, d1)) L) by (cbn; rewrite S; reflexivity).
  pose proof (twice_hand opt k ps (sf_init opt) (sf_init opt) d1 ltac:(unfold same; auto 7) (shaped_init opt) (shaped_init opt) eq_refl eq_refl placed heard (or_intror order)) as T.
  destruct (snd (hand (service_filter 0 opt k) (sf_init opt, d1) ps)) as [[[a' d'] ok]|f]; [|discriminate A].
  destruct T as (b' & T & Er). exists b'. split; [exact Er|]. rewrite T. clear T. injection A as A.
  unfold finish in *. cbn [service_filter sk_end sk_exit fst snd] in *. destruct (sk_end k d') as [d2|f]; cbn [bind fst snd] in *; [|discriminate].
  unfold sf_GetExitCode in *. cbn [service_filter sk_exit fst snd] in *. unfold sf_GetExitCode. cbn [fst snd]. destruct (sk_exit k d2) as [c|f]; cbn [bind] in *; [|discriminate].
  rewrite Er. replace (if c =? EXIT_SUCCESS then c else c) with c by (destruct (c =? EXIT_SUCCESS); reflexivity).
  injection A as <- <- <-. reflexivity.
Qed.

Lemma second_hand : exists s, sf_error s = false /\ snd (hand (service_filter 1 opt keeping) (sf_init opt, []) mid) = Ok ((s, mid), true).
Proof.
  set (n := S (List.length ps)). assert (L : (List.length ps < n)%nat) by (unfold n; lia).
  pose proof (filter_around 0 opt keeping ps n [] [] mid e h L eq_refl fil) as A. cbv zeta in A. rewrite keeping_hand in A. cbn [app] in A.
  assert (A1 : exists s code, FeedPackets (list_source packet) (service_filter 0 opt keeping) n ps (sf_init opt, []) = Some (Ok (code, (s, mid)))).
  { destruct e as [| | |f]; try (destruct A as (s & code & _ & A); exists s, code; exact A). destruct (well f eq_refl). }
  clear A. destruct A1 as (s0 & code & A). destruct (twice_fed keeping n [] [] code s0 mid L eq_refl A) as (b & Er & T). clear A.
  pose proof (filter_around 0 opt (service_filter 1 opt keeping) ps n (sf_init opt, []) (sf_init opt, []) mid e h L eq_refl fil) as B. cbv zeta in B.
  pose proof (keeping_count 1 opt mid (sf_init opt) []) as C.
  destruct (snd (hand (service_filter 1 opt keeping) (sf_init opt, []) mid)) as [[[s2 d2] b2]|f] eqn:Eh; [|pose proof (eq_trans (eq_sym T) B) as W; discriminate W].
  specialize (C s2 d2 b2 Eh). cbn [List.length Nat.add] in C.
  assert (X : s2 = b /\ d2 = mid).
  { destruct b2.
    - destruct e as [| | |f]; try (destruct B as (s & code' & _ & B); pose proof (eq_trans (eq_sym T) B) as W; cbn in W; injection W as _ _ <- <-; auto). destruct (well f eq_refl).
    - destruct B as (s & B). pose proof (eq_trans (eq_sym T) B) as W. cbn in W. injection W as _ _ <- <-. auto. }
  destruct X as [-> ->]. destruct b2; [exists b; split; [exact Er|reflexivity]|]. destruct C as [_ C]. specialize (C eq_refl). lia.
Qed.

Lemma fed_handed : forall k qs n d d1 s x b c y, (List.length qs < n)%nat -> sk_start k d = Ok (d1, true) ->
  snd (hand (service_filter 0 opt k) (sf_init opt, d1) qs) = Ok ((s, x), b) -> sf_error s = false -> finish k x = Ok (c, y) ->
  FeedPackets (list_source packet) (service_filter 0 opt k) n qs (sf_init opt, d) = Some (Ok (c, (s, y))).
Proof.
  intros k qs n d d1 s x b c y L S A Er F.
  rewrite (feed_hand _ (service_filter 0 opt k) qs n (sf_init opt, d) (sf_init opt, d1) L) by (cbn; rewrite S; reflexivity). rewrite A.
  unfold finish in *. cbn [service_filter sk_end sk_exit fst snd] in *. destruct (sk_end k x) as [d2|f]; cbn [bind fst snd] in *; [|discriminate].
  unfold sf_GetExitCode. cbn [fst snd]. destruct (sk_exit k d2) as [c'|f]; cbn [bind] in *; [|discriminate].
  rewrite Er. replace (if c' =? EXIT_SUCCESS then c' else c') with c' by (destruct (c' =? EXIT_SUCCESS); reflexivity).
  injection F as <- <-. reflexivity.
Qed.

Lemma second_filtered : exists e2 h2, filtered sid limit 0 anything [] tt (map again mid) (map again mid) e2 h2 tt /\ (forall f, e2 <> FilterSpec.Crashed f) /\
  forall c code, exit_code sid h2 c code -> code = c.
Proof.
  destruct second_hand as (s & Er & H).
  pose proof (echo_hand _ _ _ (echo_filter opt _ _ _ keeping_echo) mid (sf_init opt, []) (sf_init opt, []) (conj eq_refl eq_refl)) as X. rewrite H in X. clear H.
  destruct (filter_total 0 opt (map again mid)) as (mid2 & e2 & h2 & F).
  set (n := S (List.length (map again mid))). assert (L : (List.length (map again mid) < n)%nat) by (unfold n; lia).
  pose proof (filter_around 0 opt keeping (map again mid) n [] [] mid2 e2 h2 L eq_refl F) as A. cbv zeta in A. rewrite keeping_hand in A.
  assert (W : FeedPackets (list_source packet) (service_filter 0 opt keeping) n (map again mid) (sf_init opt, []) = Some (Ok (0, (s, map again mid)))).
  { destruct (snd (hand (service_filter 0 opt keeping) (sf_init opt, []) (map again mid))) as [[[s2 d2] b2]|f] eqn:Eh; cbn in X; [|contradiction].
    destruct X as (_ & -> & ->). exact (fed_handed keeping (map again mid) n [] [] s (map again mid) b2 0 (map again mid) L eq_refl Eh Er eq_refl). }
  clear X. cbn [app] in A.
  assert (Y : (forall f, e2 <> FilterSpec.Crashed f) /\ exists code, exit_code sid h2 0 code /\ code = 0 /\ mid2 = map again mid).
  { destruct e2 as [| | |f]; try (split; [discriminate|]; destruct A as (s3 & code & Xc & A); pose proof (eq_trans (eq_sym W) A) as V; cbn in V; injection V as <- _ <-; exists 0; auto).
    pose proof (eq_trans (eq_sym W) A) as V. discriminate V. }
  destruct Y as (Nc & code & Xc & -> & ->). exists e2, h2. split; [exact F|]. split; [exact Nc|].
  intros c code' [(E0 & M & _)|[_ ->]]; [|reflexivity]. exfalso.
  destruct Xc as [(_ & _ & Q)|[N _]]; [discriminate|]. apply N. auto.
Qed.

(** A command that starts with the filter: by itself, and behind the pipe. *)
Lemma pipe_feed : forall k1 k2 R R' n1 n2 d d1 d' d1', echoes k1 k2 R -> (forall x y, R x y -> sime R' (finish k1 x) (finish k2 y)) ->
  sk_start k1 d = Ok (d1, true) -> sk_start k2 d' = Ok (d1', true) -> R d1 d1' -> (List.length ps < n1)%nat -> (List.length mid < n2)%nat ->
  match FeedPackets (list_source packet) (service_filter 0 opt k1) n1 ps (sf_init opt, d), FeedPackets (list_source packet) (service_filter 0 opt k2) n2 (map again mid) (sf_init opt, d') with
  | Some (Ok (c1, (_, x))), Some (Ok (c2, (_, y))) => R' x y /\ (c1 = c2 \/ exit_code sid h c2 c1) /\ exists y0, finish k2 y0 = Ok (c2, y)
  | Some (Fail f), Some (Fail g) => f = g
  | _, _ => False
  end.
Proof.
  intros k1 k2 R R' n1 n2 d d1 d' d1' H Hf S1 S2 Rd L1 L2. destruct second_filtered as (e2 & h2 & F2 & N2 & C2).
  pose proof (filter_around 0 opt k1 ps n1 d d1 mid e h L1 S1 fil) as A. cbv zeta in A.
  pose proof (filter_around 0 opt k2 (map again mid) n2 d' d1' _ e2 h2 ltac:(rewrite map_length; exact L2) S2 F2) as B. cbv zeta in B.
  pose proof (echo_hand _ _ _ H mid d1 d1' Rd) as X.
  destruct (snd (hand k1 d1 mid)) as [[x b]|f], (snd (hand k2 d1' (map again mid))) as [[y b']|f']; cbn in X; try contradiction.
  - destruct X as [<- X]. specialize (Hf x y X).
    destruct (finish k1 x) as [[c x1]|f], (finish k2 y) as [[c' y1]|f'] eqn:Ef; cbn in Hf; try contradiction.
    + destruct Hf as [<- Hf]. destruct b.
      * assert (A' : exists s code, exit_code sid h c code /\ FeedPackets (list_source packet) (service_filter 0 opt k1) n1 ps (sf_init opt, d) = Some (Ok (code, (s, x1)))).
        { destruct e as [| | |f]; try exact A. destruct (well f eq_refl). }
        assert (B' : exists s code, exit_code sid h2 c code /\ FeedPackets (list_source packet) (service_filter 0 opt k2) n2 (map again mid) (sf_init opt, d') = Some (Ok (code, (s, y1)))).
        { destruct e2 as [| | |f]; try exact B. destruct (N2 f eq_refl). }
        destruct A' as (s & code & Xc & ->), B' as (s' & code' & Xc' & ->). apply C2 in Xc' as ->. eauto 6.
      * destruct A as (s & ->), B as (s' & ->). eauto 6.
    + subst f'. destruct b.
      * assert (A' : FeedPackets (list_source packet) (service_filter 0 opt k1) n1 ps (sf_init opt, d) = Some (Fail f)) by (destruct e as [| | |g]; try exact A; destruct (well g eq_refl)).
        assert (B' : FeedPackets (list_source packet) (service_filter 0 opt k2) n2 (map again mid) (sf_init opt, d') = Some (Fail f)) by (destruct e2 as [| | |g]; try exact B; destruct (N2 g eq_refl)).
        rewrite A', B'. reflexivity.
      * rewrite A, B. reflexivity.
  - subst f'. rewrite A, B. reflexivity.
Qed.
End Pipe.
