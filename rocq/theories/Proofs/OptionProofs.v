From Coq Require Import ZArith Lia List Bool.
From Verif Require Import Base.Outcome Base.Util Model.Options Spec.OptionSpec.
Import ListNotations.
Open Scope Z_scope.

Lemma is_digit_spec : forall c, is_digit c = true <-> 48 <= c <= 57.
Proof. intros c. unfold is_digit. rewrite andb_true_iff, !Z.leb_le. reflexivity. Qed.
Lemma is_space_spec : forall c, is_space c = true <-> blank c.
Proof. intros c. unfold is_space, blank. rewrite orb_true_iff, andb_true_iff, Z.eqb_eq, !Z.leb_le. reflexivity. Qed.

(** Value of digits. *)
Definition value (acc : Z) (ds : list Z) : Z := fold_left (fun a c => a * 10 + (c - 48)) ds acc.

Lemma value_snoc : forall ds acc c, value acc (ds ++ [c]) = value acc ds * 10 + (c - 48).
Proof. intros. unfold value. rewrite fold_left_app. reflexivity. Qed.

Lemma numeral_value : forall s n, numeral s n <-> s <> [] /\ Forall (fun c => 48 <= c <= 57) s /\ n = value 0 s.
Proof.
  intros s n. split.
  - intros H. induction H as [d D|s n d H IH D].
    + split; [discriminate|]. split; [constructor; [lia|constructor]|]. unfold value. cbn. lia.
    + destruct IH as (_ & F & ->). split; [destruct s; discriminate|]. split.
      * apply Forall_app. split; [exact F|]. constructor; [lia|constructor].
      * rewrite value_snoc. lia.
  - intros (N & F & ->). induction s as [|c s IH] using rev_ind; [contradiction|]. apply Forall_app in F as [F Fc].
    inversion Fc as [|? ? Hc _]; subst. destruct s as [|a s].
    + cbn. replace [c] with [48 + (c - 48)] by (f_equal; lia). unfold value. cbn. replace (48 + (c - 48) - 48) with (c - 48) by lia.
      apply numeral_one. lia.
    + rewrite value_snoc. replace [c] with [48 + (c - 48)] by (f_equal; lia).
      apply numeral_more; [|lia]. apply IH; [discriminate|exact F].
Qed.

Lemma scan_split : forall s acc n rest, scan_digits acc s = (n, rest) ->
  exists ds, s = ds ++ rest /\ Forall (fun c => 48 <= c <= 57) ds /\ n = value acc ds /\
    forall c r, rest = c :: r -> ~ 48 <= c <= 57.
Proof.
  induction s as [|c s IH]; intros acc n rest H; cbn in H.
  - injection H as <- <-. exists []. repeat split; [constructor|]. discriminate.
  - destruct (is_digit c) eqn:E.
    + apply IH in H as (ds & -> & F & -> & N). exists (c :: ds). split; [reflexivity|]. apply is_digit_spec in E.
      split; [constructor; assumption|]. split; [reflexivity|exact N].
    + injection H as <- <-. exists []. split; [reflexivity|]. split; [constructor|]. split; [reflexivity|].
      intros a r Q. injection Q as <- <-. rewrite <- is_digit_spec, E. discriminate.
Qed.

Lemma scan_all : forall ds acc rest, Forall (fun c => 48 <= c <= 57) ds -> (forall c r, rest = c :: r -> ~ 48 <= c <= 57) ->
  scan_digits acc (ds ++ rest) = (value acc ds, rest).
Proof.
  induction ds as [|c ds IH]; intros acc rest F N.
  - cbn. destruct rest as [|c r]; [reflexivity|]. cbn. destruct (is_digit c) eqn:E; [|reflexivity].
    apply is_digit_spec in E. destruct (N c r eq_refl E).
  - inversion F as [|? ? Hc F']; subst. cbn. apply is_digit_spec in Hc. rewrite Hc. apply IH; assumption.
Qed.

Lemma skip_split : forall s, exists sp, s = sp ++ skip_space s /\ Forall blank sp /\
  forall c r, skip_space s = c :: r -> ~ blank c.
Proof.
  induction s as [|c s IH]; cbn.
  - exists []. split; [reflexivity|]. split; [constructor|]. discriminate.
  - destruct (is_space c) eqn:E.
    + destruct IH as (sp & Q & F & N). exists (c :: sp). split; [cbn; congruence|]. apply is_space_spec in E. split; [constructor; assumption|exact N].
    + exists []. split; [reflexivity|]. split; [constructor|]. intros a r Q. injection Q as <- <-. rewrite <- is_space_spec, E. discriminate.
Qed.

Lemma skip_all : forall sp s, Forall blank sp -> (forall c r, s = c :: r -> ~ blank c) -> skip_space (sp ++ s) = s.
Proof.
  induction sp as [|c sp IH]; intros s F N; cbn.
  - destruct s as [|c r]; [reflexivity|]. cbn. destruct (is_space c) eqn:E; [|reflexivity]. apply is_space_spec in E. destruct (N c r eq_refl E).
  - inversion F as [|? ? Hc F']; subst. apply is_space_spec in Hc. rewrite Hc. apply IH; assumption.
Qed.

Definition after_sign (s1 : list Z) : bool * list Z :=
  match s1 with
  | 43 :: r => (false, r)
  | 45 :: r => (true, r)
  | _ => (false, s1)
  end.

Lemma sign_none : forall c r, c <> 43 -> c <> 45 -> after_sign (c :: r) = (false, c :: r).
Proof.
  intros c r H1 H2. unfold after_sign. destruct c as [|p|p]; try reflexivity.
  do 7 (try (destruct p as [p|p|]; try reflexivity)); contradiction.
Qed.

Lemma stoi_unfold : forall s, stoi s =
  let (neg, s2) := after_sign (skip_space s) in
  match s2 with
  | c :: _ =>
      if is_digit c then
        let (n, rest) := scan_digits 0 s2 in
        let v := if neg : bool then - n else n in
        if (- 2 ^ 31 <=? v) && (v <? 2 ^ 31) then Ok (v, zlen s - zlen rest) else Fail Uncaught
      else Fail Uncaught
  | [] => Fail Uncaught
  end.
Proof. reflexivity. Qed.

(** What [stoi] accepts. *)
Lemma stoi_number : forall a b n, number a n -> (forall c r, b = c :: r -> ~ 48 <= c <= 57) ->
  stoi (a ++ b) = if (- 2 ^ 31 <=? n) && (n <? 2 ^ 31) then Ok (n, zlen a) else Fail Uncaught.
Proof.
  intros a b n (sp & ds & F & H) N. rewrite stoi_unfold.
  assert (Core : forall (neg : bool) pre, (forall c r, (pre ++ ds ++ b) = c :: r -> ~ blank c) -> a = sp ++ pre ++ ds ->
    after_sign (pre ++ ds ++ b) = (neg, ds ++ b) -> numeral ds (if neg then - n else n) ->
    (let (neg, s2) := after_sign (skip_space (a ++ b)) in
     match s2 with
     | c :: _ =>
       if is_digit c then
         let (n, rest) := scan_digits 0 s2 in
         let v := if neg : bool then - n else n in
         if (- 2 ^ 31 <=? v) && (v <? 2 ^ 31) then Ok (v, zlen (a ++ b) - zlen rest) else Fail Uncaught
       else Fail Uncaught
     | [] => Fail Uncaught
     end) = if (- 2 ^ 31 <=? n) && (n <? 2 ^ 31) then Ok (n, zlen a) else Fail Uncaught).
  { intros neg pre NB Ea Es Nm. apply numeral_value in Nm as (Ne & Fd & Ev).
    assert (Q : skip_space (a ++ b) = pre ++ ds ++ b).
    { rewrite Ea. rewrite <- !app_assoc. apply skip_all; assumption. }
    rewrite Q, Es. destruct ds as [|d ds]; [contradiction|]. cbn [app]. inversion Fd as [|? ? Hd _]; subst.
    assert (D : is_digit d = true) by (apply is_digit_spec; exact Hd). rewrite D.
    change (d :: ds ++ b) with ((d :: ds) ++ b). rewrite scan_all by assumption.
    assert (V : (if neg then - value 0 (d :: ds) else value 0 (d :: ds)) = n) by (destruct neg; lia).
    cbv zeta. rewrite V. rewrite zlen_app. replace (zlen (sp ++ pre ++ d :: ds) + zlen b - zlen b) with (zlen (sp ++ pre ++ d :: ds)) by lia. reflexivity. }
  destruct H as [[-> Nm]|[[-> Nm]|[-> Nm]]].
  - apply (Core false []); [|reflexivity| |exact Nm].
    + apply numeral_value in Nm as (Ne & Fd & _). intros c r Q. destruct ds as [|d ds]; [contradiction|]. cbn in Q. injection Q as <- _.
      inversion Fd; subst. unfold blank. lia.
    + apply numeral_value in Nm as (Ne & Fd & _). destruct ds as [|d ds]; [contradiction|]. cbn [app]. inversion Fd; subst.
      apply sign_none; lia.
  - apply (Core false [43]); [|reflexivity|reflexivity|exact Nm]. intros c r Q. injection Q as <- _. unfold blank. lia.
  - apply (Core true [45]); [|reflexivity|reflexivity|exact Nm]. intros c r Q. injection Q as <- _. unfold blank. lia.
Qed.

Lemma stoi_begins : forall s v pos, stoi s = Ok (v, pos) ->
  fits_int v /\ exists a b, s = a ++ b /\ number a v /\ pos = zlen a /\ forall c r, b = c :: r -> ~ 48 <= c <= 57.
Proof.
  intros s v pos H. rewrite stoi_unfold in H. destruct (skip_split s) as (sp & Es & F & NB).
  destruct (after_sign (skip_space s)) as [neg s2] eqn:A.
  destruct s2 as [|c0 r0] eqn:E2; [discriminate|]. destruct (is_digit c0) eqn:D; [|discriminate].
  rewrite <- E2 in *. destruct (scan_digits 0 s2) as [n rest] eqn:Sc. cbv zeta in H.
  destruct ((- 2 ^ 31 <=? (if neg then - n else n)) && ((if neg then - n else n) <? 2 ^ 31)) eqn:R; [|discriminate].
  injection H as Hv Hp. apply andb_true_iff in R as [R1 R2]. apply Z.leb_le in R1. apply Z.ltb_lt in R2.
  split; [unfold fits_int; rewrite <- Hv; lia|].
  apply scan_split in Sc as (ds & Eds & Fds & En & Nr).
  assert (Nm : numeral ds n).
  { apply numeral_value. split; [|auto]. intros ->. cbn in Eds. rewrite <- Eds, E2 in Nr. apply (Nr c0 r0 eq_refl).
    apply is_digit_spec. exact D. }
  assert (P : exists pre, skip_space s = pre ++ s2 /\ number (sp ++ pre ++ ds) v).
  { unfold after_sign in A. destruct (skip_space s) as [|c r] eqn:Q.
    - injection A as _ <-. discriminate.
    - destruct (Z.eq_dec c 43) as [->|N1]; [|destruct (Z.eq_dec c 45) as [->|N2]].
      + injection A as <- <-. exists [43]. split; [reflexivity|]. exists sp, ds. split; [exact F|]. right. left.
        split; [reflexivity|]. rewrite <- Hv. exact Nm.
      + injection A as <- <-. exists [45]. split; [reflexivity|]. exists sp, ds. split; [exact F|]. right. right.
        split; [reflexivity|]. rewrite <- Hv, Z.opp_involutive. exact Nm.
      + change (after_sign (c :: r) = (neg, s2)) in A. rewrite (sign_none c r N1 N2) in A. injection A as <- <-.
        exists []. split; [reflexivity|]. exists sp, ds. split; [exact F|]. left. split; [reflexivity|]. rewrite <- Hv. exact Nm. }
  destruct P as (pre & P1 & P2). exists (sp ++ pre ++ ds), rest.
  assert (E : s = (sp ++ pre ++ ds) ++ rest) by (rewrite <- !app_assoc, <- Eds, <- P1; exact Es).
  split; [exact E|]. split; [exact P2|]. split; [|exact Nr]. rewrite <- Hp. rewrite E at 1. rewrite zlen_app. lia.
Qed.

Lemma fits_bool : forall n, (- 2 ^ 31 <=? n) && (n <? 2 ^ 31) = true <-> fits_int n.
Proof. intros n. rewrite andb_true_iff, Z.leb_le, Z.ltb_lt. reflexivity. Qed.

(** [stoi] throws exactly on strings that do not begin with an int. *)
Lemma stoi_total : forall s, (exists v pos, stoi s = Ok (v, pos)) <-> exists n, begins s n /\ fits_int n.
Proof.
  intros s. split.
  - intros (v & pos & H). apply stoi_begins in H as (Fi & a & b & E & Nm & _ & N). exists v. split; [|exact Fi]. exists a, b. auto.
  - intros (n & (a & b & -> & Nm & N) & Fi). exists n, (zlen a). rewrite (stoi_number a b n Nm N). apply fits_bool in Fi. rewrite Fi. reflexivity.
Qed.

Lemma stoi_whole : forall s v, stoi s = Ok (v, zlen s) <-> number s v /\ fits_int v.
Proof.
  intros s v. split.
  - intros H. apply stoi_begins in H as (Fi & a & b & E & Nm & L & _). split; [|exact Fi].
    assert (b = []) as ->. { rewrite E, zlen_app in L. destruct b; [reflexivity|]. rewrite zlen_cons in L. pose proof (zlen_nonneg _ b). lia. }
    rewrite app_nil_r in E. subst. exact Nm.
  - intros [Nm Fi]. rewrite <- (app_nil_r s) at 1. rewrite (stoi_number s [] v Nm) by discriminate. apply fits_bool in Fi. rewrite Fi. reflexivity.
Qed.

Lemma stoi_pos : forall s v pos, stoi s = Ok (v, pos) -> ((pos =? zlen s) = true <-> exists n, number s n /\ fits_int n).
Proof.
  intros s v pos H. rewrite Z.eqb_eq. split.
  - intros ->. exists v. apply stoi_whole. exact H.
  - intros (n & H'). apply stoi_whole in H'. congruence.
Qed.

(** * SidSet *)

Lemma add_ok : forall strs set, (forall s, In s strs -> exists n, begins s n /\ fits_int n) ->
  exists set', SidSet_Add set strs = Ok set' /\
    forall x, In x set' <-> In x set \/ exists s n, In s strs /\ number s n /\ fits_int n /\ x = n mod 65536.
Proof.
  induction strs as [|s strs IH]; intros set H; cbn [SidSet_Add].
  - exists set. split; [reflexivity|]. intros x. split; [auto|]. intros [Hx|(s & n & [] & _)]; assumption.
  - destruct (proj2 (stoi_total s) (H s (or_introl eq_refl))) as (v & pos & E). rewrite E. cbn [bind].
    assert (Hr : forall t, In t strs -> exists n, begins t n /\ fits_int n) by (intros t Ht; apply H; right; exact Ht).
    pose proof (stoi_pos s v pos E) as P. destruct (pos =? zlen s) eqn:Q; cbn [negb].
    + apply Z.eqb_eq in Q. subst pos. apply stoi_whole in E as E'. destruct E' as [Nm Fi].
      destruct (IH (zadd (v mod 2 ^ 16) set) Hr) as (set' & E' & M). exists set'. split; [exact E'|]. intros x. rewrite M, In_zadd. split.
      * intros [[-> | Hx]|(t & n & Ht & R)]; [|auto|right; exists t, n; split; [right; exact Ht|exact R]].
        right. exists s, v. split; [left; reflexivity|]. auto.
      * intros [Hx|(t & n & [<-|Ht] & Nt & Ft & ->)]; [auto| |right; exists t, n; auto].
        left. left. assert (n = v) as ->; [|reflexivity]. assert (stoi s = Ok (n, zlen s)) by (apply stoi_whole; auto). congruence.
    + destruct (IH set Hr) as (set' & E' & M). exists set'. split; [exact E'|]. intros x. rewrite M. split.
      * intros [Hx|(t & n & Ht & R)]; [auto|right; exists t, n; split; [right; exact Ht|exact R]].
      * intros [Hx|(t & n & [<-|Ht] & R)]; [auto| |right; exists t, n; auto].
        exfalso. destruct R as (Nt & Ft & _). destruct P as [_ P]. discriminate P. exists n. auto.
Qed.

Lemma add_throws : forall strs set, (exists s, In s strs /\ forall n, begins s n -> ~ fits_int n) ->
  SidSet_Add set strs = Fail Uncaught.
Proof.
  induction strs as [|s strs IH]; intros set (t & Ht & N); [destruct Ht|]. cbn [SidSet_Add].
  destruct (stoi s) as [[v pos]|f] eqn:E.
  - cbn [bind]. assert (G : exists t, In t strs /\ forall n, begins t n -> ~ fits_int n).
    { destruct Ht as [<-|Ht]; [|exists t; auto]. exfalso. destruct (proj1 (stoi_total s)) as (n & B & Fi); [eauto|]. exact (N n B Fi). }
    destruct (negb (pos =? zlen s)); apply IH; exact G.
  - cbn [bind]. rewrite stoi_unfold in E. destruct (after_sign (skip_space s)) as [neg s2]. destruct s2 as [|c r]; [injection E as <-; reflexivity|].
    destruct (is_digit c); [|injection E as <-; reflexivity]. destruct (scan_digits 0 (c :: r)). cbv zeta in E.
    destruct ((- 2 ^ 31 <=? (if neg then - z else z)) && ((if neg then - z else z) <? 2 ^ 31)); [discriminate|injection E as <-; reflexivity].
Qed.

Lemma begins_unique : forall s n, begins s n -> fits_int n -> forall m, begins s m -> m = n.
Proof.
  intros s n (a & b & -> & Nm & N) Fi m (a' & b' & E & Nm' & N'). pose proof (stoi_number a b n Nm N) as S.
  apply fits_bool in Fi. rewrite Fi in S. rewrite E in S. rewrite (stoi_number a' b' m Nm' N') in S.
  destruct ((- 2 ^ 31 <=? m) && (m <? 2 ^ 31)); [injection S; congruence|discriminate].
Qed.

(** Numerals *)
Lemma numeral_number : forall s n, numeral s n -> number s n.
Proof. intros s n H. exists [], s. split; [constructor|]. left. auto. Qed.

Lemma numeral_nonneg : forall s n, numeral s n -> 0 <= n.
Proof. intros s n H. induction H; lia. Qed.

Lemma number_begins : forall s n, number s n -> begins s n.
Proof. intros s n H. exists s, []. rewrite app_nil_r. split; [reflexivity|]. split; [exact H|]. discriminate. Qed.

Lemma sids_exact : forall strs ns, Forall2 numeral strs ns -> Forall (fun n => n <= 65535) ns ->
  exists set, LoadSidSet (Some strs) = Ok set /\ forall x, In x set <-> In x ns.
Proof.
  intros strs ns H B.
  assert (Each : forall s, In s strs -> exists n, numeral s n /\ In n ns).
  { clear B. induction H as [|s n strs ns Hn H IH]; intros t [].
    - subst. exists n. split; [exact Hn|left; reflexivity].
    - destruct (IH t H0) as (m & M1 & M2). exists m. split; [exact M1|right; exact M2]. }
  assert (Back : forall n, In n ns -> exists s, In s strs /\ numeral s n).
  { clear B Each. induction H as [|s n strs ns Hn H IH]; intros m [].
    - subst. exists s. split; [left; reflexivity|exact Hn].
    - destruct (IH m H0) as (t & M1 & M2). exists t. split; [right; exact M1|exact M2]. }
  rewrite Forall_forall in B.
  assert (Fit : forall s n, numeral s n -> In n ns -> fits_int n).
  { intros s n Hn Hi. apply numeral_nonneg in Hn. specialize (B n Hi). unfold fits_int. lia. }
  destruct (add_ok strs []) as (set & E & M).
  { intros s Hs. destruct (Each s Hs) as (n & N1 & N2). exists n. split; [apply number_begins, numeral_number; exact N1|exact (Fit s n N1 N2)]. }
  exists set. split; [exact E|]. intros x. rewrite M. split.
  - intros [[]|(s & m & Hs & Nm & Fi & ->)]. destruct (Each s Hs) as (n & N1 & N2).
    assert (m = n) as ->.
    { apply (begins_unique s n); [apply number_begins, numeral_number; exact N1|exact (Fit s n N1 N2)|apply number_begins; exact Nm]. }
    rewrite Z.mod_small; [exact N2|]. apply numeral_nonneg in N1. specialize (B n N2). lia.
  - intros Hx. right. destruct (Back x Hx) as (s & Hs & N1). exists s, x. split; [exact Hs|]. split; [apply numeral_number; exact N1|].
    split; [exact (Fit s x N1 Hx)|]. rewrite Z.mod_small; [reflexivity|]. apply numeral_nonneg in N1. specialize (B x Hx). lia.
Qed.

(** * Component tags *)

Lemma tags_some : forall strs tags tags', add_tags tags strs = Ok (Some tags') ->
  (forall s, In s strs -> exists n, number s n /\ 0 <= n < 256) /\
  forall x, In x tags' <-> In x tags \/ exists s, In s strs /\ number s x /\ 0 <= x < 256.
Proof.
  induction strs as [|s strs IH]; intros tags tags' H; cbn [add_tags] in H.
  - injection H as <-. split; [intros s []|]. intros x. split; [auto|]. intros [Hx|(s & [] & _)]; exact Hx.
  - apply bind_ok in H as ([v pos] & E & H). destruct (pos =? zlen s) eqn:Q; cbn [negb] in H; [|discriminate].
    destruct (v <? 0) eqn:Q1; [discriminate|]. destruct (256 <=? v) eqn:Q2; [discriminate|].
    apply Z.eqb_eq in Q. subst pos. apply stoi_whole in E as E'. destruct E' as [Nm Fi]. apply Z.ltb_ge in Q1. apply Z.leb_gt in Q2.
    apply IH in H as [H1 H2]. split.
    + intros t [<-|Ht]; [exists v; split; [exact Nm|lia]|exact (H1 t Ht)].
    + intros x. rewrite H2, In_zadd. split.
      * intros [[-> | Hx]|(t & Ht & R)]; [|auto|right; exists t; split; [right; exact Ht|exact R]].
        right. exists s. split; [left; reflexivity|]. split; [exact Nm|lia].
      * intros [Hx|(t & [<-|Ht] & Nt & Bt)]; [auto| |right; exists t; auto].
        left. left. assert (stoi s = Ok (x, zlen s)) by (apply stoi_whole; split; [exact Nt|unfold fits_int; lia]). congruence.
Qed.

Lemma tags_ok : forall strs tags, (forall s, In s strs -> exists n, number s n /\ 0 <= n < 256) ->
  exists tags', add_tags tags strs = Ok (Some tags').
Proof.
  induction strs as [|s strs IH]; intros tags H; cbn [add_tags]; [eauto|].
  destruct (H s (or_introl eq_refl)) as (n & Nm & B).
  assert (E : stoi s = Ok (n, zlen s)) by (apply stoi_whole; split; [exact Nm|unfold fits_int; lia]).
  rewrite E. cbn [bind]. rewrite Z.eqb_refl. cbn [negb].
  assert (Q1 : n <? 0 = false) by (apply Z.ltb_ge; lia). assert (Q2 : 256 <=? n = false) by (apply Z.leb_gt; lia). rewrite Q1, Q2.
  apply IH. intros t Ht. apply H. right. exact Ht.
Qed.
