(** The text of documents can be read back. *)
From Coq Require Import ZArith Ascii String List Bool Lia.
From Verif Require Import Base.Outcome Base.Util Model.Pcr Model.PesText Model.Descriptors Model.JsonText.
From Verif Require Import Spec.PesTextSpec Spec.JsonSpec Spec.DocSpec Proofs.PesTextProofs.
Import ListNotations.
Open Scope string_scope.
Open Scope Z_scope.

Section Induct.
Variable P : json -> Prop.
Hypothesis H1 : P JNull.
Hypothesis H2 : forall b, P (JBool b).
Hypothesis H3 : forall n, P (JNum n).
Hypothesis H4 : forall s, P (JWord s).
Hypothesis H5 : forall s, P (JText s).
Hypothesis H6 : forall l, Forall P l -> P (JArray l).
Hypothesis H7 : forall l, Forall (fun m => P (snd m)) l -> P (JObject l).
Fixpoint json_induct (j : json) : P j :=
  match j with
  | JNull => H1
  | JBool b => H2 b
  | JNum n => H3 n
  | JWord s => H4 s
  | JText s => H5 s
  | JArray l => H6 l ((fix go l := match l return Forall P l with [] => Forall_nil _ | x :: r => Forall_cons _ (json_induct x) (go r) end) l)
  | JObject l => H7 l ((fix go l := match l return Forall (fun m => P (snd m)) l with [] => Forall_nil _ | x :: r => Forall_cons _ (json_induct (snd x)) (go r) end) l)
  end.
End Induct.

(** * Strings *)
Lemma chars_escape : forall c t, chars (escape c ++ t) = then_more c (chars t).
Proof. intros c t. destruct c as [[] [] [] [] [] [] [] []]; reflexivity. Qed.

Lemma chars_escapes : forall s rest, chars (escapes s ++ String """" rest) = Some (s, rest).
Proof.
  induction s as [|c s IH]; intros rest; [reflexivity|]. cbn [escapes]. rewrite app_assoc', chars_escape, IH. reflexivity.
Qed.

(** * Numbers *)
Definition stop (s : string) : bool := match s with EmptyString => true | String c _ => match dec_digit c with Some _ => false | None => true end end.

Lemma more_reading : forall s a n rest, reading 10 a s = Some n -> stop rest = true -> more_digits a (s ++ rest) = (n, rest).
Proof.
  induction s as [|c s IH]; intros a n rest R S.
  - cbn in R. injection R as ->. cbn [append]. destruct rest as [|x r]; [reflexivity|]. cbn in S |- *. destruct (dec_digit x); [discriminate|reflexivity].
  - cbn [reading] in R. cbn [append more_digits]. unfold dec_digit. destruct (digit c) as [d|]; [|discriminate]. destruct (d <? 10); [|discriminate]. apply IH; auto.
Qed.

Lemma digit_zero : forall c, digit c = Some 0 -> c = "0"%char.
Proof. intros c. destruct c as [[] [] [] [] [] [] [] []]; intros H; try discriminate H; reflexivity. Qed.

Lemma natural_reading : forall n s rest, numeral 10 1 n s -> stop rest = true ->
  natural (s ++ rest) = Some (n, rest) /\ exists c t, s = String c t /\ dec_digit c <> None.
Proof.
  intros n s rest [R L] S. destruct s as [|c t]; [destruct L as [L|[L _]]; cbn in L; lia|].
  cbn [reading] in R. cbn [append natural]. unfold dec_digit in *. destruct (digit c) as [d|] eqn:D; [|discriminate].
  destruct (d <? 10) eqn:D1; [|discriminate]. split.
  - destruct (Z.eqb_spec d 0) as [->|N].
    + apply digit_zero in D as ->. destruct L as [L|(_ & x & y & E & N)]; [|congruence].
      cbn in L. destruct t; [|cbn in L; lia]. cbn in R. injection R as <-. reflexivity.
    + f_equal. apply more_reading; auto.
  - exists c, t. split; [reflexivity|]. rewrite D, D1. discriminate.
Qed.

Lemma number_plain : forall c t, dec_digit c <> None ->
  number (String c t) = match natural (String c t) with Some (n, rest) => Some (VNum n, rest) | None => None end.
Proof. intros c t H. destruct c as [[] [] [] [] [] [] [] []]; try reflexivity; exfalso; apply H; reflexivity. Qed.

Lemma natural_numeral : forall n, 0 <= n -> numeral 10 1 n (natural_text n).
Proof.
  intros n H. set (f := S (Z.to_nat (Z.log2 n))).
  assert (B : 0 <= n < 10 ^ Z.of_nat f).
  { split; [exact H|]. destruct (Z.eq_dec n 0) as [->|N]; [reflexivity|].
    pose proof (Z.log2_spec n ltac:(lia)) as [_ L]. pose proof (Z.log2_nonneg n).
    assert (E : Z.of_nat f = Z.succ (Z.log2 n)) by (unfold f; lia). rewrite E.
    pose proof (Z.pow_le_mono_l 2 10 (Z.succ (Z.log2 n)) ltac:(lia)). lia. }
  pose proof (numstr_numeral 10 digit_char f 1 n ltac:(lia) dec_char_digit ltac:(lia) B) as R.
  replace (natural_text n) with (numstr 10 digit_char f 1 n); [exact R|].
  assert (D : forall f n, dec_digits f n = digits 10 f n) by (clear; induction f as [|f IH]; intros n; cbn [dec_digits digits]; [|rewrite IH]; reflexivity).
  assert (S : forall ds a, string_of_rev ds a = str digit_char ds a) by (clear; induction ds as [|d ds IH]; intros a; cbn; auto).
  unfold numstr, natural_text. fold f. rewrite D, S. f_equal.
  replace (1 - List.length (digits 10 f n))%nat with 0%nat; [cbn [repeat]; apply app_nil_r|].
  unfold f. cbn [digits]. destruct (n <? 10); cbn [List.length]; lia.
Qed.

Lemma number_read : forall n rest, stop rest = true -> number (number_text n ++ rest) = Some (VNum n, rest).
Proof.
  intros n rest S. unfold number_text. pose proof natural_numeral as N.
  destruct (Z.ltb_spec n 0).
  - cbn [append number]. destruct (natural_reading _ _ rest (N (- n) ltac:(lia)) S) as [-> _]. rewrite Z.opp_involutive. reflexivity.
  - destruct (natural_reading _ _ rest (N n ltac:(lia)) S) as [E (c & t & Ec & D)]. rewrite Ec in *. cbn [append] in *. rewrite number_plain, E by exact D. reflexivity.
Qed.

Lemma value_number : forall f c t, dec_digit c <> None \/ c = "-"%char -> value (S f) (String c t) = number (String c t).
Proof. intros f c t [H| ->]; [|reflexivity]. destruct c as [[] [] [] [] [] [] [] []]; try reflexivity; exfalso; apply H; reflexivity. Qed.

Lemma number_head : forall n, exists c t, number_text n = String c t /\ (dec_digit c <> None \/ c = "-"%char).
Proof.
  intros n. unfold number_text. destruct (Z.ltb_spec n 0); [eexists; eexists; split; [reflexivity|right; reflexivity]|].
  pose proof (natural_numeral n ltac:(lia)) as N.
  destruct (natural_reading _ _ "" N eq_refl) as [_ (c & t & -> & D)]. eauto.
Qed.

(** * Values *)
Section Decode.
Variable decode : list Z -> string.
Notation write := (write decode).
Notation meaning := (meaning decode).

(** How a value may begin. *)
Definition starts (c : ascii) : bool :=
  match dec_digit c with
  | Some _ => true
  | None => existsb (Ascii.eqb c) ["-"%char; "n"%char; "t"%char; "f"%char; """"%char; "["%char; "{"%char]
  end.
Lemma write_head : forall j, exists c t, write j = String c t /\ starts c = true.
Proof.
  intros [|[]|n|s|s|l|l]; try (eexists; eexists; split; [reflexivity|reflexivity]).
  destruct (number_head n) as (c & t & E & D). exists c, t. split; [exact E|]. unfold starts.
  destruct (dec_digit c); [reflexivity|]. destruct D as [D| ->]; [congruence|reflexivity].
Qed.

Lemma open_array : forall f c t, starts c = true ->
  value (S f) (String "[" (String c t)) = match elements f (String c t) with Some (l, rest) => Some (VArr l, rest) | None => None end.
Proof. intros f c t H. destruct c as [[] [] [] [] [] [] [] []]; try discriminate H; reflexivity. Qed.

Definition good (j : json) : Prop := forall f rest, (String.length (write j) <= f)%nat -> stop rest = true ->
  value f (write j ++ rest) = Some (meaning j, rest).

Lemma elements_read : forall l, Forall good l -> l <> [] -> forall f rest,
  (String.length (String.concat "," (map write l)) < f)%nat ->
  elements f (String.concat "," (map write l) ++ String "]" rest) = Some (map meaning l, rest).
Proof.
  induction l as [|x l IH]; intros G N f rest L; [congruence|]. inversion_clear G as [|? ? Gx Gl].
  destruct f as [|f]; [lia|].
  destruct l as [|y l].
  - cbn [map String.concat] in *. cbn [elements]. rewrite Gx by (reflexivity || lia). reflexivity.
  - change (String.concat "," (map write (x :: y :: l))) with (write x ++ "," ++ String.concat "," (map write (y :: l))) in *.
    rewrite !str_app_length in L. cbn [String.length] in L. rewrite !app_assoc'.
    specialize (IH Gl ltac:(discriminate) f rest ltac:(lia)). set (z := String.concat "," (map write (y :: l)) ++ String "]" rest) in *. clearbody z.
    cbn [elements]. rewrite Gx by (reflexivity || lia). cbn [append].
    change (skip (String "," z)) with (String "," z). cbn iota. rewrite IH. reflexivity.
Qed.

Lemma members_read : forall l, Forall (fun m => good (snd m)) l -> l <> [] -> forall f rest,
  (String.length (String.concat "," (map (fun m => string_text (fst m) ++ ":" ++ write (snd m)) l)) < f)%nat ->
  members f (String.concat "," (map (fun m => string_text (fst m) ++ ":" ++ write (snd m)) l) ++ String "}" rest) =
  Some (map (fun m => (fst m, meaning (snd m))) l, rest).
Proof.
  induction l as [|[k x] l IH]; intros G N f rest L; [congruence|]. inversion_clear G as [|? ? Gx Gl].
  cbn [snd] in Gx. destruct f as [|f]; [lia|].
  assert (S : forall z f, (String.length (write x) <= f)%nat -> stop z = true -> 
    members (S f) ((string_text k ++ ":" ++ write x) ++ z) =
    match skip z with
    | String "," r4 => match members f r4 with Some (l, rest) => Some ((k, meaning x) :: l, rest) | None => None end
    | String "}" rest => Some ([(k, meaning x)], rest)
    | _ => None
    end).
  { intros z g Lg Sz. unfold string_text. rewrite !app_assoc'. cbn [append]. cbn [members].
    change (skip (String """" ?u)) with (String """" u). cbn iota. rewrite chars_escapes.
    change (skip (String ":" ?u)) with (String ":" u). cbn iota. rewrite Gx by assumption. reflexivity. }
  destruct l as [|y l].
  - cbn [map String.concat fst snd] in *. rewrite !str_app_length in L. rewrite S by (reflexivity || lia). reflexivity.
  - change (String.concat "," (map (fun m => string_text (fst m) ++ ":" ++ write (snd m)) ((k, x) :: y :: l)))
      with ((string_text k ++ ":" ++ write x) ++ "," ++ String.concat "," (map (fun m => string_text (fst m) ++ ":" ++ write (snd m)) (y :: l))) in *.
    rewrite !str_app_length in L. cbn [String.length] in L.
    specialize (IH Gl ltac:(discriminate) f rest ltac:(lia)).
    set (z := String.concat "," (map (fun m => string_text (fst m) ++ ":" ++ write (snd m)) (y :: l))) in *. clearbody z.
    rewrite (app_assoc' (string_text k ++ ":" ++ write x)). rewrite S by (reflexivity || lia). cbn [append].
    change (skip (String "," ?u)) with (String "," u). cbn iota. rewrite IH. reflexivity.
Qed.

Lemma write_read : forall j, good j.
Proof.
  apply json_induct; unfold good.
  - intros f rest L S. destruct f; [cbn in L; lia|reflexivity].
  - intros [] f rest L S; (destruct f; [cbn in L; lia|reflexivity]).
  - intros n f rest L S. cbn [JsonText.write DocSpec.meaning] in *. destruct (number_head n) as (c & t & E & D). pose proof (number_read n rest S) as R.
    rewrite E in *. cbn [append] in *. destruct f; [cbn in L; lia|]. rewrite value_number by exact D. exact R.
  - intros s f rest L S. destruct f; [cbn in L; lia|]. cbn [JsonText.write DocSpec.meaning]. unfold string_text. rewrite !app_assoc'. cbn [append value].
    change (skip (String """" ?u)) with (String """" u). cbn iota. rewrite chars_escapes. reflexivity.
  - intros s f rest L S. destruct f; [cbn in L; lia|]. cbn [JsonText.write DocSpec.meaning]. unfold string_text. rewrite !app_assoc'. cbn [append value].
    change (skip (String """" ?u)) with (String """" u). cbn iota. rewrite chars_escapes. reflexivity.
  - intros l G f rest L S. cbn [JsonText.write DocSpec.meaning] in *. destruct f as [|f]; [cbn in L; lia|].
    destruct l as [|x l]; [reflexivity|].
    rewrite !str_app_length in L. cbn [String.length] in L.
    pose proof (elements_read (x :: l) G ltac:(discriminate) f rest ltac:(lia)) as E.
    rewrite !app_assoc'. cbn [append] in *.
    assert (H : exists c t, String.concat "," (map write (x :: l)) ++ String "]" rest = String c t /\ starts c = true).
    { destruct (write_head x) as (c & t & Ex & St).
      destruct l as [|y l]; cbn [map String.concat]; rewrite Ex; cbn [append]; eauto. }
    destruct H as (c & t & Ec & St). rewrite Ec in *. rewrite open_array by exact St. rewrite E. reflexivity.
  - intros l G f rest L S. cbn [JsonText.write DocSpec.meaning] in *. destruct f as [|f]; [cbn in L; lia|].
    destruct l as [|[k x] l]; [reflexivity|].
    rewrite !str_app_length in L. cbn [String.length] in L.
    pose proof (members_read ((k, x) :: l) G ltac:(discriminate) f rest ltac:(lia)) as E.
    rewrite !app_assoc'. change ("}" ++ rest) with (String "}" rest). change ("{" ++ ?u) with (String "{" u).
    assert (H : exists t, String.concat "," (map (fun m => string_text (fst m) ++ ":" ++ write (snd m)) ((k, x) :: l)) ++ String "}" rest = String """" t).
    { destruct l as [|y l]; cbn [map String.concat fst]; unfold string_text at 1; cbn [append]; eauto. }
    destruct H as (t & Et). rewrite Et in *. cbn [value].
    change (skip (String "{" ?u)) with (String "{" u). cbn iota. change (skip (String """" ?u)) with (String """" u). cbn iota. rewrite E. reflexivity.
Qed.

Lemma read_write : forall j, read_json (write j) = Some (meaning j).
Proof.
  intros j. unfold read_json. pose proof (write_read j (S (String.length (write j))) "" ltac:(lia) eq_refl) as E.
  assert (A : forall s, s ++ "" = s) by (induction s as [|c s IH]; cbn; [|rewrite IH]; reflexivity). rewrite A in E. rewrite E. reflexivity.
Qed.

(** * Lines *)
Ltac no_has := let H := fresh in vm_compute; intros H; repeat (destruct H as [H|H]; [discriminate H|]); try destruct H.
Lemma no_feed_string : forall s, ~ has line_feed (escapes s).
Proof.
  induction s as [|c s IH]; cbn [escapes]; [auto|]. rewrite has_app. intros [X|X]; [|auto]. revert X.
  destruct c as [[] [] [] [] [] [] [] []]; no_has.
Qed.
Lemma no_feed_string_text : forall s, ~ has line_feed (string_text s).
Proof. intros s. unfold string_text. rewrite !has_app. intros [X|[X|X]]; [revert X; no_has|exact (no_feed_string _ X)|revert X; no_has]. Qed.
Lemma no_feed_concat : forall l, Forall (fun s => ~ has line_feed s) l -> ~ has line_feed (String.concat "," l).
Proof.
  induction 1 as [|x l X F IH]; [auto|]. destruct l as [|y l]; [exact X|].
  change (String.concat "," (x :: y :: l)) with (x ++ "," ++ String.concat "," (y :: l)). rewrite !has_app. intros [Y|[Y|Y]]; [auto|revert Y; no_has|auto].
Qed.
Lemma no_feed : forall j, ~ has line_feed (write j).
Proof.
  apply (json_induct (fun j => ~ has line_feed (write j))).
  - no_has.
  - intros []; no_has.
  - intros n. cbn [JsonText.write]. unfold number_text.
    assert (N : forall m, 0 <= m -> ~ has line_feed (natural_text m)) by (intros m M; apply (numeral_no 10 1 m); [apply natural_numeral; exact M|reflexivity]).
    destruct (Z.ltb_spec n 0); [|apply N; lia]. rewrite has_app. intros [X|X]; [revert X; no_has|]. apply (N (- n)); [lia|exact X].
  - intros s. apply no_feed_string_text.
  - intros s. apply no_feed_string_text.
  - intros l G. cbn [JsonText.write] in *. rewrite !has_app. intros [X|[X|X]]; [revert X; no_has| |revert X; no_has].
    revert X. apply no_feed_concat. apply Forall_forall. intros s I. apply in_map_iff in I as (x & <- & I). rewrite Forall_forall in G. apply G; exact I.
  - intros l G. cbn [JsonText.write] in *. rewrite !has_app. intros [X|[X|X]]; [revert X; no_has| |revert X; no_has].
    revert X. apply no_feed_concat. apply Forall_forall. intros s I. apply in_map_iff in I as (x & <- & I). rewrite Forall_forall in G.
    rewrite !has_app. intros [X|[X|X]]; [exact (no_feed_string_text _ X)|revert X; no_has|]. revert X. apply G; exact I.
Qed.

Lemma lines_cons : forall s r ls, ~ has line_feed s -> text_lines r = Some ls -> text_lines (s ++ String line_feed r) = Some (s :: ls).
Proof.
  induction s as [|c s IH]; intros r ls N E.
  - cbn [append text_lines]. rewrite Ascii.eqb_refl, E. reflexivity.
  - cbn [has] in N. cbn [append text_lines]. destruct (Ascii.eqb_spec c line_feed) as [->|D]; [exfalso; auto|].
    rewrite (IH r ls); auto.
Qed.

Lemma jsonl_read : forall docs, read_jsonl (jsonl decode docs) = Some (map meaning docs).
Proof.
  intros docs. unfold read_jsonl.
  assert (E : text_lines (jsonl decode docs) = Some (map write docs)).
  { induction docs as [|d docs IH]; [reflexivity|]. cbn [jsonl map].
    change (newline ++ jsonl decode docs) with (String line_feed (jsonl decode docs)). apply lines_cons; [apply no_feed|auto]. }
  rewrite E. clear E. induction docs as [|d docs IH]; [reflexivity|]. cbn [map all_some].
  rewrite read_write, IH. reflexivity.
Qed.
End Decode.
