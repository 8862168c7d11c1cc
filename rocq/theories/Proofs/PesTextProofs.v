(** The text of print-pes. *)
From Coq Require Import ZArith Ascii String List Bool Lia.
From Verif Require Import Base.Outcome Base.Util Model.Ts Model.Pcr Model.Clock Model.PesPrinter Model.PesText Spec.PcrSpec Spec.PesSpec Spec.PesTextSpec.
From Verif Require Import Proofs.PcrProofs Proofs.PesProofs.
Import ListNotations.
Open Scope string_scope.
Open Scope Z_scope.

(** * Numerals *)
Fixpoint digits (b : Z) (fuel : nat) (n : Z) : list Z :=
  match fuel with
  | O => []
  | S f => if n <? b then [n] else (n mod b) :: digits b f (n / b)
  end.
Fixpoint str (ch : Z -> ascii) (ds : list Z) (acc : string) : string :=
  match ds with
  | [] => acc
  | d :: r => str ch r (String (ch d) acc)
  end.
Definition numstr b ch fuel w n := str ch (digits b fuel n ++ repeat 0 (w - List.length (digits b fuel n)))%list "".

Lemma hex_is : forall w n, fmt_hex w n = numstr 16 hex_char 16 w n.
Proof.
  assert (D : forall f n, hex_digits f n = digits 16 f n) by (induction f as [|f IH]; intros n; cbn; [|rewrite IH]; reflexivity).
  assert (S : forall ds a, hex_of_rev ds a = str hex_char ds a) by (induction ds as [|d ds IH]; intros a; cbn; auto).
  intros. unfold fmt_hex, numstr. rewrite D, S. reflexivity.
Qed.
Lemma dec_is : forall w n, fmt_dec w n = numstr 10 digit_char 20 w n.
Proof.
  assert (D : forall f n, dec_digits f n = digits 10 f n) by (induction f as [|f IH]; intros n; cbn [dec_digits digits]; [|rewrite IH]; reflexivity).
  assert (S : forall ds a, string_of_rev ds a = str digit_char ds a) by (induction ds as [|d ds IH]; intros a; cbn; auto).
  intros. unfold fmt_dec, numstr. rewrite D, S. reflexivity.
Qed.

Fixpoint vrev (b : Z) (ds : list Z) : Z := match ds with [] => 0 | d :: r => d + b * vrev b r end.

Lemma vrev_zeros : forall b ds k, vrev b (ds ++ repeat 0 k)%list = vrev b ds.
Proof.
  induction ds as [|d ds IH]; intros k; cbn.
  - induction k as [|k IHk]; cbn; auto. rewrite IHk. lia.
  - rewrite IH. reflexivity.
Qed.

Lemma digits_value : forall b, 2 <= b -> forall f n, 0 <= n < b ^ Z.of_nat f -> vrev b (digits b f n) = n.
Proof.
  intros b Hb. induction f as [|f IH]; intros n Hn.
  - cbn in *. lia.
  - cbn [digits]. destruct (Z.ltb_spec n b); cbn [vrev]; [lia|].
    rewrite Nat2Z.inj_succ, Z.pow_succ_r in Hn by lia.
    rewrite IH; [pose proof (Z.div_mod n b); lia|]. split; [apply Z.div_pos; lia|apply Z.div_lt_upper_bound; lia].
Qed.

Lemma digits_range : forall b, 2 <= b -> forall f n, 0 <= n -> Forall (fun d => 0 <= d < b) (digits b f n).
Proof.
  intros b Hb. induction f as [|f IH]; intros n Hn; cbn; [constructor|].
  destruct (Z.ltb_spec n b); constructor; auto; [apply Z.mod_pos_bound; lia|]. apply IH. apply Z.div_pos; lia.
Qed.

Lemma digits_last : forall b, 2 <= b -> forall f n, 0 < n -> n < b ^ Z.of_nat f -> exists ds d, digits b f n = (ds ++ [d])%list /\ d <> 0.
Proof.
  intros b Hb. induction f as [|f IH]; intros n Hn Hf; [cbn in Hf; lia|]. cbn [digits].
  destruct (Z.ltb_spec n b); [exists [], n; split; [reflexivity|lia]|].
  rewrite Nat2Z.inj_succ, Z.pow_succ_r in Hf by lia.
  destruct (IH (n / b)) as (ds & d & -> & D); [apply Z.div_str_pos; lia|apply Z.div_lt_upper_bound; lia|].
  exists (n mod b :: ds), d. auto.
Qed.

Lemma str_app : forall ch a b s, str ch (a ++ b)%list s = str ch b (str ch a s).
Proof. induction a as [|x a IH]; intros b s; cbn; auto. Qed.

Lemma str_length : forall ch ds s, String.length (str ch ds s) = (List.length ds + String.length s)%nat.
Proof. induction ds as [|d ds IH]; intros s; cbn [str List.length]; [reflexivity|]. rewrite IH. cbn [String.length]. lia. Qed.

Lemma str_reading : forall b ch, (forall d, 0 <= d < b -> digit (ch d) = Some d) -> forall ds s a, Forall (fun d => 0 <= d < b) ds ->
  reading b a (str ch ds s) = reading b (a * b ^ Z.of_nat (List.length ds) + vrev b ds) s.
Proof.
  intros b ch Hc. induction ds as [|d ds IH]; intros s a F.
  - cbn. f_equal. lia.
  - inversion_clear F as [|? ? F1 F2]. cbn [str]. rewrite IH by auto. cbn [reading]. rewrite (Hc d F1).
    destruct (Z.ltb_spec d b); [|lia]. f_equal. cbn [List.length vrev]. rewrite Nat2Z.inj_succ, Z.pow_succ_r by lia. ring.
Qed.

Lemma numstr_numeral : forall b ch f w n, 2 <= b -> (forall d, 0 <= d < b -> digit (ch d) = Some d) -> (1 <= w)%nat ->
  0 <= n < b ^ Z.of_nat f -> numeral b w n (numstr b ch f w n).
Proof.
  intros b ch f w n Hb Hc Hw Hn. unfold numstr. set (ds := digits b f n).
  assert (V : vrev b ds = n) by (apply digits_value; auto).
  assert (F : Forall (fun d => 0 <= d < b) ds) by (apply digits_range; lia).
  split.
  - rewrite (str_reading b ch Hc).
    + cbn [reading]. rewrite vrev_zeros, V. reflexivity.
    + apply Forall_app. split; [exact F|]. apply Forall_forall. intros x X. apply repeat_spec in X as ->. lia.
  - rewrite str_length, app_length, repeat_length. cbn [String.length].
    destruct (Nat.le_gt_cases (List.length ds) w) as [L|L]; [left; lia|]. right. split; [lia|].
    replace (w - List.length ds)%nat with 0%nat by lia. cbn [repeat]. rewrite app_nil_r.
    destruct (Z.eq_dec n 0) as [->|N].
    { exfalso. unfold ds in L. destruct f as [|f]; cbn in L; [lia|]. destruct (Z.ltb_spec 0 b); cbn in L; lia. }
    destruct (digits_last b Hb f n) as (r & d & E & D); [lia..|]. fold ds in E. rewrite E, str_app. cbn [str].
    eexists. eexists. split; [reflexivity|]. intros X.
    assert (R : 0 <= d < b). { rewrite E in F. apply Forall_app in F as [_ F]. inversion F; auto. }
    pose proof (Hc d R) as Y. rewrite X in Y. injection Y. intros. apply D. symmetry. assumption.
Qed.

Lemma hex_char_digit : forall d, 0 <= d < 16 -> digit (hex_char d) = Some d.
Proof.
  intros d H. assert (X : In d [0;1;2;3;4;5;6;7;8;9;10;11;12;13;14;15]) by (cbn; lia).
  cbn in X. repeat (destruct X as [<-|X]; [reflexivity|]). contradiction.
Qed.
Lemma dec_char_digit : forall d, 0 <= d < 10 -> digit (digit_char d) = Some d.
Proof.
  intros d H. assert (X : In d [0;1;2;3;4;5;6;7;8;9]) by (cbn; lia).
  cbn in X. repeat (destruct X as [<-|X]; [reflexivity|]). contradiction.
Qed.

Lemma fmt_hex_numeral : forall w n, (1 <= w)%nat -> small n -> numeral 16 w n (fmt_hex w n).
Proof.
  intros w n W H. rewrite hex_is. apply numstr_numeral; [lia|exact hex_char_digit|auto|].
  unfold small in H. change (16 ^ Z.of_nat 16) with (2 ^ 64). lia.
Qed.
Lemma fmt_dec_numeral : forall w n, (1 <= w)%nat -> small n -> numeral 10 w n (fmt_dec w n).
Proof.
  intros w n W H. rewrite dec_is. apply numstr_numeral; [lia|exact dec_char_digit|auto|].
  unfold small in H. change (10 ^ Z.of_nat 20) with 100000000000000000000. lia.
Qed.

Lemma format_pcr : forall v, 0 <= v < 300 * 2 ^ 33 ->
  pp_pcr_text v = fmt_dec 10 (v / 300) ++ "+" ++ fmt_dec 3 (v mod 300).
Proof.
  intros v H. unfold pp_pcr_text, FormatPcr, IsValidPcr, kPcrUpperBound, kMaxPcr, kMaxPcrExt.
  replace ((0 <=? v) && _) with true.
  - cbn [assert]. rewrite Z.quot_div_nonneg, Z.rem_mod_nonneg by lia. reflexivity.
  - symmetry. apply andb_true_iff. split; [apply Z.leb_le; lia|]. apply Z.leb_le. change (Z.shiftl 1 33) with (2 ^ 33). lia.
Qed.

Lemma text_written : forall show l, printable l -> written show l (pp_text show l).
Proof.
  intros show l P. unfold written.
  assert (S : exists m, says show l m /\ pp_message show l = m).
  { eexists. split; [|reflexivity].
    destruct l as [k pid kind time v|version pid|sid pid|version|sid q version|pid k type|sid version|index id start stop minutes|t];
      cbn [printable] in P; unfold pp_message, says, fmt_int, decimal, hex4, hex2.
    - destruct P as (P1 & P2 & P3 & P4). destruct k; [|destruct kind as [[]|]..]; (eexists; split; [apply fmt_hex_numeral; [lia|exact P1]|reflexivity]).
    - destruct P as (P1 & P2). eexists. eexists. split; [apply fmt_dec_numeral; [lia|exact P1]|]. split; [apply fmt_hex_numeral; [lia|exact P2]|reflexivity].
    - destruct P as (P1 & P2). eexists. eexists. split; [apply fmt_hex_numeral; [lia|exact P1]|]. split; [apply fmt_hex_numeral; [lia|exact P2]|reflexivity].
    - eexists. split; [apply fmt_dec_numeral; [lia|exact P]|reflexivity].
    - destruct P as (P1 & P2 & P3). eexists. eexists. eexists. split; [apply fmt_hex_numeral; [lia|exact P1]|]. split; [apply fmt_hex_numeral; [lia|exact P2]|].
      split; [apply fmt_dec_numeral; [lia|exact P3]|reflexivity].
    - destruct P as (P1 & P2). eexists. eexists. split; [apply fmt_hex_numeral; [lia|exact P1]|]. split; [apply fmt_hex_numeral; [lia|exact P2]|]. destruct k; reflexivity.
    - destruct P as (P1 & P2). eexists. eexists. split; [apply fmt_hex_numeral; [lia|exact P1]|]. split; [apply fmt_dec_numeral; [lia|exact P2]|reflexivity].
    - destruct P as (P1 & P2 & _ & _ & P3). eexists. eexists. eexists. split; [apply fmt_dec_numeral; [lia|exact P1]|]. split; [apply fmt_hex_numeral; [lia|exact P2]|].
      split; [apply fmt_dec_numeral; [lia|exact P3]|reflexivity].
    - reflexivity. }
  destruct S as (m & S & E).
  destruct l as [k pid kind time v|version pid|sid pid|version|sid q version|pid k type|sid version|index id start stop minutes|t];
    cbn [time_column pcr_column pp_text];
    [|eexists; eexists; exists m; split; [reflexivity|]; split; [reflexivity|]; split; [exact S|]; rewrite E; reflexivity..].
  destruct P as (P1 & P2 & P3 & P4).
  exists (match time with Some t => show t | None => "                       " end), (pp_pcr_text v), m.
  split; [destruct time; reflexivity|]. split.
  - rewrite format_pcr by auto. eexists. eexists. split; [apply fmt_dec_numeral; [lia|]|]; [|split; [apply fmt_dec_numeral; [lia|]|reflexivity]]; unfold small.
    + split; [apply Z.div_pos; lia|apply Z.div_lt_upper_bound; lia].
    + pose proof (Z.mod_pos_bound v 300). lia.
  - split; [exact S|]. rewrite E. destruct time; reflexivity.
Qed.

(** * Reading the text back *)
Lemma has_app : forall c a b, has c (a ++ b) <-> has c a \/ has c b.
Proof. induction a as [|x a IH]; intros b; cbn; [tauto|]. rewrite IH. tauto. Qed.

Lemma cut_at : forall c a b x y, ~ has c a -> ~ has c b -> a ++ String c x = b ++ String c y -> a = b /\ x = y.
Proof.
  induction a as [|u a IH]; intros [|w b] x y A B H; cbn in *.
  - injection H. auto.
  - injection H as -> _. exfalso. apply B. auto.
  - injection H as -> _. exfalso. apply A. auto.
  - injection H as -> H. destruct (IH b x y) as [-> ->]; auto.
Qed.
Lemma cut_length : forall a b x y : string, String.length a = String.length b -> a ++ x = b ++ y -> a = b /\ x = y.
Proof.
  induction a as [|u a IH]; intros [|w b] x y L H; cbn in *; try discriminate; auto.
  injection H as -> H. destruct (IH b x y) as [-> ->]; auto.
Qed.

Lemma reading_digits : forall b s a n c, reading b a s = Some n -> digit c = None -> ~ has c s.
Proof.
  induction s as [|x s IH]; intros a n c R D; cbn in *; [auto|].
  destruct (digit x) as [d|] eqn:E; [|discriminate]. destruct (d <? b); [|discriminate].
  intros [->|X]; [congruence|]. exact (IH _ _ _ R D X).
Qed.
Lemma numeral_no : forall b w n s c, numeral b w n s -> digit c = None -> ~ has c s.
Proof. intros b w n s c [R _] D. exact (reading_digits _ _ _ _ _ R D). Qed.
Lemma numeral_inj : forall b w n m s, numeral b w n s -> numeral b w m s -> n = m.
Proof. intros b w n m s [R _] [Q _]. congruence. Qed.

Lemma head_length : forall a, String.length a = 23%nat -> forall x y b, String.length b = 23%nat -> a ++ x = b ++ y -> a = b /\ x = y.
Proof. intros. apply cut_length; congruence. Qed.

Lemma pcr_column_bar : forall l c, pcr_column l c -> ~ has "|"%char c.
Proof.
  intros l c H. assert (B : ~ has "|"%char "              ") by (cbn; intuition discriminate).
  destruct l; cbn in H; try (subst c; exact B).
  destruct H as (b & e & N1 & N2 & ->). rewrite !has_app. intros [X|[X|X]].
  - exact (numeral_no _ _ _ _ "|" N1 eq_refl X).
  - cbn in X. intuition discriminate.
  - exact (numeral_no _ _ _ _ "|" N2 eq_refl X).
Qed.
Lemma time_column_length : forall show l c, legible show -> printable l -> time_column show l c -> String.length c = 23%nat.
Proof.
  intros show l c [L _] P H. destruct l as [k pid kind [t|] v| | | | | | | |t]; cbn in H; subst c; try reflexivity; apply L.
  - destruct P as (_ & _ & _ & P). auto.
  - exact P.
Qed.

Ltac no N := apply (numeral_no _ _ _ _ _ N); reflexivity.
Ltac field B := apply cut_at in B as [-> B]; [|match goal with N : numeral _ _ _ ?x |- ~ has _ ?x => no N end..].
Ltac nums := repeat match goal with X : numeral ?b ?w ?n ?s, Y : numeral ?b ?w ?k ?s |- _ => assert (n = k) by exact (numeral_inj _ _ _ _ _ X Y); clear Y; subst end.

Definition is_stamp (l : pp_line) : bool := match l with LStamp _ _ _ _ _ => true | _ => false end.
Lemma stamp_column : forall l c, pcr_column l c -> if is_stamp l then has "+"%char c else ~ has "+"%char c.
Proof.
  intros l c H. assert (B : ~ has "+"%char "              ") by (cbn; intuition discriminate).
  destruct l; cbn [is_stamp pcr_column] in *; try (subst c; exact B).
  destruct H as (b & e & N1 & N2 & ->). rewrite !has_app. right. left. cbn. auto.
Qed.

Lemma name_inj : forall k k' x y, name_of k ++ String "#" x = name_of k' ++ String "#" y -> k = k' /\ x = y.
Proof. intros k k' x y H. destruct k, k'; cbn [name_of append] in H; try discriminate H; injection H as H; auto. Qed.

Lemma pes_name : forall k x y, name_of k ++ String "#" x = String "P" y -> False.
Proof. intros [] x y H; cbn in H; discriminate H. Qed.

(** The messages that are not those of time stamps. *)
Lemma says_inj : forall show l l' m, legible show -> printable l -> printable l' -> is_stamp l = false -> is_stamp l' = false ->
  says show l m -> says show l' m -> (forall t t', l = LTot t -> l' = LTot t' -> t = t') -> l = l'.
Proof.
  intros show l l' m L P P' S S' A B T.
  destruct l as [k pid kind time v|version pid|sid pid|version|sid q version|pid k type|sid version|index id start stop minutes|t]; [discriminate S|..];
  destruct l' as [k' pid' kind' time' v'|version' pid'|sid' pid'|version'|sid' q' version'|pid' k' type'|sid' version'|index' id' start' stop' minutes'|t']; try discriminate S';
  cbn [says] in A, B;
  repeat match goal with H : exists _, _ |- _ => let a := fresh "x" in destruct H as [a H] | H : _ /\ _ |- _ => let a := fresh "N" in destruct H as [a H] end;
  subst m; try discriminate B.
  all: try (cbn [append] in B; discriminate B).
  all: unfold hex4, hex2, decimal in *; cbn [append] in B.
  - injection B as B. field B. injection B as ->. nums. reflexivity.
  - injection B as B. field B. injection B as ->. nums. reflexivity.
  - injection B as ->. nums. reflexivity.
  - injection B as B. field B. injection B as B. field B. injection B as ->. nums. reflexivity.
  - injection B as B. field B. injection B as B. apply name_inj in B as [-> ->]. nums. reflexivity.
  - injection B as B. field B. injection B as ->. nums. reflexivity.
  - destruct P as (_ & _ & P1 & P2 & _), P' as (_ & _ & P1' & P2' & _).
    injection B as B. field B. injection B as B. field B.
    apply cut_length in B as [E B]; [|rewrite (proj1 (proj1 L _ P1)), (proj1 (proj1 L _ P1')); reflexivity]. apply (proj2 L) in E; auto. subst.
    injection B as B.
    apply cut_length in B as [E B]; [|rewrite (proj1 (proj1 L _ P2)), (proj1 (proj1 L _ P2')); reflexivity]. apply (proj2 L) in E; auto. subst.
    injection B as B. field B. nums. reflexivity.
  - f_equal. apply T; reflexivity.
Qed.

Lemma stamps_inj : forall show k pid kind time v k' pid' kind' time' v' m, 
  printable (LStamp k pid kind time v) -> printable (LStamp k' pid' kind' time' v') ->
  says show (LStamp k pid kind time v) m -> says show (LStamp k' pid' kind' time' v') m -> k = k' /\ pid = pid' /\ kind = kind'.
Proof.
  intros show k pid kind time v k' pid' kind' time' v' m (_ & _ & K & _) (_ & _ & K' & _) A B.
  assert (X : forall a : string, a ++ " PTS" = a ++ String " " "PTS") by reflexivity.
  destruct k, k'; try rewrite (K eq_refl) in *; try rewrite (K' eq_refl) in *; clear K K';
    cbn [says] in A, B; try (destruct kind as [n|]); try (destruct kind' as [n'|]);
    repeat match goal with H : exists _, _ |- _ => let a := fresh "x" in destruct H as [a H] | H : _ /\ _ |- _ => let a := fresh "N" in destruct H as [a H] end;
    subst m; unfold hex4 in *; cbn [append] in B; try discriminate B;
    try (exfalso; first [exact (pes_name _ _ _ B)|exact (pes_name _ _ _ (eq_sym B))]);
    try (apply name_inj in B as [-> B]); try (injection B as B); try (field B; try discriminate B);
    subst; nums; auto.
Qed.

Lemma column_inj : forall k pid kind time v k' pid' kind' time' v' c, 
  pcr_column (LStamp k pid kind time v) c -> pcr_column (LStamp k' pid' kind' time' v') c -> v = v'.
Proof.
  intros until c. cbn. intros (b & e & B & E & ->) (b' & e' & B' & E' & H). cbn [append] in H. field H. subst. nums.
  rewrite (Z.div_mod v 300), (Z.div_mod v' 300) by lia. congruence.
Qed.

Lemma time_inj : forall show k pid kind time v k' pid' kind' time' v' c, legible show ->
  printable (LStamp k pid kind time v) -> printable (LStamp k' pid' kind' time' v') ->
  time_column show (LStamp k pid kind time v) c -> time_column show (LStamp k' pid' kind' time' v') c -> time = time'.
Proof.
  intros show k pid kind time v k' pid' kind' time' v' c L (_ & _ & _ & P) (_ & _ & _ & P') A B.
  destruct time as [t|], time' as [t'|]; cbn in A, B; subst c.
  - f_equal. apply (proj2 L); auto.
  - exfalso. destruct (proj1 L t (P _ eq_refl)) as (_ & _ & x & r & E & N). rewrite E in B. injection B as -> _. auto.
  - exfalso. destruct (proj1 L t' (P' _ eq_refl)) as (_ & _ & x & r & E & N). rewrite E in B. injection B as <- _. auto.
  - reflexivity.
Qed.

(** No line has a line feed but at its end. *)
Lemma has_no : forall show l c1 c2 m, legible show -> printable l -> time_column show l c1 -> pcr_column l c2 -> says show l m ->
  ~ has line_feed (c1 ++ "|" ++ c2 ++ "|" ++ m).
Proof.
  intros show l c1 c2 m L P A B C. rewrite !has_app.
  assert (X : ~ has line_feed "|") by (cbn; intuition discriminate).
  assert (X1 : ~ has line_feed c1).
  { assert (Bl : ~ has line_feed "                       ") by (cbn; intuition discriminate).
    destruct l as [k pid kind [t|] v| | | | | | | |t]; cbn [time_column] in A; subst c1; try exact Bl; apply (proj1 L); [apply P; reflexivity|exact P]. }
  assert (X2 : ~ has line_feed c2).
  { assert (Bl : ~ has line_feed "              ") by (cbn; intuition discriminate).
    destruct l; cbn [pcr_column] in B; try (subst c2; exact Bl).
    destruct B as (b & e & N1 & N2 & ->). rewrite !has_app. intros [Y|[Y|Y]]; [revert Y; no N1|cbn in Y; intuition discriminate|revert Y; no N2]. }
  assert (X3 : ~ has line_feed m).
  { assert (K : forall k, ~ has line_feed (name_of k)) by (intros []; cbn; intuition discriminate).
    assert (Sh : forall t, era t -> ~ has line_feed (show t)) by (intros; apply (proj1 L); auto).
    destruct l as [k pid kind time v|version pid|sid pid|version|sid q version|pid k type|sid version|index id start stop minutes|t];
      [destruct k; [|destruct kind as [n|]..]|..]; cbn [says] in C;
      repeat match goal with H : exists _, _ |- _ => let a := fresh "x" in destruct H as [a H] | H : _ /\ _ |- _ => let a := fresh "N" in destruct H as [a H] end;
      subst m; rewrite ?has_app; intros Y;
      repeat match type of Y with _ \/ _ => destruct Y as [Y|Y] end;
      try (revert Y; apply K; fail);
      try (match goal with N : hex4 _ ?x |- _ => revert Y; no N | N : hex2 _ ?x |- _ => revert Y; no N | N : decimal _ ?x |- _ => revert Y; no N end; fail);
      try (cbn in Y; intuition discriminate; fail).
    all: cbn [printable] in P; try (apply (Sh start) in Y; [exact Y|]; tauto); try (apply (Sh stop) in Y; [exact Y|]; tauto). }
  tauto.
Qed.

Lemma app_assoc' : forall a b c : string, (a ++ b) ++ c = a ++ b ++ c.
Proof. induction a as [|x a IH]; intros b c; cbn; [reflexivity|]. rewrite IH. reflexivity. Qed.

Lemma output_inj : forall show, legible show -> forall ls ls', Forall printable ls -> Forall printable ls' ->
  pp_output show ls = pp_output show ls' -> ls = ls'.
Proof.
  intros show L. 
  assert (N : forall l, printable l -> exists c1 c2 m, time_column show l c1 /\ pcr_column l c2 /\ says show l m /\
    forall r, pp_text show l ++ r = (c1 ++ "|" ++ c2 ++ "|" ++ m) ++ String line_feed r).
  { intros l P. destruct (text_written show l P) as (c1 & c2 & m & A & B & C & E). exists c1, c2, m. do 3 (split; [assumption|]).
    intros r. rewrite E. repeat (rewrite app_assoc'; cbn [append]). reflexivity. }
  induction ls as [|l ls IH]; intros [|l' ls'] F F' H; [reflexivity| | |].
  - exfalso. inversion_clear F' as [|? ? P' _]. destruct (N l' P') as (c1 & c2 & m & _ & _ & _ & E). cbn [pp_output] in H. rewrite E in H.
    destruct (c1 ++ "|" ++ c2 ++ "|" ++ m); discriminate H.
  - exfalso. inversion_clear F as [|? ? P _]. destruct (N l P) as (c1 & c2 & m & _ & _ & _ & E). cbn [pp_output] in H. rewrite E in H.
    destruct (c1 ++ "|" ++ c2 ++ "|" ++ m); discriminate H.
  - inversion_clear F as [|? ? P F2]. inversion_clear F' as [|? ? P' F2']. cbn [pp_output] in H.
    destruct (N l P) as (c1 & c2 & m & A & B & C & E). destruct (N l' P') as (c1' & c2' & m' & A' & B' & C' & E').
    rewrite E, E' in H. apply cut_at in H as [H R]; [|apply (has_no show l c1 c2 m); assumption|apply (has_no show l' c1' c2' m'); assumption]. f_equal; [|apply IH; auto].
    apply cut_length in H as [<- H]; [|rewrite (time_column_length show l), (time_column_length show l'); auto].
    cbn [append] in H. injection H as H. apply cut_at in H as [<- H]; [|exact (pcr_column_bar _ _ B)|exact (pcr_column_bar _ _ B')]. subst m'.
    pose proof (stamp_column _ _ B) as S. pose proof (stamp_column _ _ B') as S'.
    destruct (is_stamp l) eqn:Es, (is_stamp l') eqn:Es'; try contradiction.
    + destruct l as [k pid kind time v| | | | | | | |]; try discriminate Es. destruct l' as [k' pid' kind' time' v'| | | | | | | |]; try discriminate Es'.
      destruct (stamps_inj show _ _ _ _ _ _ _ _ _ _ m P P' C C') as (<- & <- & <-). f_equal.
      * exact (time_inj show _ _ _ _ _ _ _ _ _ _ c1 L P P' A A').
      * exact (column_inj _ _ _ _ _ _ _ _ _ _ c2 B B').
    + apply (says_inj show l l' m); auto. intros t t' -> ->. cbn in A, A', P, P'. apply (proj2 L); auto. congruence.
Qed.

(** * The widths of the columns *)
Lemma fmt_dec_length : forall w n, (1 <= w <= 20)%nat -> 0 <= n < 10 ^ Z.of_nat w -> String.length (fmt_dec w n) = w.
Proof.
  intros w n W H. rewrite dec_is. unfold numstr. rewrite str_length, app_length, repeat_length. cbn [String.length].
  assert (D : forall f n, dec_digits f n = digits 10 f n) by (induction f as [|f IH]; intros k; cbn [dec_digits digits]; [|rewrite IH]; reflexivity).
  rewrite <- D. pose proof (dec_digits_length 20 n w H). lia.
Qed.
Lemma str_app_length : forall a b, String.length (a ++ b) = (String.length a + String.length b)%nat.
Proof. induction a as [|x a IH]; intros b; cbn; auto. Qed.
Lemma text_columns : forall show l, legible show -> printable l -> exists c1 c2 m, 
  pp_text show l = c1 ++ "|" ++ c2 ++ "|" ++ m ++ String line_feed "" /\ String.length c1 = 23%nat /\ String.length c2 = 14%nat /\
  time_column show l c1 /\ pcr_column l c2 /\ says show l m.
Proof.
  intros show l L P. destruct (text_written show l P) as (c1 & c2 & m & A & B & C & E).
  assert (X : exists c3, pcr_column l c3 /\ String.length c3 = 14%nat /\ pp_text show l = c1 ++ "|" ++ c3 ++ "|" ++ m ++ String line_feed "").
  { destruct l as [k pid kind time v| | | | | | | |]; [|exists c2; split; [exact B|]; split; [cbn in B; subst c2; reflexivity|exact E]..].
    pose proof P as (P1 & P2 & P3 & P4).
    assert (D1 : 0 <= v / 300 < 2 ^ 33) by (split; [apply Z.div_pos; lia|apply Z.div_lt_upper_bound; lia]).
    pose proof (Z.mod_pos_bound v 300 ltac:(lia)) as D2.
    exists (pp_pcr_text v). split; [|split].
    - rewrite format_pcr by auto. cbn [pcr_column]. eexists. eexists. split; [apply fmt_dec_numeral; [lia|]|split; [apply fmt_dec_numeral; [lia|]|reflexivity]]; unfold small; lia.
    - rewrite format_pcr by auto. rewrite str_app_length. cbn [append String.length].
      rewrite (fmt_dec_length 10) by (try lia; change (10 ^ Z.of_nat 10) with 10000000000; lia).
      rewrite (fmt_dec_length 3) by (try lia; change (10 ^ Z.of_nat 3) with 1000; lia). reflexivity.
    - assert (Y : exists z, pp_text show (LStamp k pid kind time v) = c1 ++ String "|" (pp_pcr_text v ++ String "|" z)).
      { destruct time as [t|]; cbn [time_column] in A; subst c1; eexists; reflexivity. }
      destruct Y as [z Y]. rewrite Y. rewrite Y in E. apply cut_length in E as [_ E]; [|reflexivity]. cbn [append] in *. injection E as E.
      apply cut_at in E as [-> ->]; [reflexivity| |exact (pcr_column_bar _ _ B)].
      apply (pcr_column_bar (LStamp k pid kind time v)). rewrite format_pcr by auto. cbn [pcr_column]. eexists. eexists.
      split; [apply fmt_dec_numeral; [lia|]|split; [apply fmt_dec_numeral; [lia|]|reflexivity]]; unfold small; lia. }
  destruct X as (c3 & X1 & X2 & X3). exists c1, c3, m. split; [exact X3|]. split; [exact (time_column_length show l c1 L P A)|]. auto.
Qed.

(** * The lines print-pes prints *)
Definition fair (e : ev) : Prop :=
  match e with
  | Stamp _ pid v => word pid /\ 0 <= v < 300 * 2 ^ 33
  | Tab pid b => word pid /\
      match b with
      | TPat (Some t) => word (pat_version t) /\ forall sid pid, In (sid, pid) (pat_entries t) -> word sid /\ word pid
      | TCat (Some t) => word (cat_version t)
      | TPmt (Some m) => word (pmt_sid m) /\ word (pmt_version m) /\ word (pmt_pcr_pid m) /\
          forall pid v, In (pid, v) (pmt_entries m) -> word pid /\ word (es_type v)
      | TEit (Some e) => word (eit_sid e) /\ word (eit_version e) /\ word (Z.of_nat (List.length (eit_events e))) /\
          forall v, In v (eit_events e) -> word (ev_id v) /\ 0 <= ev_start v < 2 ^ 44 /\ 0 <= ev_duration v < 2 ^ 24
      | TTot (Some t) => 0 <= t < 2 ^ 44
      | _ => True
      end
  end.

Lemma mfind_in : forall V (l : list (Z * V)) k v, mfind k l = Some v -> In (k, v) l.
Proof. induction l as [|[a b] l IH]; intros k v H; cbn in *; [discriminate|]. destruct (Z.eqb_spec k a); [left; congruence|right; auto]. Qed.
Lemma in_map_of : forall V (l : list (Z * V)) k v, In (k, v) (map_of l) -> In (k, v) l.
Proof. intros V l k v H. apply In_map_of_mfind in H. rewrite mfind_map_of in H. apply mfind_in, in_rev in H. exact H. Qed.

Lemma word_small : forall n, word n -> small n.
Proof. unfold word, small. lia. Qed.

Lemma time_era : forall past q v T, Forall fair past -> 0 <= v < 300 * 2 ^ 33 -> time_of past q v = Some T -> era T.
Proof.
  intros past q v T F V H. destruct (time_source _ _ _ _ H) as (a & pid & m & b & a1 & p & a2 & t & r & -> & _ & _ & Ea & _ & Hr & ->).
  rewrite Forall_forall in F.
  destruct (F (Stamp SPcr q r)) as [_ R]; [apply in_or_app; auto|].
  destruct (F (Tab p (TTot (Some t)))) as [_ Q]; [apply in_or_app; left; rewrite Ea; apply in_or_app; right; left; reflexivity|].
  unfold era. assert (- 95443718 <= Z.quot (v - r) 27000 <= 95443718); [|lia].
  clear - R V. split; [apply Z.quot_le_lower_bound|apply Z.quot_le_upper_bound]; lia.
Qed.

Lemma events_printable : forall l i, 0 <= i -> i + Z.of_nat (List.length l) < 2 ^ 17 ->
  (forall v, In v l -> word (ev_id v) /\ 0 <= ev_start v < 2 ^ 44 /\ 0 <= ev_duration v < 2 ^ 24) -> Forall printable (event_lines i l).
Proof.
  induction l as [|v l IH]; intros i I B H; cbn [event_lines]; [constructor|].
  cbn [List.length] in B. destruct (H v (or_introl eq_refl)) as (H1 & H2 & H3). constructor.
  - cbn [printable]. unfold era. split; [unfold small; lia|]. split; [apply word_small; exact H1|]. split; [lia|]. split; [lia|].
    rewrite Z.quot_div_nonneg by lia. unfold small. split; [apply Z.div_pos; lia|apply Z.div_lt_upper_bound; lia].
  - apply IH; [lia|lia|]. intros; apply H; right; auto.
Qed.

Lemma lines_printable : forall past e, Forall fair past -> fair e -> Forall printable (lines past e).
Proof.
  intros past e F E. destruct e as [k pid v|pid b].
  - destruct E as [E1 E2].
    assert (X : forall k kind o, (k = SPcr -> kind = None) -> (forall t, o = Some t -> era t) -> Forall printable [LStamp k pid kind o v]).
    { intros k0 kind o H1 H2. repeat apply Forall_cons; [|constructor]. split; [apply word_small; exact E1|]. auto. }
    destruct k; cbn [lines].
    + destruct (calls pid past); [|constructor]. apply X; [auto|]. intros t. apply time_era; [constructor; [split; assumption|exact F]|exact E2].
    + destruct (stream_of pid past) as [[kind q]|]; apply X; try discriminate. intros t. apply time_era; auto.
    + destruct (stream_of pid past) as [[kind q]|]; apply X; try discriminate. intros t. apply time_era; auto.
  - destruct E as [E1 E2]. destruct b as [[t|]|[t|]|[m|]|[x|]|[x|]|[d|]|[n|]|]; cbn [lines]; try (constructor; fail).
    + destruct E2 as [E2 E3]. constructor; [split; apply word_small; assumption|]. apply Forall_forall. intros y Y. apply in_map_iff in Y as ([sid q] & <- & Y).
      apply in_map_of, filter_In in Y as [Y _]. destruct (E3 _ _ Y). split; apply word_small; assumption.
    + constructor; [apply word_small; exact E2|constructor].
    + destruct E2 as (A & B & C & D). constructor; [split; [|split]; apply word_small; assumption|].
      apply Forall_forall. intros y Y. apply in_map_iff in Y as ([q s] & <- & Y). apply in_map_of in Y. destruct (D _ _ Y). split; apply word_small; assumption.
    + destruct E2 as (A & B & C & D). destruct (zmem (eit_sid x) (map fst (services past))); [|constructor].
      constructor; [split; apply word_small; assumption|]. apply events_printable; [lia|unfold word in C; lia|exact D].
    + constructor; [|constructor]. unfold printable, era. lia.
Qed.

Lemma printed_printable : forall past, Forall fair past -> Forall printable (printed past).
Proof.
  induction past as [|e past IH]; intros F; cbn [printed]; [constructor|]. inversion_clear F as [|? ? E F'].
  apply Forall_app. split; [auto|apply lines_printable; auto].
Qed.

Lemma received_fair : forall ps past, (forall p, In p ps -> in_range p /\ narrow p) -> Forall fair past -> Forall fair (received past ps).
Proof.
  induction ps as [|p ps IH]; intros past H F; cbn [received]; [exact F|]. apply IH; [intros; apply H; right; auto|].
  destruct (H p (or_introl eq_refl)) as [(R1 & R2 & R3 & R4 & R5) (N1 & N2)].
  apply Forall_app. split; [|apply Forall_app; split; [|exact F]].
  - destruct (listens past (p_pid p)); [|constructor]. apply Forall_rev. unfold tables. apply Forall_forall. intros e I. apply in_map_iff in I as (t & <- & I).
    split; [exact N1|]. specialize (N2 t I). specialize (R4 t). specialize (R5 t).
    destruct (tb_body t) as [[x|]|[x|]|[m|]|[x|]|[x|]|[d|]|[n|]|]; auto.
    destruct N2 as (A & B & C & D). do 3 (split; [assumption|]). intros v V. split; [auto|]. exact (R5 x v I eq_refl V).
  - apply Forall_rev. unfold stamps. repeat (apply Forall_app; split).
    + destruct (p_pcr p) as [v|]; constructor; [|constructor]. split; [exact N1|]. auto.
    + destruct (p_pts p) as [v|]; constructor; [|constructor]. split; [exact N1|]. specialize (R2 v eq_refl). lia.
    + destruct (p_dts p) as [v|]; constructor; [|constructor]. split; [exact N1|]. specialize (R3 v eq_refl). lia.
Qed.
