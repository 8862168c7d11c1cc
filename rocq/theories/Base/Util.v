(** Numbers and lists shared by all models. *)
From Coq Require Import ZArith Lia List Bool.
From Verif Require Import Base.Outcome.
Import ListNotations.
Open Scope Z_scope.

(** C++ [int64_t] arithmetic: a result outside the range is undefined
    behaviour. *)
Definition int64_min : Z := - 2 ^ 63.
Definition int64_max : Z := 2 ^ 63 - 1.
Definition in_i64 (z : Z) : bool := (int64_min <=? z) && (z <=? int64_max).
Definition i64 (z : Z) : res Z := if in_i64 z then Ok z else Fail Undefined.

(** C++ [uint64_t] arithmetic wraps around. *)
Definition u64 (z : Z) : Z := z mod 2 ^ 64.
Definition u32 (z : Z) : Z := z mod 2 ^ 32.
Definition u16 (z : Z) : Z := z mod 2 ^ 16.
Definition u8 (z : Z) : Z := z mod 2 ^ 8.

Lemma i64_ok : forall z, int64_min <= z <= int64_max -> i64 z = Ok z.
Proof.
  intros z H. unfold i64, in_i64.
  destruct (Z.leb_spec int64_min z); destruct (Z.leb_spec z int64_max); cbn; auto; lia.
Qed.

Lemma i64_inv : forall z r, i64 z = Ok r -> r = z /\ int64_min <= z <= int64_max.
Proof.
  intros z r H. unfold i64, in_i64 in H.
  destruct (Z.leb_spec int64_min z); destruct (Z.leb_spec z int64_max); cbn in H; inversion H; subst; auto.
Qed.

(** List length, prefix and suffix with [Z] indices. *)
Definition zlen {A : Type} (l : list A) : Z := Z.of_nat (length l).
Definition ztake {A : Type} (n : Z) (l : list A) : list A := firstn (Z.to_nat n) l.
Definition zdrop {A : Type} (n : Z) (l : list A) : list A := skipn (Z.to_nat n) l.
(** [znth n l] is [None] outside the list: an out-of-bounds access. *)
Definition znth {A : Type} (n : Z) (l : list A) : option A :=
  if n <? 0 then None else nth_error l (Z.to_nat n).

Lemma zlen_nonneg : forall A (l : list A), 0 <= zlen l.
Proof. intros. unfold zlen. lia. Qed.

Lemma zlen_nil : forall A, zlen (@nil A) = 0.
Proof. reflexivity. Qed.

Lemma zlen_cons : forall A (x : A) l, zlen (x :: l) = 1 + zlen l.
Proof. intros. unfold zlen. cbn [length]. lia. Qed.

Lemma zlen_app : forall A (l m : list A), zlen (l ++ m) = zlen l + zlen m.
Proof. intros. unfold zlen. rewrite app_length. lia. Qed.

Lemma zlen_ztake : forall A n (l : list A), zlen (ztake n l) = Z.max 0 (Z.min n (zlen l)).
Proof. intros. unfold zlen, ztake. rewrite firstn_length. lia. Qed.

Lemma zlen_zdrop : forall A n (l : list A), zlen (zdrop n l) = zlen l - Z.max 0 (Z.min n (zlen l)).
Proof. intros. unfold zlen, zdrop. rewrite skipn_length. lia. Qed.

Lemma ztake_zdrop : forall A n (l : list A), ztake n l ++ zdrop n l = l.
Proof. intros. apply firstn_skipn. Qed.

Lemma ztake_all : forall A n (l : list A), zlen l <= n -> ztake n l = l.
Proof. intros. unfold ztake. apply firstn_all2. unfold zlen in H. lia. Qed.

Lemma zdrop_all : forall A n (l : list A), zlen l <= n -> zdrop n l = [].
Proof. intros. unfold zdrop. apply skipn_all2. unfold zlen in H. lia. Qed.

Lemma zdrop_0 : forall A n (l : list A), n <= 0 -> zdrop n l = l.
Proof. intros. unfold zdrop. replace (Z.to_nat n) with O by lia. reflexivity. Qed.

Lemma ztake_0 : forall A n (l : list A), n <= 0 -> ztake n l = [].
Proof. intros. unfold ztake. replace (Z.to_nat n) with O by lia. reflexivity. Qed.

Lemma zdrop_zdrop : forall A n m (l : list A), 0 <= n -> 0 <= m -> zdrop n (zdrop m l) = zdrop (m + n) l.
Proof.
  intros. unfold zdrop. replace (Z.to_nat (m + n)) with (Z.to_nat m + Z.to_nat n)%nat by lia.
  generalize (Z.to_nat n) as b. generalize (Z.to_nat m) as a. clear.
  intros a; revert l; induction a as [|a IH]; intros l b; [reflexivity|].
  destruct l as [|x l]; [cbn; apply skipn_nil | cbn; apply IH].
Qed.

Lemma zdrop_app_le : forall A n (l m : list A), n <= zlen l -> zdrop n (l ++ m) = zdrop n l ++ m.
Proof.
  intros. unfold zdrop. rewrite skipn_app.
  replace (Z.to_nat n - length l)%nat with O by (unfold zlen in H; lia). reflexivity.
Qed.

Lemma zdrop_app_ge : forall A n (l m : list A), zlen l <= n -> zdrop n (l ++ m) = zdrop (n - zlen l) m.
Proof.
  intros. unfold zdrop. rewrite skipn_app.
  rewrite skipn_all2 by (unfold zlen in H; lia). cbn.
  f_equal. unfold zlen. lia.
Qed.

Lemma ztake_app_le : forall A n (l m : list A), n <= zlen l -> ztake n (l ++ m) = ztake n l.
Proof.
  intros. unfold ztake. rewrite firstn_app.
  replace (Z.to_nat n - length l)%nat with O by (unfold zlen in H; lia). cbn. apply app_nil_r.
Qed.

Lemma ztake_app_ge : forall A n (l m : list A), zlen l <= n -> ztake n (l ++ m) = l ++ ztake (n - zlen l) m.
Proof.
  intros. unfold ztake. rewrite firstn_app.
  rewrite firstn_all2 by (unfold zlen in H; lia).
  f_equal. f_equal. unfold zlen. lia.
Qed.

Lemma znth_app_l : forall A n (l m : list A), n < zlen l -> znth n (l ++ m) = znth n l.
Proof.
  intros. unfold znth. destruct (Z.ltb_spec n 0); auto.
  apply nth_error_app1. unfold zlen in H. lia.
Qed.

Lemma znth_app_r : forall A n (l m : list A), zlen l <= n -> znth n (l ++ m) = znth (n - zlen l) m.
Proof.
  intros. unfold znth. pose proof (zlen_nonneg A l).
  destruct (Z.ltb_spec n 0); [lia|]. destruct (Z.ltb_spec (n - zlen l) 0); [lia|].
  rewrite nth_error_app2 by (unfold zlen in H; lia). f_equal. unfold zlen. lia.
Qed.

Lemma znth_some : forall A n (l : list A), 0 <= n < zlen l -> exists x, znth n l = Some x.
Proof.
  intros. unfold znth. destruct (Z.ltb_spec n 0); [lia|].
  destruct (nth_error l (Z.to_nat n)) eqn:E; eauto.
  apply nth_error_None in E. unfold zlen in H. lia.
Qed.

Lemma znth_none : forall A n (l : list A), n < 0 \/ zlen l <= n -> znth n l = None.
Proof.
  intros. unfold znth. destruct (Z.ltb_spec n 0); auto.
  apply nth_error_None. unfold zlen in H. lia.
Qed.

Lemma znth_range : forall A n (l : list A) x, znth n l = Some x -> 0 <= n < zlen l.
Proof.
  intros. unfold znth in H. destruct (Z.ltb_spec n 0); [discriminate|].
  assert (nth_error l (Z.to_nat n) <> None) by congruence.
  apply nth_error_Some in H1. unfold zlen. lia.
Qed.

Lemma znth_zdrop : forall A n k (l : list A), 0 <= k -> 0 <= n -> znth n (zdrop k l) = znth (k + n) l.
Proof.
  intros. unfold znth, zdrop.
  destruct (Z.ltb_spec n 0); [lia|]. destruct (Z.ltb_spec (k + n) 0); [lia|].
  replace (Z.to_nat (k + n)) with (Z.to_nat k + Z.to_nat n)%nat by lia.
  generalize (Z.to_nat n) as b. generalize (Z.to_nat k) as a. clear.
  intros a. revert l. induction a as [|a IH]; intros l b; [reflexivity|].
  destruct l as [|x l]; cbn; [destruct b; reflexivity|apply IH].
Qed.

Lemma znth_ztake : forall A n k (l : list A), n < k -> znth n (ztake k l) = znth n l.
Proof.
  intros. unfold znth, ztake.
  destruct (Z.ltb_spec n 0); auto.
  assert (Hlt : (Z.to_nat n < Z.to_nat k)%nat) by lia. revert Hlt.
  generalize (Z.to_nat n) as b. generalize (Z.to_nat k) as a. clear.
  intros a. revert l. induction a as [|a IH]; intros l b Hlt; [lia|].
  destruct l as [|x l]; cbn; [destruct b; reflexivity|].
  destruct b as [|b]; cbn; [reflexivity|apply IH; lia].
Qed.

Lemma znth_ext : forall A (l m : list A), zlen l = zlen m ->
  (forall n, 0 <= n < zlen l -> znth n l = znth n m) -> l = m.
Proof.
  intros A l. induction l as [|x l IH]; intros m Hl H.
  - destruct m; [reflexivity|]. rewrite zlen_cons in Hl. pose proof (zlen_nonneg _ m). rewrite zlen_nil in Hl. lia.
  - destruct m as [|y m].
    + rewrite zlen_cons in Hl. pose proof (zlen_nonneg _ l). rewrite zlen_nil in Hl. lia.
    + rewrite !zlen_cons in Hl. pose proof (zlen_nonneg _ l).
      assert (x = y).
      { specialize (H 0). rewrite zlen_cons in H. specialize (H ltac:(lia)). cbv in H. congruence. }
      subst. f_equal. apply IH; [lia|]. intros n Hn.
      specialize (H (n + 1)). rewrite zlen_cons in H. specialize (H ltac:(lia)).
      unfold znth in *. destruct (Z.ltb_spec n 0); [lia|]. destruct (Z.ltb_spec (n + 1) 0); [lia|].
      replace (Z.to_nat (n + 1)) with (S (Z.to_nat n)) in H by lia. exact H.
Qed.

(** Membership test on lists of [Z] (used for std::set / std::unordered_set of
    integers, whose iteration order is never observed by the code). *)
Definition zmem (x : Z) (l : list Z) : bool := existsb (Z.eqb x) l.

Lemma zmem_In : forall x l, zmem x l = true <-> In x l.
Proof.
  intros. unfold zmem. rewrite existsb_exists. split.
  - intros [y [H1 H2]]. apply Z.eqb_eq in H2. congruence.
  - intros H. exists x. split; auto. apply Z.eqb_refl.
Qed.

Lemma zmem_false : forall x l, zmem x l = false <-> ~ In x l.
Proof.
  intros. rewrite <- zmem_In. destruct (zmem x l); split; congruence.
Qed.

(** Set insertion and removal. *)
Definition zadd (x : Z) (l : list Z) : list Z := if zmem x l then l else x :: l.
Definition zrem (x : Z) (l : list Z) : list Z := filter (fun y => negb (Z.eqb x y)) l.

Lemma In_zadd : forall x y l, In x (zadd y l) <-> x = y \/ In x l.
Proof.
  intros. unfold zadd. destruct (zmem y l) eqn:E; cbn.
  - apply zmem_In in E. split; [auto|]. intros [->|H]; auto.
  - split; intros [H|H]; auto.
Qed.

Lemma In_zrem : forall x y l, In x (zrem y l) <-> x <> y /\ In x l.
Proof.
  intros. unfold zrem. rewrite filter_In. rewrite negb_true_iff, Z.eqb_neq.
  split; intros [H1 H2]; split; auto.
Qed.

Lemma zmem_zadd : forall x y l, zmem x (zadd y l) = (x =? y) || zmem x l.
Proof.
  intros. apply eq_true_iff_eq. rewrite orb_true_iff, !zmem_In, In_zadd, Z.eqb_eq. tauto.
Qed.

Lemma zmem_zrem : forall x y l, zmem x (zrem y l) = negb (x =? y) && zmem x l.
Proof.
  intros. apply eq_true_iff_eq. rewrite andb_true_iff, negb_true_iff, !zmem_In, In_zrem, Z.eqb_neq. tauto.
Qed.

(** std::map<K, V> with integer keys: association list sorted by key, so that
    iteration is in ascending key order. *)
Fixpoint minsert {V : Type} (k : Z) (v : V) (m : list (Z * V)) : list (Z * V) :=
  match m with
  | [] => [(k, v)]
  | (k', v') :: r =>
      if k <? k' then (k, v) :: m
      else if k =? k' then (k, v) :: r
      else (k', v') :: minsert k v r
  end.

Fixpoint mfind {V : Type} (k : Z) (m : list (Z * V)) : option V :=
  match m with
  | [] => None
  | (k', v) :: r => if k =? k' then Some v else mfind k r
  end.

(** The std::map obtained by assigning the pairs in order ([m[k] = v]). *)
Definition map_of {V : Type} (l : list (Z * V)) : list (Z * V) :=
  fold_left (fun m kv => minsert (fst kv) (snd kv) m) l [].

Fixpoint msorted {V : Type} (lo : Z) (m : list (Z * V)) : Prop :=
  match m with
  | [] => True
  | (k, _) :: r => lo < k /\ msorted k r
  end.

Definition is_map {V : Type} (m : list (Z * V)) : Prop :=
  match m with
  | [] => True
  | (k, _) :: r => msorted k r
  end.

Lemma msorted_weaken : forall V lo lo' (m : list (Z * V)), lo' <= lo -> msorted lo m -> msorted lo' m.
Proof. intros V lo lo' [|[k v] r] H Hs; cbn in *; intuition lia. Qed.

Lemma msorted_is_map : forall V lo (m : list (Z * V)), msorted lo m -> is_map m.
Proof. intros V lo [|[k v] r] H; cbn in *; tauto. Qed.

Lemma is_map_msorted : forall V (m : list (Z * V)), is_map m -> exists lo, msorted lo m.
Proof. intros V [|[k v] r] H; cbn in *; [exists 0; auto|exists (k-1); split; [lia|auto]]. Qed.

Lemma msorted_minsert : forall V k (v : V) m lo, lo < k -> msorted lo m -> msorted lo (minsert k v m).
Proof.
  induction m as [|[k' v'] r IH]; intros lo Hlo Hs; cbn in *; [auto|].
  destruct Hs as [H1 H2].
  destruct (Z.ltb_spec k k'); [cbn; auto|].
  destruct (Z.eqb_spec k k'); cbn; [subst; auto|].
  split; auto. apply IH; auto; lia.
Qed.

Lemma is_map_minsert : forall V k (v : V) m, is_map m -> is_map (minsert k v m).
Proof.
  intros V k v m H. apply is_map_msorted in H as [lo H].
  apply msorted_is_map with (lo := Z.min lo (k - 1)).
  apply msorted_minsert; [lia|]. apply msorted_weaken with lo; [lia|auto].
Qed.

Lemma map_of_is_map_gen : forall V (l : list (Z * V)) m, is_map m ->
  is_map (fold_left (fun m kv => minsert (fst kv) (snd kv) m) l m).
Proof. induction l as [|[k v] l IH]; intros m H; cbn; auto. apply IH. apply is_map_minsert; auto. Qed.

Lemma map_of_is_map : forall V (l : list (Z * V)), is_map (map_of l).
Proof. intros. apply map_of_is_map_gen. exact I. Qed.

Lemma mfind_minsert : forall V k k' (v : V) m,
  mfind k (minsert k' v m) = if k =? k' then Some v else mfind k m.
Proof.
  induction m as [|[k'' v''] r IH]; cbn.
  - destruct (k =? k'); auto.
  - destruct (Z.ltb_spec k' k''); cbn.
    + destruct (Z.eqb_spec k k'); auto.
    + destruct (Z.eqb_spec k' k''); cbn.
      * subst. destruct (k =? k''); auto.
      * rewrite IH. destruct (Z.eqb_spec k k''); destruct (Z.eqb_spec k k'); auto. lia.
Qed.

Lemma msorted_mfind_none : forall V (m : list (Z * V)) lo k, msorted lo m -> k <= lo -> mfind k m = None.
Proof.
  induction m as [|[k' v] r IH]; intros lo k Hs Hk; cbn in *; auto.
  destruct Hs. destruct (Z.eqb_spec k k'); [lia|]. apply IH with k'; auto; lia.
Qed.

Lemma mfind_In : forall V (m : list (Z * V)) k v, is_map m -> (mfind k m = Some v <-> In (k, v) m).
Proof.
  intros V m k v H. apply is_map_msorted in H as [lo H]. revert lo H.
  induction m as [|[k' v'] r IH]; intros lo Hs; cbn in *; [split; [congruence|tauto]|].
  destruct Hs as [H1 H2]. destruct (Z.eqb_spec k k').
  - subst. split; [intros [= ->]; auto|]. intros [[= ->]|Hin]; auto.
    exfalso. apply (IH k') in Hin; auto.
    rewrite (msorted_mfind_none _ _ _ _ H2 (Z.le_refl _)) in Hin. congruence.
  - rewrite (IH _ H2). split; auto. intros [[= -> ->]|]; [lia|auto].
Qed.

Lemma In_map_of_mfind : forall V (l : list (Z * V)) k v, In (k, v) (map_of l) <-> mfind k (map_of l) = Some v.
Proof. intros. symmetry. apply mfind_In. apply map_of_is_map. Qed.

Lemma mfind_map_of_gen : forall V (l : list (Z * V)) m k,
  mfind k (fold_left (fun m kv => minsert (fst kv) (snd kv) m) l m)
  = match mfind k (rev l) with Some v => Some v | None => mfind k m end.
Proof.
  induction l as [|[a b] l IH]; intros m k; cbn; auto.
  rewrite IH, mfind_minsert.
  assert (Happ : forall (x y : list (Z * V)), mfind k (x ++ y) = match mfind k x with Some v => Some v | None => mfind k y end).
  { induction x as [|[p q] x IHx]; intros y; cbn; auto. destruct (k =? p); auto. }
  rewrite Happ. cbn. destruct (mfind k (rev l)); auto. destruct (k =? a); auto.
Qed.

(** Looking a key up in [map_of l] finds the last assignment. *)
Lemma mfind_map_of : forall V (l : list (Z * V)) k, mfind k (map_of l) = mfind k (rev l).
Proof. intros. unfold map_of. rewrite mfind_map_of_gen. destruct (mfind k (rev l)); auto. Qed.

Arguments ztake : simpl never.
Arguments zdrop : simpl never.
Arguments znth : simpl never.
Arguments zlen : simpl never.
Arguments i64 : simpl never.
Arguments zmem : simpl never.
Arguments zadd : simpl never.
Arguments zrem : simpl never.
Arguments Z.add : simpl never.
Arguments Z.sub : simpl never.
Arguments Z.mul : simpl never.
Arguments Z.opp : simpl never.
Arguments Z.div : simpl never.
Arguments Z.modulo : simpl never.
Arguments Z.pow : simpl never.
Arguments Z.of_nat : simpl never.
Arguments Z.to_nat : simpl never.
Arguments Z.ltb : simpl nomatch.
Arguments Z.leb : simpl nomatch.
Arguments Z.eqb : simpl nomatch.
