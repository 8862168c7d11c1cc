From Coq Require Import ZArith Lia List Bool.
From Verif Require Import Base.Outcome Base.Util Model.Logo Spec.PngSpec.
Import ListNotations.
Open Scope Z_scope.

Definition palette : list Z := ztake 387 (zdrop 8 kChunks).
Definition alpha : list Z := ztake 129 (zdrop 407 kChunks).

(** The palette in the code: four entries differ from the rule. *)
Definition entry (i : Z) (e : rgb * Z) : rgb * Z :=
  (if (i =? 54) || (i =? 118) then (255, 0, 255) else if (i =? 64) || (i =? 128) then (255, 255, 255) else fst e, snd e).
Fixpoint number {A B} (f : Z -> A -> B) (i : Z) (l : list A) : list B :=
  match l with [] => [] | x :: r => f i x :: number f (i + 1) r end.
Definition code_palette : list (rgb * Z) := number entry 0 arib_palette.

Lemma palette_is : palette = colours code_palette /\ alpha = alphas code_palette.
Proof. split; vm_compute; reflexivity. Qed.

Lemma znth_number : forall A B (f : Z -> A -> B) l j i,
  znth i (number f j l) = match znth i l with Some x => Some (f (j + i) x) | None => None end.
Proof.
  intros A B f. induction l as [|x l IH]; intros j i; cbn [number].
  - unfold znth. destruct (i <? 0); [reflexivity|]. destruct (Z.to_nat i); reflexivity.
  - destruct (Z.eq_dec i 0) as [->|N]; [cbn; rewrite Z.add_0_r; reflexivity|].
    destruct (Z.ltb_spec i 0) as [L|L].
    + unfold znth. apply Z.ltb_lt in L. rewrite L. reflexivity.
    + assert (S1 : forall C (y : C) t, znth i (y :: t) = znth (i - 1) t).
      { intros C y t. unfold znth. replace (i <? 0) with false by (symmetry; apply Z.ltb_ge; lia).
        replace (i - 1 <? 0) with false by (symmetry; apply Z.ltb_ge; lia).
        replace (Z.to_nat i) with (S (Z.to_nat (i - 1))) by lia. reflexivity. }
      rewrite !S1, IH. destruct (znth (i - 1) l); [|reflexivity]. do 2 f_equal. lia.
Qed.

Lemma code_palette_entries : forall i, 0 <= i < 129 -> i <> 54 -> i <> 64 -> i <> 118 -> i <> 128 ->
  znth i code_palette = znth i arib_palette.
Proof.
  intros i H N1 N2 N3 N4. unfold code_palette. rewrite znth_number. destruct (znth i arib_palette) as [[c a]|]; [|reflexivity].
  unfold entry. cbn [fst snd Z.add]. replace (0 + i) with i by lia.
  apply Z.eqb_neq in N1, N2, N3, N4. rewrite N1, N2, N3, N4. reflexivity.
Qed.

Lemma kChunks_chunks : kChunks = chunk (PLTE, palette) ++ chunk (tRNS, alpha).
Proof. vm_compute. reflexivity. Qed.

Lemma insert_ok : forall data, 33 < zlen data ->
  exists a b, data = a ++ b /\ zlen a = 33 /\ InsertPngChunks data = Ok (a ++ kChunks ++ b).
Proof.
  intros data H. exists (ztake 33 data), (zdrop 33 data). split; [symmetry; apply ztake_zdrop|].
  split; [rewrite zlen_ztake; lia|]. unfold InsertPngChunks, kIdatOffset, assert.
  apply Z.ltb_lt in H. rewrite H. reflexivity.
Qed.

Lemma chunk_len : forall c, zlen (chunk c) = 8 + zlen (fst c) + zlen (snd c).
Proof. intros [t d]. unfold chunk. rewrite !zlen_app. cbn [fst snd]. unfold be32. rewrite !zlen_cons, zlen_nil. lia. Qed.

Lemma png_insert : forall header rest, zlen header = 13 -> rest <> [] ->
  InsertPngChunks (png ((IHDR, header) :: rest)) =
    Ok (png ((IHDR, header) :: (PLTE, palette) :: (tRNS, alpha) :: rest)).
Proof.
  intros header rest Hh Hr. set (a := signature ++ chunk (IHDR, header)). set (b := concat (map chunk rest)).
  assert (E : png ((IHDR, header) :: rest) = a ++ b) by (unfold png, a, b; cbn [map concat]; rewrite app_assoc; reflexivity).
  assert (La : zlen a = 33).
  { unfold a. rewrite zlen_app, chunk_len. cbn [fst snd]. rewrite Hh. reflexivity. }
  assert (Lb : 0 < zlen b).
  { unfold b. destruct rest as [|c rest]; [contradiction|]. cbn [map concat]. rewrite zlen_app, chunk_len.
    pose proof (zlen_nonneg _ (fst c)). pose proof (zlen_nonneg _ (snd c)). pose proof (zlen_nonneg _ (concat (map chunk rest))). lia. }
  rewrite E. unfold InsertPngChunks, kIdatOffset, assert.
  assert (L : 33 <? zlen (a ++ b) = true) by (apply Z.ltb_lt; rewrite zlen_app; lia). rewrite L.
  rewrite ztake_app_le, ztake_all by lia. rewrite zdrop_app_ge by lia. rewrite La, zdrop_0 by lia.
  apply f_equal. rewrite kChunks_chunks. unfold png, a, b. cbn [map concat]. rewrite <- !app_assoc. reflexivity.
Qed.

Lemma palette_len : zlen palette = 3 * 129 /\ zlen alpha = 129.
Proof. split; vm_compute; reflexivity. Qed.

Lemma code_palette_alphas : forall i, option_map snd (znth i code_palette) = option_map snd (znth i arib_palette).
Proof. intros i. unfold code_palette. rewrite znth_number. destruct (znth i arib_palette) as [[c a]|]; reflexivity. Qed.

Lemma code_palette_lacks : forall c, existsb (fun e => same_rgb (fst e) c) code_palette = false ->
  forall a, ~ In (c, a) code_palette.
Proof.
  intros c H a I. assert (E : existsb (fun e => same_rgb (fst e) c) code_palette = true); [|congruence].
  apply existsb_exists. exists (c, a). split; [exact I|]. cbn [fst]. destruct c as [[r g] b]. cbn [same_rgb].
  rewrite !Z.eqb_refl. reflexivity.
Qed.

Lemma palette_wrong : forall header rest, zlen header = 13 -> rest <> [] ->
  InsertPngChunks (png ((IHDR, header) :: rest)) <>
    Ok (png ((IHDR, header) :: (PLTE, colours arib_palette) :: (tRNS, alphas arib_palette) :: rest)).
Proof.
  intros header rest Hh Hr. rewrite (png_insert header rest Hh Hr). intros E.
  assert (E2 : png ((IHDR, header) :: (PLTE, palette) :: (tRNS, alpha) :: rest) =
               png ((IHDR, header) :: (PLTE, colours arib_palette) :: (tRNS, alphas arib_palette) :: rest)).
  { remember (png ((IHDR, header) :: (PLTE, palette) :: (tRNS, alpha) :: rest)) as x.
    remember (png ((IHDR, header) :: (PLTE, colours arib_palette) :: (tRNS, alphas arib_palette) :: rest)) as y.
    injection E as E. exact E. }
  clear E. unfold png in E2. cbn [map concat] in E2. apply app_inv_head in E2. apply app_inv_head in E2.
  rewrite !app_assoc in E2. apply app_inv_tail in E2.
  assert (N : firstn 540 (chunk (PLTE, palette) ++ chunk (tRNS, alpha)) <>
              firstn 540 (chunk (PLTE, colours arib_palette) ++ chunk (tRNS, alphas arib_palette))).
  { vm_compute. discriminate. }
  apply N. rewrite E2. reflexivity.
Qed.

Lemma palette_rule : forall c, In c all_colours -> In (c, 255) arib_palette /\ In (c, 128) arib_palette.
Proof.
  set (has := fun (c : rgb) (a : Z) => existsb (fun e => same_rgb (fst e) c && (snd e =? a)) arib_palette).
  assert (B : forallb (fun c => has c 255 && has c 128) all_colours = true) by (vm_compute; reflexivity).
  assert (S : forall c a, has c a = true -> In (c, a) arib_palette).
  { intros c a H. unfold has in H. apply existsb_exists in H. destruct H as ([c' a'] & I & E). cbn [fst snd] in E.
    apply andb_prop in E. destruct E as [E1 E2]. apply Z.eqb_eq in E2. subst a'.
    assert (Q : c' = c); [|rewrite <- Q; exact I]. destruct c' as [[r g] b], c as [[r' g'] b']. cbn [same_rgb] in E1.
    apply andb_prop in E1. destruct E1 as [E1 E3]. apply andb_prop in E1. destruct E1 as [E1 E2].
    apply Z.eqb_eq in E1, E2, E3. subst. reflexivity. }
  rewrite forallb_forall in B. intros c I. specialize (B c I). apply andb_prop in B. destruct B as [B1 B2].
  split; apply S; assumption.
Qed.
