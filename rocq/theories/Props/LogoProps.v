(** C53, C66 and C82: collect-logos. *)
From Coq Require Import ZArith Lia String List Bool.
From Verif Require Import Base.Outcome Base.Util Model.FileSource Model.Logo Model.Commands Proofs.LogoProofs Proofs.LogoRun Spec.SourceSpec Spec.PngSpec Spec.LogoSpec.
Import ListNotations.
Open Scope Z_scope.

(** A PNG whose first chunk is the IHDR becomes the same PNG with a palette
    inserted after it: the fixed colours and alpha values of ARIB logos, but for
    four entries, where magenta and white stand again. *)
Theorem C53_png : exists p : list (rgb * Z),
  zlen p = 129 /\
  (forall i, 0 <= i < 129 -> i <> 54 -> i <> 64 -> i <> 118 -> i <> 128 -> znth i p = znth i arib_palette) /\
  znth 54 p = Some ((255, 0, 255), 255) /\ znth 64 p = Some ((255, 255, 255), 255) /\
  znth 118 p = Some ((255, 0, 255), 128) /\ znth 128 p = Some ((255, 255, 255), 128) /\
  forall header rest, zlen header = 13 -> rest <> [] ->
    InsertPngChunks (png ((IHDR, header) :: rest)) =
      Ok (png ((IHDR, header) :: (PLTE, colours p) :: (tRNS, alphas p) :: rest)).
Proof.
  exists code_palette. split; [vm_compute; reflexivity|]. split; [exact code_palette_entries|].
  do 4 (split; [vm_compute; reflexivity|]). destruct palette_is as [<- <-]. exact png_insert.
Qed.
Print Assumptions C53_png.

(** Any logo longer than 33 bytes is kept: the same two chunks are inserted after
    the first 33 bytes. *)
Theorem C53_insert : exists p, zlen p = 129 /\
  forall data, 33 < zlen data ->
    exists a b, data = a ++ b /\ zlen a = 33 /\
      InsertPngChunks data = Ok (a ++ chunk (PLTE, colours p) ++ chunk (tRNS, alphas p) ++ b).
Proof.
  exists code_palette. split; [vm_compute; reflexivity|]. intros data H. destruct (insert_ok data H) as (a & b & E & L & Q).
  exists a, b. split; [exact E|]. split; [exact L|]. rewrite Q, kChunks_chunks, <- app_assoc. destruct palette_is as [<- <-]. reflexivity.
Qed.
Print Assumptions C53_insert.

(** * C66 *)

(** The intended palette has every combination of the four levels, opaque and
    half transparent. *)
Example C66_rule : forall c, In c all_colours -> In (c, 255) arib_palette /\ In (c, 128) arib_palette.
Proof. exact palette_rule. Qed.

(** No logo gets the intended palette. *)
Theorem C66_palette_refuted : forall header rest, zlen header = 13 -> rest <> [] ->
  InsertPngChunks (png ((IHDR, header) :: rest)) <>
    Ok (png ((IHDR, header) :: (PLTE, colours arib_palette) :: (tRNS, alphas arib_palette) :: rest)).
Proof. exact palette_wrong. Qed.
Print Assumptions C66_palette_refuted.

(** What it gets has the right colour and transparency in all but four places;
    the colours (255,0,170) and (255,255,170) are not in it. *)
Theorem C66_palette_partial : exists p : list (rgb * Z),
  (forall i, 0 <= i < 129 -> i <> 54 -> i <> 64 -> i <> 118 -> i <> 128 -> znth i p = znth i arib_palette) /\
  (forall i, option_map snd (znth i p) = option_map snd (znth i arib_palette)) /\
  (forall a, ~ In ((255, 0, 170), a) p) /\ (forall a, ~ In ((255, 255, 170), a) p) /\
  forall header rest, zlen header = 13 -> rest <> [] ->
    InsertPngChunks (png ((IHDR, header) :: rest)) =
      Ok (png ((IHDR, header) :: (PLTE, colours p) :: (tRNS, alphas p) :: rest)).
Proof.
  exists code_palette. split; [exact code_palette_entries|]. split; [exact code_palette_alphas|].
  split; [intros a; apply code_palette_lacks; vm_compute; reflexivity|].
  split; [intros a; apply code_palette_lacks; vm_compute; reflexivity|].
  destruct palette_is as [<- <-]. exact png_insert.
Qed.
Print Assumptions C66_palette_partial.

(** Of the logos received, those of more than 93 bytes are output, in order, and
    the assertion never fails.  The PNG is written as a data URL in Base 64. *)
Theorem C53_logos : forall ls, Forall bytes_only ls -> exists ds, lg_run [] ls = Ok ds /\
  Forall2 (fun l d =>
    ld_type d = lg_type l /\ ld_id d = lg_id l /\ ld_version d = lg_version l /\ ld_nid d = lg_nid l /\
    (exists png text, InsertPngChunks (lg_data l) = Ok png /\ ld_data d = codes "data:image/png;base64," ++ text /\ base64 png text) /\
    (lg_services l = [] /\ ld_services d = None \/ lg_services l <> [] /\ ld_services d = Some (lg_services l)))
    (filter (fun l => 93 <? zlen (lg_data l)) ls) ds.
Proof. intros ls B. exact (logo_run ls [] B). Qed.
Print Assumptions C53_logos.

(** The CRC-32 of the empty IEND chunk, as in every PNG file. *)
Example C53_iend : chunk ([73; 69; 78; 68], []) = [0; 0; 0; 0; 73; 69; 78; 68; 0xAE; 0x42; 0x60; 0x82].
Proof. vm_compute. reflexivity. Qed.
Example C53_case : exists r,
  InsertPngChunks (png [(IHDR, [0;0;0;1;0;0;0;1;8;3;0;0;0]); ([73; 69; 78; 68], [])]) = Ok r /\ zlen r = 33 + 540 + 12.
Proof. eexists. split; vm_compute; reflexivity. Qed.

(** C82: collect-logos from the bytes of the file to the documents, whatever
    LibISDB makes of the packets.  LibISDB gets the packets of the file, all of
    them or those up to the first it refuses; for each logo of more than 93 bytes
    it reports, while it takes them and while it is closed, one document is
    written, in that order; the exit code is 0. *)
Theorem C82_collect_logos : forall engine closing reads bs n,
  Forall read_ok reads -> packets_of (bytes_of reads) bs -> (List.length (bytes_of reads) < n)%nat ->
  (forall before p, Forall bytes_only (fst (engine before p))) -> (forall before, Forall bytes_only (closing before)) ->
  exists seen s qs ls, collect_logos_main engine closing reads n = Some (Ok (0, (seen, s))) /\ taken engine [] bs qs ls /\
    lc_seen s = rev qs /\ Forall2 described (visible (ls ++ closing (rev qs))) (lc_out s).
Proof. exact collect_logos_ok. Qed.
Print Assumptions C82_collect_logos.

(** The PNG can be read back from the text: no two byte strings have the same
    Base 64. *)
Theorem C82_data_once : forall l l' text, Forall (fun b => 0 <= b < 256) l -> Forall (fun b => 0 <= b < 256) l' ->
  base64 l text -> base64 l' text -> l = l'.
Proof. exact decode_once. Qed.
Print Assumptions C82_data_once.
Theorem C82_data_complete : forall l, Forall (fun b => 0 <= b < 256) l -> base64 l (b64_encode l).
Proof. intros l. exact (encode_ok _ l (le_n _)). Qed.
Print Assumptions C82_data_complete.

(** RFC 4648, section 10. *)
Example C82_rfc : b64_encode (codes "fooba") = codes "Zm9vYmE=" /\ b64_encode (codes "foobar") = codes "Zm9vYmFy" /\ b64_encode (codes "f") = codes "Zg==".
Proof. repeat split. Qed.

(** A LibISDB that reports a logo with every second packet, a transparent one
    among them, and refuses the fourth. *)
Definition demo_logo (n : Z) : logo := mkLogo 5 n 1 4 (repeat 7 (Z.to_nat n)) [(4, 16, 101)].
Definition demo_engine (before : list (list Z)) (p : list Z) : list logo * bool :=
  match List.length before with
  | 1%nat => ([demo_logo 94; demo_logo 93], true)
  | 3%nat => ([demo_logo 100], false)
  | _ => ([], true)
  end.
Example C82_case : exists seen s, collect_logos_main demo_engine (fun _ => []) [ReadData (flat_map (fun i => 0x47 :: repeat i 187) [1; 2; 3; 4; 5; 6])] 2000 = Some (Ok (0, (seen, s))) /\
  map ld_id (lc_out s) = [94; 100] /\ List.length (lc_seen s) = 4%nat.
Proof. eexists. eexists. split; [vm_compute; reflexivity|]. split; reflexivity. Qed.
Example C82_case_bytes : forall before p, Forall bytes_only (fst (demo_engine before p)).
Proof.
  assert (D : forall n, bytes_only (demo_logo n)).
  { intros n. unfold bytes_only, demo_logo. cbn [lg_data]. apply Forall_forall. intros x I. apply repeat_spec in I. lia. }
  intros before p. unfold demo_engine. destruct (List.length before) as [|[|[|[|?]]]]; cbn [fst]; repeat (apply Forall_cons; [apply D|]); apply Forall_nil.
Qed.
