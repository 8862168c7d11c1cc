(** PNG files: a signature and a sequence of chunks, each with its length, type,
    data and CRC-32 (RFC 2083). *)
From Coq Require Import ZArith List Bool.
From Verif Require Import Base.Util.
Import ListNotations.
Open Scope Z_scope.

(** CRC-32, bit by bit (RFC 2083, 3.4 and 15). *)
Definition crc_bit (c : Z) : Z :=
  if Z.odd c then Z.lxor 0xEDB88320 (Z.shiftr c 1) else Z.shiftr c 1.
Definition crc_byte (c b : Z) : Z := Nat.iter 8 crc_bit (Z.lxor c b).
Definition crc32 (bs : list Z) : Z := Z.lxor (fold_left crc_byte bs 0xFFFFFFFF) 0xFFFFFFFF.

Definition be32 (n : Z) : list Z :=
  [n / 2 ^ 24 mod 256; n / 2 ^ 16 mod 256; n / 2 ^ 8 mod 256; n mod 256].

(** A chunk: its type (four bytes) and its data. *)
Definition chunk (c : list Z * list Z) : list Z :=
  be32 (zlen (snd c)) ++ fst c ++ snd c ++ be32 (crc32 (fst c ++ snd c)).

Definition signature : list Z := [137; 80; 78; 71; 13; 10; 26; 10].
Definition png (chunks : list (list Z * list Z)) : list Z := signature ++ concat (map chunk chunks).

Definition IHDR : list Z := [73; 72; 68; 82].
Definition PLTE : list Z := [80; 76; 84; 69].
Definition tRNS : list Z := [116; 82; 78; 83].

(** The fixed colours of ARIB logos (the common fixed colours of ARIB STD-B24):
    every combination of the levels 0, 85, 170, 255 of red, green and blue, once
    opaque and once half transparent, and one transparent entry. *)
Definition rgb : Type := (Z * Z * Z)%type.
Definition levels : list Z := [0; 85; 170; 255].
Definition all_colours : list rgb :=
  flat_map (fun r => flat_map (fun g => map (fun b => (r, g, b)) levels) levels) levels.

(** Entries 0 to 7: the bits of the index are red, green and blue at full
    level; 9 to 15: the same at level 170; the rest in ascending order. *)
Definition mix (level i : Z) : rgb :=
  (level * (i mod 2), level * (i / 2 mod 2), level * (i / 4 mod 2)).
Definition full : list rgb := map (mix 255) [0; 1; 2; 3; 4; 5; 6; 7].
Definition dim : list rgb := map (mix 170) [1; 2; 3; 4; 5; 6; 7].
Definition same_rgb (a b : rgb) : bool :=
  match a, b with (r, g, b), (r', g', b') => (r =? r') && (g =? g') && (b =? b') end.
Definition others : list rgb :=
  filter (fun c => negb (existsb (same_rgb c) (full ++ dim))) all_colours.

(** Colour and alpha of each of the 129 entries. *)
Definition arib_palette : list (rgb * Z) :=
  map (fun c => (c, 255)) full ++ [((0, 0, 0), 0)] ++ map (fun c => (c, 255)) (dim ++ others) ++
  map (fun c => (c, 128)) (full ++ dim ++ others).

(** The data of the two chunks for a palette. *)
Definition rgb_bytes (c : rgb) : list Z := match c with (r, g, b) => [r; g; b] end.
Definition colours (p : list (rgb * Z)) : list Z := flat_map (fun e => rgb_bytes (fst e)) p.
Definition alphas (p : list (rgb * Z)) : list Z := map snd p.
