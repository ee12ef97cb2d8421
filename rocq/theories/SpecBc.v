(** * Specification of BC1-BC5 and ATC blocks, texel by texel.
    A block is a list of bytes; texel [t] (0..15) is in row t/4, column t mod 4. *)
From Verif Require Import Base BaseLemmas.

(** A pixel word: bytes B, G, R, A from least to most significant. *)
Definition rgba (r g b a : Z) : Z := b + g * 256 + r * 65536 + a * 16777216.

(** Channels of a pixel word. *)
Definition blue (p : Z) : Z := p mod 256.
Definition green (p : Z) : Z := p / 256 mod 256.
Definition red (p : Z) : Z := p / 65536 mod 256.
Definition alpha (p : Z) : Z := p / 16777216 mod 256.

Definition le16 (b : list Z) (o : Z) : Z := znth b o + 256 * znth b (o + 1).

(** Expansion of 5- and 6-bit channels to 8 bits by bit replication. *)
Definition rep5 (v : Z) : Z := v * 8 + v / 4.
Definition rep6 (v : Z) : Z := v * 4 + v / 16.

(** RGB565 end points *)
Definition red565 (c : Z) : Z := rep5 (c / 2048).
Definition green565 (c : Z) : Z := rep6 (c / 32 mod 64).
Definition blue565 (c : Z) : Z := rep5 (c mod 32).

(** 2-bit index of texel [t]; the 4 index bytes start at offset [o]. *)
Definition index2 (b : list Z) (o t : Z) : Z := znth b (o + t / 4) / 4 ^ (t mod 4) mod 4.

(** One channel of the BC1 palette. *)
Definition bc1_mix (four : bool) (e0 e1 s : Z) : Z :=
  if s =? 0 then e0
  else if s =? 1 then e1
  else if s =? 2 then (if four then (2 * e0 + e1) / 3 else (e0 + e1) / 2)
  else (if four then (e0 + 2 * e1) / 3 else 0).

(** A BC1 colour block located at byte offset [o]. *)
Definition bc1_four (b : list Z) (o : Z) : bool := le16 b (o + 2) <? le16 b o.
Definition bc1_r (b : list Z) (o t : Z) : Z :=
  bc1_mix (bc1_four b o) (red565 (le16 b o)) (red565 (le16 b (o + 2))) (index2 b (o + 4) t).
Definition bc1_g (b : list Z) (o t : Z) : Z :=
  bc1_mix (bc1_four b o) (green565 (le16 b o)) (green565 (le16 b (o + 2))) (index2 b (o + 4) t).
Definition bc1_b (b : list Z) (o t : Z) : Z :=
  bc1_mix (bc1_four b o) (blue565 (le16 b o)) (blue565 (le16 b (o + 2))) (index2 b (o + 4) t).

Definition bc1_texel (b : list Z) (t : Z) : Z :=
  rgba (bc1_r b 0 t) (bc1_g b 0 t) (bc1_b b 0 t) 255.

(** BC1 with punch-through alpha: index 3 of a three-colour block is transparent. *)
Definition bc1a_texel (b : list Z) (t : Z) : Z :=
  rgba (bc1_r b 0 t) (bc1_g b 0 t) (bc1_b b 0 t)
       (if negb (bc1_four b 0) && (index2 b 4 t =? 3) then 0 else 255).

(** BC2: explicit 4-bit alpha. *)
Definition bc2_alpha (b : list Z) (t : Z) : Z := 17 * (znth b (t / 2) / 16 ^ (t mod 2) mod 16).
Definition bc2_texel (b : list Z) (t : Z) : Z :=
  rgba (bc1_r b 8 t) (bc1_g b 8 t) (bc1_b b 8 t) (bc2_alpha b t).

(** 3-bit index of texel [t] of an interpolated channel at offset [o]: the
    six bytes after the end points form a little-endian 48-bit number. *)
Definition index3 (b : list Z) (o t : Z) : Z :=
  (znth b (o + 2) + 256 * (znth b (o + 3) + 256 * (znth b (o + 4) +
   256 * (znth b (o + 5) + 256 * (znth b (o + 6) + 256 * znth b (o + 7)))))) / 8 ^ t mod 8.

Definition ramp (a0 a1 s : Z) : Z :=
  if s =? 0 then a0
  else if s =? 1 then a1
  else if a1 <? a0 then ((8 - s) * a0 + (s - 1) * a1) / 7
  else if s =? 6 then 0
  else if s =? 7 then 255
  else ((6 - s) * a0 + (s - 1) * a1) / 5.

(** Interpolated 8-bit channel stored at byte offset [o]. *)
Definition interp8 (b : list Z) (o t : Z) : Z :=
  ramp (znth b o) (znth b (o + 1)) (index3 b o t).

Definition bc3_texel (b : list Z) (t : Z) : Z :=
  rgba (bc1_r b 8 t) (bc1_g b 8 t) (bc1_b b 8 t) (interp8 b 0 t).
Definition bc4_texel (b : list Z) (t : Z) : Z := rgba (interp8 b 0 t) 0 0 255.
Definition bc5_texel (b : list Z) (t : Z) : Z := rgba (interp8 b 0 t) (interp8 b 8 t) 0 255.

(** ATC colour blocks at byte offset [o]: first end point RGB555 with a mode
    bit, second RGB565. *)
Definition atc_r0 (c : Z) : Z := rep5 (c / 1024 mod 32).
Definition atc_g0 (c : Z) : Z := rep5 (c / 32 mod 32).
Definition atc_b0 (c : Z) : Z := rep5 (c mod 32).

(** Palette of one channel; [dark x y] is the colour of index 1 when the mode bit is set. *)
Definition atc_mix (dark : Z -> Z -> Z) (mode : bool) (x y s : Z) : Z :=
  if mode then
    (if s =? 0 then 0 else if s =? 1 then dark x y else if s =? 2 then x else y)
  else
    (if s =? 0 then x else if s =? 1 then (5 * x + 3 * y) / 8
     else if s =? 2 then (3 * x + 5 * y) / 8 else y).

Definition atc_mode (b : list Z) (o : Z) : bool := 32768 <=? le16 b o.
Definition atc_rgb (dark : Z -> Z -> Z) (b : list Z) (o t a : Z) : Z :=
  let f := atc_mix dark (atc_mode b o) in
  let s := index2 b (o + 4) t in
  let c0 := le16 b o in
  let c1 := le16 b (o + 2) in
  rgba (f (atc_r0 c0) (red565 c1) s) (f (atc_g0 c0) (green565 c1) s) (f (atc_b0 c0) (blue565 c1) s) a.

(** The format's darkened colour. *)
Definition atc_dark_std (x y : Z) : Z := Z.max 0 (x - y / 4).
(** What the code computes instead: a quarter of the difference modulo 2^16. *)
Definition atc_dark_code (x y : Z) : Z := (x - y) mod 65536 / 4 mod 256.

Definition atc_rgb4_texel (dark : Z -> Z -> Z) (b : list Z) (t : Z) : Z := atc_rgb dark b 0 t 255.
Definition atc_rgba8_texel (dark : Z -> Z -> Z) (b : list Z) (t : Z) : Z :=
  atc_rgb dark b 8 t (interp8 b 0 t).
