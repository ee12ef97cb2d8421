(** * PVRTC1 as specified, independently of the code.
    A block is 8 bytes: 32 bits of modulation data, colour A (bits 32-47; its
    bit 0 is the modulation mode) and colour B (bits 48-63). *)
From Verif Require Import Base BaseLemmas ModelColor SpecImage SpecBc.

(** Number of the block at coordinates (x, y) when the smaller side has 2^k
    blocks: the low k bits are interleaved (y first), the rest of the longer
    coordinate follows. *)
Fixpoint morton (k : nat) (x y : Z) : Z :=
  match k with
  | O => x + y
  | S k => y mod 2 + 2 * (x mod 2) + 4 * morton k (x / 2) (y / 2)
  end.

(** Bits [lo] .. [lo + n - 1]. *)
Definition bits_at (v lo n : Z) : Z := v / 2 ^ lo mod 2 ^ n.

(** The modulation word, the mode bit and the colour words of a block. *)
Definition pvr_mod (b : list Z) : Z := znth b 0 + 2 ^ 8 * znth b 1 + 2 ^ 16 * znth b 2 + 2 ^ 24 * znth b 3.
Definition pvr_mode (b : list Z) : Z := bits_at (znth b 4) 0 1.
Definition pvr_word_a (b : list Z) : Z := znth b 4 + 2 ^ 8 * znth b 5.
Definition pvr_word_b (b : list Z) : Z := znth b 6 + 2 ^ 8 * znth b 7.

(** Colour A: opaque R5 G5 B4, translucent A3 R4 G4 B3 (above the mode bit);
    colour B: opaque R5 G5 B5, translucent A3 R4 G4 B4.  Widened to 5 bits
    (colour) by replication and 4 bits (alpha) by a zero bit. *)
Definition widen4 (v : Z) : Z := 2 * v + v / 8.
Definition widen3 (v : Z) : Z := 4 * v + v / 2.
Definition pvr_a (b : list Z) (c : Z) : Z :=
  let v := pvr_word_a b in
  if bits_at v 15 1 =? 1 then
    (if c =? 0 then bits_at v 10 5 else if c =? 1 then bits_at v 5 5
     else if c =? 2 then widen4 (bits_at v 1 4) else 15)
  else
    (if c =? 0 then widen4 (bits_at v 8 4) else if c =? 1 then widen4 (bits_at v 4 4)
     else if c =? 2 then widen3 (bits_at v 1 3) else 2 * bits_at v 12 3).
Definition pvr_b (b : list Z) (c : Z) : Z :=
  let v := pvr_word_b b in
  if bits_at v 15 1 =? 1 then
    (if c =? 0 then bits_at v 10 5 else if c =? 1 then bits_at v 5 5
     else if c =? 2 then bits_at v 0 5 else 15)
  else
    (if c =? 0 then widen4 (bits_at v 8 4) else if c =? 1 then widen4 (bits_at v 4 4)
     else if c =? 2 then widen4 (bits_at v 0 4) else 2 * bits_at v 12 3).

(** Bilinear interpolation of a per-block quantity [col] at pixel (x, y), with
    the values of block (i, j) located at its centre (i*bw + bw/2, j*4 + 2) and
    wrap-around at the borders of the nbx x nby grid; scaled by 4*bw. *)
Definition bilinear (bw nbx nby : Z) (col : Z -> Z -> Z) (x y : Z) : Z :=
  let i := (x - bw / 2) / bw in let fx := (x - bw / 2) mod bw in
  let j := (y - 2) / 4 in let fy := (y - 2) mod 4 in
  (bw - fx) * (4 - fy) * col (i mod nbx) (j mod nby) +
  fx * (4 - fy) * col ((i + 1) mod nbx) (j mod nby) +
  (bw - fx) * fy * col (i mod nbx) ((j + 1) mod nby) +
  fx * fy * col ((i + 1) mod nbx) ((j + 1) mod nby).

(** The interpolated colours widened to 8 bits: 5.4 (4bpp) or 5.5 (2bpp) fixed
    point, and 4.4 or 4.5 for alpha. *)
Definition pvr_up (bw nbx nby : Z) (col : Z -> Z -> Z -> Z) (c x y : Z) : Z :=
  let v := bilinear bw nbx nby (fun i j => col i j c) x y in
  if bw =? 4 then (if c =? 3 then v + v / 16 else v / 2 + v / 64)
  else (if c =? 3 then v / 2 + v / 32 else v / 4 + v / 128).

(** Blend by a modulation value [mv] of 0 .. 8. *)
Definition pvr_blend (a b mv : Z) : Z := (a * (8 - mv) + b * mv) / 8.
Definition pvr_channel (bw nbx nby : Z) (blk : Z -> Z -> list Z) (mv c x y : Z) : Z :=
  pvr_blend (pvr_up bw nbx nby (fun i j => pvr_a (blk i j)) c x y)
            (pvr_up bw nbx nby (fun i j => pvr_b (blk i j)) c x y) mv.

Definition weight_std (q : Z) : Z := nth (Z.to_nat q) [0; 3; 5; 8] 0.
Definition weight_pt (q : Z) : Z := nth (Z.to_nat q) [0; 4; 4; 8] 0.

(** ** 4 bits per pixel *)
Definition mod4_index (b : list Z) (t : Z) : Z := bits_at (pvr_mod b) (2 * t) 2.
Definition mod4 (b : list Z) (t : Z) : Z :=
  if pvr_mode b =? 1 then weight_pt (mod4_index b t) else weight_std (mod4_index b t).
Definition punch4 (b : list Z) (t : Z) : bool := (pvr_mode b =? 1) && (mod4_index b t =? 2).
Definition pvr4_pixel (blk : Z -> Z -> list Z) (nbx nby x y : Z) : Z :=
  let b := blk (x / 4) (y / 4) in let t := (y mod 4) * 4 + x mod 4 in
  let ch c := pvr_channel 4 nbx nby blk (mod4 b t) c x y in
  rgba (ch 0) (ch 1) (ch 2) (if punch4 b t then 0 else ch 3).

(** ** 2 bits per pixel *)
(** Modulation values stored in a block: one bit per texel in mode 0; in mode 1
    two bits for every other texel, whose texels 0 and (if the low bit of texel
    0 is set) 20 give up their low bit to say how to fill the gaps. *)
Definition stored2 (b : list Z) (t : Z) : Z :=
  let v := pvr_mod b in
  if pvr_mode b =? 1 then
    let q := 4 * (t / 8) + (t mod 8) / 2 in
    if (q =? 0) || ((q =? 10) && (bits_at v 0 1 =? 1)) then 8 * bits_at v (2 * q + 1) 1
    else weight_std (bits_at v (2 * q) 2)
  else 8 * bits_at v t 1.
(** The one at pixel (x, y) of the texture repeated in both directions. *)
Definition stored2_at (blk : Z -> Z -> list Z) (nbx nby x y : Z) : Z :=
  let x := x mod (8 * nbx) in let y := y mod (4 * nby) in
  stored2 (blk (x / 8) (y / 4)) ((y mod 4) * 8 + x mod 8).
Definition mod2 (blk : Z -> Z -> list Z) (nbx nby x y : Z) : Z :=
  let b := blk (x / 8) (y / 4) in let v := pvr_mod b in
  let s := stored2_at blk nbx nby in
  if (pvr_mode b =? 1) && ((x + y) mod 2 =? 1) then
    if bits_at v 0 1 =? 0 then (s x (y - 1) + s x (y + 1) + s (x - 1) y + s (x + 1) y + 2) / 4
    else if bits_at v 20 1 =? 1 then (s x (y - 1) + s x (y + 1) + 1) / 2
    else (s (x - 1) y + s (x + 1) y + 1) / 2
  else s x y.
Definition pvr2_pixel (blk : Z -> Z -> list Z) (nbx nby x y : Z) : Z :=
  let ch c := pvr_channel 8 nbx nby blk (mod2 blk nbx nby x y) c x y in
  rgba (ch 0) (ch 1) (ch 2) (ch 3).

(** ** Images *)
(** The picture stored by a decoder whose pixels are given by [pix], for a grid
    of 2^p x 2^q blocks. *)
Definition pvr_blocks (data : list Z) (p q : Z) (bx by_ : Z) : list Z :=
  block_bytes 8 (morton (Z.to_nat (Z.min p q)) bx by_) data.
Definition pvr_picture (pix : (Z -> Z -> list Z) -> Z -> Z -> Z -> Z -> Z) (p q : Z)
    (data : list Z) (w h : Z) (image image' : list Z) : Prop :=
  zlen image' = zlen image /\
  (forall x y, 0 <= x < w -> 0 <= y < h ->
     znth image' (y * w + x) = pix (pvr_blocks data p q) (2 ^ p) (2 ^ q) x y) /\
  (forall j, w * h <= j < zlen image -> znth image' j = znth image j).
(** Sizes whose products fit in a usize. *)
Definition pvr_sane (bw : Z) (data : list Z) (w h : Z) (image : list Z) : Prop :=
  bytes data /\ 0 <= w < 2 ^ 64 /\ 0 <= h < 2 ^ 64 /\ 4 * zlen image < 2 ^ 63 /\
  blocks w bw * blocks h 4 * 8 < 2 ^ 64 /\ w * h < 2 ^ 64.
(** The claim for all such inputs. *)
Definition pvr_decoder (bw : Z) (pix : (Z -> Z -> list Z) -> Z -> Z -> Z -> Z -> Z)
    (dec : list Z -> Z -> Z -> list Z -> res (status * list Z)) : Prop :=
  forall data w h image p q, pvr_sane bw data w h image ->
    0 <= p -> 0 <= q -> blocks w bw = 2 ^ p -> blocks h 4 = 2 ^ q ->
    blocks w bw * blocks h 4 * 8 <= zlen data -> w * h <= zlen image ->
    exists image', dec data w h image = Ok (Done, image') /\ pvr_picture pix p q data w h image image'.
(** Powers of two. *)
Definition pow2 (n : Z) : Prop := exists p, 0 <= p /\ n = 2 ^ p.
