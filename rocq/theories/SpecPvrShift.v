(** * Specification: PVRTC pictures wrap around, and equal end points. *)
From Verif Require Import Base BaseLemmas ModelColor SpecImage SpecBc SpecEtc SpecPvrtc.

(** Moving the blocks of a texture around the torus, by [dx] columns to the left
    and [dy] rows upwards, moves the picture. *)
Definition pvr_shifts (bw : Z) (dec : list Z -> Z -> Z -> list Z -> res (status * list Z)) : Prop :=
  forall data1 data2 w h image1 image2 p q dx dy, pvr_sane bw data1 w h image1 -> pvr_sane bw data2 w h image2 ->
    0 <= p -> 0 <= q -> w = bw * 2 ^ p -> h = 4 * 2 ^ q -> 2 ^ p * 2 ^ q * 8 <= zlen data1 -> 2 ^ p * 2 ^ q * 8 <= zlen data2 -> w * h <= zlen image1 -> w * h <= zlen image2 ->
    (forall bx by_, 0 <= bx < 2 ^ p -> 0 <= by_ < 2 ^ q ->
       pvr_blocks data2 p q bx by_ = pvr_blocks data1 p q ((bx + dx) mod 2 ^ p) ((by_ + dy) mod 2 ^ q)) ->
    exists image1' image2', dec data1 w h image1 = Ok (Done, image1') /\ dec data2 w h image2 = Ok (Done, image2') /\
      forall x y, 0 <= x < w -> 0 <= y < h -> znth image2' (y * w + x) = znth image1' ((y + 4 * dy) mod h * w + (x + bw * dx) mod w).

(** If all blocks have the same end points there is nothing to interpolate between
    blocks: a pixel is the blend of the two colours, expanded to eight bits by
    replication, by its modulation value [mv]; where [clear] it is transparent. *)
Definition even_pixel (a b : Z -> Z) (mv : Z) (clear : bool) : Z :=
  let ch c := pvr_blend (rep5 (a c)) (rep5 (b c)) mv in
  rgba (ch 0) (ch 1) (ch 2) (if clear then 0 else pvr_blend (rep4 (a 3)) (rep4 (b 3)) mv).
Definition pvr_even (bw : Z) (mv : (Z -> Z -> list Z) -> Z -> Z -> Z -> Z -> Z) (clear : (Z -> Z -> list Z) -> Z -> Z -> bool) (dec : list Z -> Z -> Z -> list Z -> res (status * list Z)) : Prop :=
  forall data w h image p q a b, pvr_sane bw data w h image -> 0 <= p -> 0 <= q -> blocks w bw = 2 ^ p -> blocks h 4 = 2 ^ q ->
    blocks w bw * blocks h 4 * 8 <= zlen data -> w * h <= zlen image ->
    (forall bx by_ c, 0 <= bx < 2 ^ p -> 0 <= by_ < 2 ^ q -> 0 <= c < 4 -> pvr_a (pvr_blocks data p q bx by_) c = a c /\ pvr_b (pvr_blocks data p q bx by_) c = b c) ->
    exists image', dec data w h image = Ok (Done, image') /\
      forall x y, 0 <= x < w -> 0 <= y < h ->
        znth image' (y * w + x) = even_pixel a b (mv (pvr_blocks data p q) (2 ^ p) (2 ^ q) x y) (clear (pvr_blocks data p q) x y).
(** The modulation of a pixel at 4 bits per pixel. *)
Definition mod4_at (blk : Z -> Z -> list Z) (_ _ x y : Z) : Z := mod4 (blk (x / 4) (y / 4)) (y mod 4 * 4 + x mod 4).
Definition clear4_at (blk : Z -> Z -> list Z) (x y : Z) : bool := punch4 (blk (x / 4) (y / 4)) (y mod 4 * 4 + x mod 4).
Definition clear2_at (_ : Z -> Z -> list Z) (_ _ : Z) : bool := false.
