(** * Specification: pictures that PVRTC can store with one pair of colours.
    Neighbouring blocks of PVRTC share their colours, so blocks are not free;
    pictures with the same two colours in all blocks are. *)
From Verif Require Import Base BaseLemmas ModelColor SpecImage SpecBc SpecCut SpecEncode SpecPvrtc.

(** Colours of the blocks, channels 0-2 in 0 .. 31 and alpha in 0 .. 15. *)
Definition colour_a (c : Z -> Z) : Prop :=
  (0 <= c 0 < 32 /\ 0 <= c 1 < 32 /\ (exists b, 0 <= b < 16 /\ c 2 = widen4 b) /\ c 3 = 15) \/
  (exists r g b a, 0 <= r < 16 /\ 0 <= g < 16 /\ 0 <= b < 8 /\ 0 <= a < 8 /\ c 0 = widen4 r /\ c 1 = widen4 g /\ c 2 = widen3 b /\ c 3 = 2 * a).
Definition colour_b (c : Z -> Z) : Prop :=
  (0 <= c 0 < 32 /\ 0 <= c 1 < 32 /\ 0 <= c 2 < 32 /\ c 3 = 15) \/
  (exists r g b a, 0 <= r < 16 /\ 0 <= g < 16 /\ 0 <= b < 16 /\ 0 <= a < 8 /\ c 0 = widen4 r /\ c 1 = widen4 g /\ c 2 = widen4 b /\ c 3 = 2 * a).
(** ... with eight bits. *)
Definition eight (c : Z -> Z) (ch : Z) : Z := if ch =? 3 then 17 * c 3 else 8 * c ch + c ch / 4.
(** [w] eighths of the second colour. *)
Definition mixed8 (a b : Z -> Z) (w ch : Z) : Z := (eight a ch * (8 - w) + eight b ch * w) / 8.
Definition mixture (a b : Z -> Z) (w : Z) : Z := rgba (mixed8 a b w 0) (mixed8 a b w 1) (mixed8 a b w 2) (mixed8 a b w 3).
(** What the four choices of a texel show, in ordinary blocks and in those with transparent texels. *)
Definition looks (a b : Z -> Z) (punch : bool) (q : Z) : Z :=
  if punch then if q =? 2 then rgba (mixed8 a b 4 0) (mixed8 a b 4 1) (mixed8 a b 4 2) 0 else mixture a b (znth [0; 4; 4; 8] q)
  else mixture a b (znth [0; 3; 5; 8] q).

(** 4 bits per pixel: each block of 4x4 texels is of one of the two sorts. *)
Definition one_pair_4bpp (a b : Z -> Z) (w h : Z) (pic : Z -> Z -> Z) : Prop :=
  forall bx by_, 0 <= bx -> 0 <= by_ -> 4 * bx < w -> 4 * by_ < h ->
    exists punch, forall x y, 4 * bx <= x < 4 * bx + 4 -> 4 * by_ <= y < 4 * by_ + 4 -> x < w -> y < h ->
      exists q, 0 <= q < 4 /\ pic x y = looks a b punch q.
(** 2 bits per pixel: every texel has one of the colours. *)
Definition one_pair_2bpp (a b : Z -> Z) (w h : Z) (pic : Z -> Z -> Z) : Prop :=
  forall x y, 0 <= x < w -> 0 <= y < h -> pic x y = mixture a b 0 \/ pic x y = mixture a b 8.

(** There is data of the size of the picture that is decoded to it. *)
Definition has_pvr_data (bw : Z) (dec : list Z -> Z -> Z -> list Z -> res (status * list Z)) (w h : Z) (pic : Z -> Z -> Z) : Prop :=
  exists data, bytes data /\ zlen data = blocks w bw * blocks h 4 * 8 /\
    forall image, w * h <= zlen image -> 4 * zlen image < 2 ^ 63 -> exists image', dec data w h image = Ok (Done, image') /\ shows image' w h pic.

(** All blocks of the data have these two colours. *)
Definition has_pair (bw : Z) (data : list Z) (w h : Z) (a b : Z -> Z) : Prop :=
  forall k, 0 <= k < blocks w bw * blocks h 4 -> forall ch, 0 <= ch < 4 -> pvr_a (block_bytes 8 k data) ch = a ch /\ pvr_b (block_bytes 8 k data) ch = b ch.
