(** * Specification: exchanging the axes of compressed pictures.
    The indices of a block are exchanged along its diagonal, the blocks along the
    diagonal of the picture. *)
From Verif Require Import Base BaseLemmas ModelColor SpecImage SpecBc SpecEtc SpecCut.

(** The texel on the other side of the diagonal. *)
Definition across (t : Z) : Z := (t mod 4) * 4 + t / 4.
(** Number with the digits [l], lowest first, in base [b]. *)
Fixpoint number_of (b : Z) (l : list Z) : Z := match l with [] => 0 | d :: l => d + b * number_of b l end.

(** ** BC1-BC5 and ATC *)
(** Two-bit, three-bit and four-bit numbers of the 16 texels, as stored. *)
Definition put2 (l : list Z) : list Z := tab 4 (fun r => znth l (4 * r) + 4 * znth l (4 * r + 1) + 16 * znth l (4 * r + 2) + 64 * znth l (4 * r + 3)).
Definition put3 (l : list Z) : list Z := tab 6 (fun k => number_of 8 l / 256 ^ k mod 256).
Definition put4 (l : list Z) : list Z := tab 8 (fun k => znth l (2 * k) + 16 * znth l (2 * k + 1)).
Definition tr_colour (b : list Z) : list Z := map (znth b) [0; 1; 2; 3] ++ put2 (tab 16 (fun t => index2 b 4 (across t))).
Definition tr_ramp (b : list Z) : list Z := map (znth b) [0; 1] ++ put3 (tab 16 (fun t => index3 b 0 (across t))).
Definition tr_alpha (b : list Z) : list Z := put4 (tab 16 (fun t => znth b (across t / 2) / 16 ^ (across t mod 2) mod 16)).
Definition tr_halves (f g : list Z -> list Z) (b : list Z) : list Z := f (firstn 8 b) ++ g (skipn 8 b).

(** ** ETC *)
(** The index bits: two planes of 16 bits. *)
Definition tr_low (w : Z) : Z :=
  number_of 2 (tab 32 (fun p => if p <? 16 then field w (across p) (across p) else field w (16 + across (p - 16)) (16 + across (p - 16)))).
(** Blocks of two sub-blocks: halves side by side become halves above each other. *)
Definition tr_sub (w : Z) : Z := (field w 63 33 * 2 + (1 - field w 32 32)) * 2 ^ 32 + tr_low w.
(** T and H blocks. *)
Definition tr_th (w : Z) : Z := field w 63 32 * 2 ^ 32 + tr_low w.
(** Planar blocks: the horizontal and the vertical colour change places. *)
Definition tr_planar (w : Z) : Z :=
  field w 63 39 * 2 ^ 39 + field w 18 14 * 2 ^ 34 + field w 33 33 * 2 ^ 33 + field w 13 13 * 2 ^ 32 + field w 12 6 * 2 ^ 25 + field w 5 0 * 2 ^ 19 +
  field w 38 34 * 2 ^ 14 + field w 32 32 * 2 ^ 13 + field w 31 25 * 2 ^ 6 + field w 24 19.
Definition tr_modes (w : Z) : Z := if overflows w 0 || overflows w 1 then tr_th w else if overflows w 2 then tr_planar w else tr_sub w.
Definition word_bytes (w : Z) : list Z := tab 8 (fun k => w / 256 ^ (7 - k) mod 256).
Definition tr_etc1 (b : list Z) : list Z := word_bytes (tr_sub (etc_word b 0)).
Definition tr_etc2 (b : list Z) : list Z := let w := etc_word b 0 in word_bytes (if etc_diff w then tr_modes w else tr_sub w).
Definition tr_etc2a (b : list Z) : list Z := word_bytes (tr_modes (etc_word b 0)).
(** The alpha of RGBA8: sixteen three-bit indices, the first pixel on top. *)
Definition tr_eac (b : list Z) : list Z :=
  let w := etc_word b 0 in word_bytes (field w 63 48 * 2 ^ 48 + number_of 8 (tab 16 (fun d => eac_index w (15 - d)))).

(** ** Pictures *)
Definition tr_data (raw : Z) (f : list Z -> list Z) (cols rows : Z) (data : list Z) : list Z :=
  flat_map (fun k => f (block_bytes raw (k mod rows * cols + k / rows) data)) (zrange 0 (cols * rows)).
Definition transposes (raw : Z) (f : list Z -> list Z) (dec : list Z -> Z -> Z -> list Z -> res (status * list Z)) : Prop :=
  forall data w h image image' other,
    sized 4 4 raw data w h image -> dec data w h image = Ok (Done, image') -> w * h <= zlen other -> 4 * zlen other < 2 ^ 63 ->
    exists other', dec (tr_data raw f (blocks w 4) (blocks h 4) data) h w other = Ok (Done, other') /\
      forall x y, 0 <= x < w -> 0 <= y < h -> znth other' (x * h + y) = znth image' (y * w + x).
