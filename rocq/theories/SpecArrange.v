(** * Specification: rearranging compressed pictures.
    Every texel of a BC1-BC5 or ATC block has an index of its own, so the texels of
    a block and the blocks of a picture can be moved freely. *)
From Verif Require Import Base BaseLemmas ModelColor SpecImage SpecBc SpecCut SpecTranspose.

(** The block whose texel [t] is texel [s t] of [b]. *)
Definition colour_from (s : Z -> Z) (b : list Z) : list Z := map (znth b) [0; 1; 2; 3] ++ put2 (tab 16 (fun t => index2 b 4 (s t))).
Definition ramp_from (s : Z -> Z) (b : list Z) : list Z := map (znth b) [0; 1] ++ put3 (tab 16 (fun t => index3 b 0 (s t))).
Definition alpha_from (s : Z -> Z) (b : list Z) : list Z := put4 (tab 16 (fun t => znth b (s t / 2) / 16 ^ (s t mod 2) mod 16)).
Definition halves_from (f g : (Z -> Z) -> list Z -> list Z) (s : Z -> Z) (b : list Z) : list Z := f s (firstn 8 b) ++ g s (skipn 8 b).

(** The data whose block [k] of [n] holds the texels [texel k] of block [block k]. *)
Definition arranged (raw : Z) (f : (Z -> Z) -> list Z -> list Z) (block : Z -> Z) (texel : Z -> Z -> Z) (n : Z) (data : list Z) : list Z :=
  flat_map (fun k => f (texel k) (block_bytes raw (block k) data)) (zrange 0 n).
(** ... decodes to the picture with its pixels moved in the same way. *)
Definition arranges (raw : Z) (f : (Z -> Z) -> list Z -> list Z) (dec : list Z -> Z -> Z -> list Z -> res (status * list Z)) : Prop :=
  forall data w h image image' block texel w' h' other,
    sized 4 4 raw data w h image -> dec data w h image = Ok (Done, image') ->
    0 <= w' < 2 ^ 64 -> 0 <= h' < 2 ^ 64 -> blocks w' 4 * blocks h' 4 * raw < 2 ^ 64 -> w' * h' <= zlen other -> 4 * zlen other < 2 ^ 63 ->
    (forall k, 0 <= k < blocks w' 4 * blocks h' 4 -> 0 <= block k < blocks w 4 * blocks h 4) ->
    (forall k t, 0 <= k < blocks w' 4 * blocks h' 4 -> 0 <= t < 16 -> 0 <= texel k t < 16) ->
    exists other', dec (arranged raw f block texel (blocks w' 4 * blocks h' 4) data) w' h' other = Ok (Done, other') /\
      forall x y, 0 <= x < w' -> 0 <= y < h' ->
        let k := y / 4 * blocks w' 4 + x / 4 in let t := y mod 4 * 4 + x mod 4 in
        let from_x := block k mod blocks w 4 * 4 + texel k t mod 4 in let from_y := block k / blocks w 4 * 4 + texel k t / 4 in
        from_x < w -> from_y < h -> znth other' (y * w' + x) = znth image' (from_y * w + from_x).

(** ** Mirror images and turned pictures *)
Definition beside (t : Z) : Z := t / 4 * 4 + (3 - t mod 4).
Definition mirror_data raw f cols rows data : list Z :=
  arranged raw f (fun k => k / cols * cols + (cols - 1 - k mod cols)) (fun _ => beside) (cols * rows) data.
Definition mirrors (raw : Z) (f : (Z -> Z) -> list Z -> list Z) (dec : list Z -> Z -> Z -> list Z -> res (status * list Z)) : Prop :=
  forall data cols h image image' other,
    let w := 4 * cols in
    sized 4 4 raw data w h image -> 0 <= cols -> dec data w h image = Ok (Done, image') -> w * h <= zlen other -> 4 * zlen other < 2 ^ 63 ->
    exists other', dec (mirror_data raw f cols (blocks h 4) data) w h other = Ok (Done, other') /\
      forall x y, 0 <= x < w -> 0 <= y < h -> znth other' (y * w + x) = znth image' (y * w + (w - 1 - x)).
(** Half a turn. *)
Definition half_turn_data raw f cols rows data : list Z :=
  arranged raw f (fun k => cols * rows - 1 - k) (fun _ t => 15 - t) (cols * rows) data.
Definition half_turns (raw : Z) (f : (Z -> Z) -> list Z -> list Z) (dec : list Z -> Z -> Z -> list Z -> res (status * list Z)) : Prop :=
  forall data cols rows image image' other,
    let w := 4 * cols in let h := 4 * rows in
    sized 4 4 raw data w h image -> 0 <= cols -> 0 <= rows -> dec data w h image = Ok (Done, image') -> w * h <= zlen other -> 4 * zlen other < 2 ^ 63 ->
    exists other', dec (half_turn_data raw f cols rows data) w h other = Ok (Done, other') /\
      forall x y, 0 <= x < w -> 0 <= y < h -> znth other' (y * w + x) = znth image' ((h - 1 - y) * w + (w - 1 - x)).
(** A quarter turn to the right: the bottom left corner comes to the top left. *)
Definition right_turn_data raw f cols rows data : list Z :=
  arranged raw f (fun k => (rows - 1 - k mod rows) * cols + k / rows) (fun _ t => (3 - t mod 4) * 4 + t / 4) (rows * cols) data.
Definition right_turns (raw : Z) (f : (Z -> Z) -> list Z -> list Z) (dec : list Z -> Z -> Z -> list Z -> res (status * list Z)) : Prop :=
  forall data w rows image image' other,
    let h := 4 * rows in
    sized 4 4 raw data w h image -> 0 <= rows -> dec data w h image = Ok (Done, image') -> w * h <= zlen other -> 4 * zlen other < 2 ^ 63 ->
    exists other', dec (right_turn_data raw f (blocks w 4) rows data) h w other = Ok (Done, other') /\
      forall x y, 0 <= x < h -> 0 <= y < w -> znth other' (y * h + x) = znth image' ((h - 1 - x) * w + y).
(** A quarter turn to the left. *)
Definition left_turn_data raw f cols rows data : list Z :=
  arranged raw f (fun k => k mod rows * cols + (cols - 1 - k / rows)) (fun _ t => t mod 4 * 4 + (3 - t / 4)) (rows * cols) data.
Definition left_turns (raw : Z) (f : (Z -> Z) -> list Z -> list Z) (dec : list Z -> Z -> Z -> list Z -> res (status * list Z)) : Prop :=
  forall data cols h image image' other,
    let w := 4 * cols in
    sized 4 4 raw data w h image -> 0 <= cols -> dec data w h image = Ok (Done, image') -> w * h <= zlen other -> 4 * zlen other < 2 ^ 63 ->
    exists other', dec (left_turn_data raw f cols (blocks h 4) data) h w other = Ok (Done, other') /\
      forall x y, 0 <= x < h -> 0 <= y < w -> znth other' (y * h + x) = znth image' (x * w + (w - 1 - y)).
