(** * Specification: parts of pictures and pictures put together. *)
From Verif Require Import Base BaseLemmas ModelColor SpecImage.

(** The bytes of the [nx] x [ny] blocks whose first one stands in column [bx], row
    [by_] of a picture with [cols] blocks per row. *)
Definition cut (raw cols bx by_ nx ny : Z) (data : list Z) : list Z :=
  flat_map (fun r => firstn (Z.to_nat (raw * nx)) (skipn (Z.to_nat (raw * ((by_ + r) * cols + bx))) data)) (zrange 0 ny).

(** Sizes that fit a usize, and slices that fit the memory. *)
Definition sized (bw bh raw : Z) (data : list Z) (w h : Z) (image : list Z) : Prop :=
  bytes data /\ 0 <= w < 2 ^ 64 /\ 0 <= h < 2 ^ 64 /\ 4 * zlen image < 2 ^ 63 /\
  blocks w bw * blocks h bh * raw < 2 ^ 64 /\ w * h < 2 ^ 64.

(** All blocks of the picture are [good] ones. *)
Definition all_blocks (bw bh raw : Z) (good : list Z -> Prop) (data : list Z) (w h : Z) : Prop :=
  forall k, 0 <= k < blocks w bw * blocks h bh -> good (block_bytes raw k data).

(** Decoding the blocks of a part of the picture gives that part of the picture.
    The part starts at a block; its width and height need not be multiples of the
    block size. *)
Definition decodes_parts (bw bh raw : Z) (good : list Z -> Prop) (dec : list Z -> Z -> Z -> list Z -> res (status * list Z)) : Prop :=
  forall data W H image image' bx by_ w h small,
    sized bw bh raw data W H image -> all_blocks bw bh raw good data W H -> dec data W H image = Ok (Done, image') ->
    0 <= bx -> 0 <= by_ -> 0 <= w -> 0 <= h -> bw * bx + w <= W -> bh * by_ + h <= H -> w * h <= zlen small -> 4 * zlen small < 2 ^ 63 ->
    exists small', dec (cut raw (blocks W bw) bx by_ (blocks w bw) (blocks h bh) data) w h small = Ok (Done, small') /\
      forall x y, 0 <= x < w -> 0 <= y < h -> znth small' (y * w + x) = znth image' ((bh * by_ + y) * W + (bw * bx + x)).

(** Two pictures of the same width are put below each other by writing the second
    one's bytes behind the first one's, if the height of the first is a multiple of
    the block height. *)
Definition decodes_stacks (bw bh raw : Z) (good : list Z -> Prop) (dec : list Z -> Z -> Z -> list Z -> res (status * list Z)) : Prop :=
  forall data1 data2 w h1 h2 image1 image2 image1' image2' image,
    sized bw bh raw data1 w h1 image1 -> sized bw bh raw data2 w h2 image2 -> sized bw bh raw (data1 ++ data2) w (h1 + h2) image ->
    all_blocks bw bh raw good data1 w h1 -> all_blocks bw bh raw good data2 w h2 ->
    dec data1 w h1 image1 = Ok (Done, image1') -> dec data2 w h2 image2 = Ok (Done, image2') ->
    h1 mod bh = 0 -> zlen data1 = blocks w bw * (h1 / bh) * raw -> w * (h1 + h2) <= zlen image ->
    exists image', dec (data1 ++ data2) w (h1 + h2) image = Ok (Done, image') /\
      forall x y, 0 <= x < w -> 0 <= y < h1 + h2 ->
        znth image' (y * w + x) = if y <? h1 then znth image1' (y * w + x) else znth image2' ((y - h1) * w + x).
