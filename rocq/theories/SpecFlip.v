(** * Specification: turning compressed pictures upside down.
    The rows of a block are reversed by moving the bytes and bits of its indices,
    the picture by also reversing the rows of blocks. *)
From Verif Require Import Base BaseLemmas ModelColor SpecImage SpecBc SpecCut.

(** Two-bit indices: one byte per row, behind four bytes of end points. *)
Definition flip_colour (b : list Z) : list Z :=
  map (znth b) [0; 1; 2; 3; 7; 6; 5; 4].
(** Four-bit alpha: two bytes per row. *)
Definition flip_alpha (b : list Z) : list Z := map (znth b) [6; 7; 4; 5; 2; 3; 0; 1].
(** Three-bit indices: twelve bits per row, two rows in three bytes, behind two
    bytes of end points. *)
Definition three_bytes (b : list Z) (o : Z) : Z := znth b o + 256 * znth b (o + 1) + 65536 * znth b (o + 2).
Definition exchange12 (v : Z) : Z := v / 4096 + 4096 * (v mod 4096).
Definition flip_ramp (b : list Z) : list Z :=
  let p := exchange12 (three_bytes b 5) in let q := exchange12 (three_bytes b 2) in
  [znth b 0; znth b 1; p mod 256; p / 256 mod 256; p / 65536; q mod 256; q / 256 mod 256; q / 65536].
(** Blocks of two halves. *)
Definition flip_halves (f g : list Z -> list Z) (b : list Z) : list Z := f (firstn 8 b) ++ g (skipn 8 b).

(** The data of the picture upside down. *)
Definition flip_data (raw : Z) (flip : list Z -> list Z) (cols rows : Z) (data : list Z) : list Z :=
  flat_map (fun k => flip (block_bytes raw ((rows - 1 - k / cols) * cols + k mod cols) data)) (zrange 0 (cols * rows)).
(** ... decodes to the picture upside down, if the height is a multiple of four. *)
Definition flips (raw : Z) (flip : list Z -> list Z) (dec : list Z -> Z -> Z -> list Z -> res (status * list Z)) : Prop :=
  forall data w rows image image' other,
    let h := 4 * rows in
    sized 4 4 raw data w h image -> 0 <= rows -> dec data w h image = Ok (Done, image') -> w * h <= zlen other -> 4 * zlen other < 2 ^ 63 ->
    exists other', dec (flip_data raw flip (blocks w 4) rows data) w h other = Ok (Done, other') /\
      forall x y, 0 <= x < w -> 0 <= y < h -> znth other' (y * w + x) = znth image' ((h - 1 - y) * w + x).
