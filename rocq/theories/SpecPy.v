(** * What a Python binding must do *)
From Verif Require Import Base BaseLemmas ModelColor SpecImage ModelPy.

(** The bytes of a w x h picture: the four bytes of pixel (x,y), low byte
    first, from index 4 (y w + x) on. *)
Definition picture_bytes (w h : Z) (pixel : Z -> Z -> Z) (out : list Z) : Prop :=
  zlen out = 4 * (w * h) /\
  forall x y c, 0 <= x < w -> 0 <= y < h -> 0 <= c < 4 ->
    znth out (4 * (y * w + x) + c) = pixel x y / 256 ^ c mod 256.

(** Sizes for which the object can be allocated and the slice made from it is
    one; [beyond] is what that slice covers behind the object. *)
Definition py_sane (data : list Z) (w h : Z) (beyond : list Z) : Prop :=
  bytes data /\ 0 <= w < 2 ^ 64 /\ 0 <= h < 2 ^ 64 /\ 16 * (w * h) < 2 ^ 63 /\ zlen beyond = 3 * (w * h).

(** Contract of a binding of a block format: a picture or an exception, and
    never a write behind the object. *)
Definition py_decoder (bw bh raw : Z) (tex : list Z -> Z -> Z)
    (f : list Z -> Z -> Z -> list Z -> res (answer * list Z)) : Prop :=
  forall data w h beyond, py_sane data w h beyond -> blocks w bw * blocks h bh * raw < 2 ^ 64 ->
    (zlen data < blocks w bw * blocks h bh * raw ->
       f data w h beyond = Ok (Raises "Not enough data to decode image!", beyond)) /\
    (blocks w bw * blocks h bh * raw <= zlen data ->
       exists out, f data w h beyond = Ok (Returns out, beyond) /\
         picture_bytes w h (fun x y => tex (block_bytes raw ((y / bh) * blocks w bw + x / bw) data) ((y mod bh) * bw + x mod bw)) out).
