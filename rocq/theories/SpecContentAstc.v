(** * Specification: pictures that ASTC can store with one weight per texel.
    Contents of blocks are described without bits, as in [SpecContent]. *)
From Verif Require Import Base BaseLemmas SpecImage SpecBc SpecAstc SpecCut SpecEncode.

(** The block sizes of the format with at most 64 texels. *)
Definition small_sizes : list (Z * Z) := [(4, 4); (5, 4); (5, 5); (6, 5); (6, 6); (8, 5); (8, 6); (10, 5); (10, 6); (8, 8)].

(** Kinds of colours: 0 grey, 1 grey with alpha, 2 colour, 3 colour with alpha.
    A pair of them takes so many numbers. *)
Definition numbers (kind : Z) : Z := 2 * kind + 2.
Definition of_kind (kind : Z) (c : Z -> Z) : Prop :=
  (forall ch, 0 <= ch < 4 -> is_byte (c ch)) /\ (kind mod 2 = 0 -> c 3 = 255) /\ (kind < 2 -> c 0 = c 1 /\ c 1 = c 2).

(** The shares (of 64) of the second colour that can be had with [n] bits per texel. *)
Definition shares (n : Z) : list Z :=
  match n with
  | 1 => [0; 64]
  | 2 => [0; 21; 43; 64]
  | 3 => [0; 9; 18; 27; 37; 46; 55; 64]
  | 4 => [0; 4; 8; 12; 17; 21; 25; 29; 35; 39; 43; 47; 52; 56; 60; 64]
  | 5 => [0; 2; 4; 6; 8; 10; 12; 14; 16; 18; 20; 22; 24; 26; 28; 30; 34; 36; 38; 40; 42; 44; 46; 48; 50; 52; 54; 56; 58; 60; 62; 64]
  | _ => []
  end.
(** Two colours and what lies between them. *)
Definition shade (c0 c1 : Z -> Z) (w : Z) : Z :=
  rgba (ldr_texel (c0 0) (c1 0) w) (ldr_texel (c0 1) (c1 1) w) (ldr_texel (c0 2) (c1 2) w) (ldr_texel (c0 3) (c1 3) w).
Definition shades_pattern (size kind n : Z) (f : Z -> Z) : Prop :=
  exists c0 c1 i, of_kind kind c0 /\ of_kind kind c1 /\ (forall t, 0 <= t < size -> 0 <= i t < 2 ^ n) /\
    forall t, 0 <= t < size -> f t = shade c0 c1 (znth (shares n) (i t)).

(** 17 bits say what is stored; the weights have to take 24 to 96 bits. *)
Definition room (size kind n : Z) : Prop :=
  0 <= kind < 4 /\ 1 <= n <= 5 /\ 24 <= size * n <= 96 /\ 17 + 8 * numbers kind + size * n <= 128.

(** Each block of the picture, as far as it lies inside, is part of a pattern. *)
Definition composed_of (bw bh : Z) (pattern : (Z -> Z) -> Prop) (w h : Z) (pic : Z -> Z -> Z) : Prop :=
  forall bx by_, 0 <= bx -> 0 <= by_ -> bw * bx < w -> bh * by_ < h ->
    exists f, pattern f /\ forall x y, bw * bx <= x < bw * bx + bw -> bh * by_ <= y < bh * by_ + bh -> x < w -> y < h ->
      pic x y = f ((y - bh * by_) * bw + (x - bw * bx)).
(** Each block of the picture has at most two colours, which satisfy [ok]. *)
Definition two_colours (bw bh : Z) (ok : Z -> Prop) (w h : Z) (pic : Z -> Z -> Z) : Prop :=
  forall bx by_, 0 <= bx -> 0 <= by_ -> bw * bx < w -> bh * by_ < h ->
    exists u v, ok u /\ ok v /\ forall x y, bw * bx <= x < bw * bx + bw -> bh * by_ <= y < bh * by_ + bh -> x < w -> y < h ->
      pic x y = u \/ pic x y = v.
(** Any colour with any alpha; any opaque colour; any grey. *)
Definition any_colour (u : Z) : Prop := 0 <= u < 2 ^ 32.
Definition opaque_colour (u : Z) : Prop := exists r g b, is_byte r /\ is_byte g /\ is_byte b /\ u = rgba r g b 255.
Definition grey (u : Z) : Prop := exists v a, is_byte v /\ is_byte a /\ u = rgba v v v a.
