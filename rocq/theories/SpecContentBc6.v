(** * Specification: pictures that BC6H can store with 10 bits per number. *)
From Verif Require Import Base BaseLemmas ModelColor SpecImage SpecBptc SpecBc SpecF16 SpecBc6 SpecCut SpecEncode SpecContent.

(** ** Images
    All sizes are checked, and if all blocks are [good], then the picture is the
    one given by [tex]. *)
Definition decodes_where (bw bh raw : Z) (good : list Z -> Prop) (tex : list Z -> Z -> Z) (dec : list Z -> Z -> Z -> list Z -> res (status * list Z)) : Prop :=
  forall data w h image, sized bw bh raw data w h image ->
    (zlen data < blocks w bw * blocks h bh * raw -> dec data w h image = Ok (Failed "Not enough data to decode image!", image)) /\
    (blocks w bw * blocks h bh * raw <= zlen data -> zlen image < w * h -> dec data w h image = Ok (Failed "Image buffer is too small!", image)) /\
    (blocks w bw * blocks h bh * raw <= zlen data -> w * h <= zlen image -> all_blocks bw bh raw good data w h ->
       exists image', dec data w h image = Ok (Done, image') /\ picture bw bh raw tex data w h image image').

(** ** Contents
    Numbers of 10 bits and the 16-bit values they stand for.  Left out are the
    numbers the code gets wrong: 512 and 1023, and all negative ones. *)
Definition fair_unsigned (n : Z) : Prop := 0 <= n < 1023 /\ n <> 512.
Definition fair_signed (n : Z) : Prop := 0 <= n < 512.
Definition value_unsigned (n : Z) : Z := if n =? 0 then 0 else 64 * n + 32.
Definition value_signed (n : Z) : Z := if n =? 0 then 0 else if n =? 511 then 32767 else 64 * n + 32.
(** The share [w] (of 64) of the second value, as a half-float and then as a byte. *)
Definition tone (sgn : bool) (a b w : Z) : Z :=
  let value := if sgn then value_signed else value_unsigned in
  half_byte (lerp64 (value a) (value b) w * 31 / (if sgn then 32 else 64)).
Definition tones (sgn : bool) (a b : Z -> Z) (w : Z) : Z := rgba (tone sgn (a 0) (b 0) w) (tone sgn (a 1) (b 1) w) (tone sgn (a 2) (b 2) w) 255.
(** Blocks of two colours and the fourteen tones between them. *)
Definition sixteenths : list Z := [0; 4; 9; 13; 17; 21; 26; 30; 34; 38; 43; 47; 51; 55; 60; 64].
Definition bc6_pattern (sgn : bool) (f : Z -> Z) : Prop :=
  exists a b i, (forall ch, 0 <= ch < 3 -> (if sgn then fair_signed else fair_unsigned) (a ch) /\ (if sgn then fair_signed else fair_unsigned) (b ch)) /\
    choice_below 16 i /\ forall t, 0 <= t < 16 -> f t = tones sgn a b (znth sixteenths (i t)).

Definition has_bc6_data (dec : list Z -> Z -> Z -> list Z -> res (status * list Z)) (w h : Z) (pic : Z -> Z -> Z) : Prop :=
  exists data, bytes data /\ zlen data = blocks w 4 * blocks h 4 * 16 /\
    forall image, w * h <= zlen image -> 4 * zlen image < 2 ^ 63 -> exists image', dec data w h image = Ok (Done, image') /\ shows image' w h pic.
