(** * Partition and anchor tables of BC6H and BC7
    As printed in the format specification (Khronos Data Format Specification,
    "BPTC Compressed Texture Image Formats"): for each partition the subset of the 16
    texels, row by row; the anchor texel of the subsets other than the first;
    interpolation weights. *)
From Verif Require Import Base.

Definition partition2 : list (list Z) :=
  [
   [0; 0; 1; 1; 0; 0; 1; 1; 0; 0; 1; 1; 0; 0; 1; 1];
   [0; 0; 0; 1; 0; 0; 0; 1; 0; 0; 0; 1; 0; 0; 0; 1];
   [0; 1; 1; 1; 0; 1; 1; 1; 0; 1; 1; 1; 0; 1; 1; 1];
   [0; 0; 0; 1; 0; 0; 1; 1; 0; 0; 1; 1; 0; 1; 1; 1];
   [0; 0; 0; 0; 0; 0; 0; 1; 0; 0; 0; 1; 0; 0; 1; 1];
   [0; 0; 1; 1; 0; 1; 1; 1; 0; 1; 1; 1; 1; 1; 1; 1];
   [0; 0; 0; 1; 0; 0; 1; 1; 0; 1; 1; 1; 1; 1; 1; 1];
   [0; 0; 0; 0; 0; 0; 0; 1; 0; 0; 1; 1; 0; 1; 1; 1];
   [0; 0; 0; 0; 0; 0; 0; 0; 0; 0; 0; 1; 0; 0; 1; 1];
   [0; 0; 1; 1; 0; 1; 1; 1; 1; 1; 1; 1; 1; 1; 1; 1];
   [0; 0; 0; 0; 0; 0; 0; 1; 0; 1; 1; 1; 1; 1; 1; 1];
   [0; 0; 0; 0; 0; 0; 0; 0; 0; 0; 0; 1; 0; 1; 1; 1];
   [0; 0; 0; 1; 0; 1; 1; 1; 1; 1; 1; 1; 1; 1; 1; 1];
   [0; 0; 0; 0; 0; 0; 0; 0; 1; 1; 1; 1; 1; 1; 1; 1];
   [0; 0; 0; 0; 1; 1; 1; 1; 1; 1; 1; 1; 1; 1; 1; 1];
   [0; 0; 0; 0; 0; 0; 0; 0; 0; 0; 0; 0; 1; 1; 1; 1];
   [0; 0; 0; 0; 1; 0; 0; 0; 1; 1; 1; 0; 1; 1; 1; 1];
   [0; 1; 1; 1; 0; 0; 0; 1; 0; 0; 0; 0; 0; 0; 0; 0];
   [0; 0; 0; 0; 0; 0; 0; 0; 1; 0; 0; 0; 1; 1; 1; 0];
   [0; 1; 1; 1; 0; 0; 1; 1; 0; 0; 0; 1; 0; 0; 0; 0];
   [0; 0; 1; 1; 0; 0; 0; 1; 0; 0; 0; 0; 0; 0; 0; 0];
   [0; 0; 0; 0; 1; 0; 0; 0; 1; 1; 0; 0; 1; 1; 1; 0];
   [0; 0; 0; 0; 0; 0; 0; 0; 1; 0; 0; 0; 1; 1; 0; 0];
   [0; 1; 1; 1; 0; 0; 1; 1; 0; 0; 1; 1; 0; 0; 0; 1];
   [0; 0; 1; 1; 0; 0; 0; 1; 0; 0; 0; 1; 0; 0; 0; 0];
   [0; 0; 0; 0; 1; 0; 0; 0; 1; 0; 0; 0; 1; 1; 0; 0];
   [0; 1; 1; 0; 0; 1; 1; 0; 0; 1; 1; 0; 0; 1; 1; 0];
   [0; 0; 1; 1; 0; 1; 1; 0; 0; 1; 1; 0; 1; 1; 0; 0];
   [0; 0; 0; 1; 0; 1; 1; 1; 1; 1; 1; 0; 1; 0; 0; 0];
   [0; 0; 0; 0; 1; 1; 1; 1; 1; 1; 1; 1; 0; 0; 0; 0];
   [0; 1; 1; 1; 0; 0; 0; 1; 1; 0; 0; 0; 1; 1; 1; 0];
   [0; 0; 1; 1; 1; 0; 0; 1; 1; 0; 0; 1; 1; 1; 0; 0];
   [0; 1; 0; 1; 0; 1; 0; 1; 0; 1; 0; 1; 0; 1; 0; 1];
   [0; 0; 0; 0; 1; 1; 1; 1; 0; 0; 0; 0; 1; 1; 1; 1];
   [0; 1; 0; 1; 1; 0; 1; 0; 0; 1; 0; 1; 1; 0; 1; 0];
   [0; 0; 1; 1; 0; 0; 1; 1; 1; 1; 0; 0; 1; 1; 0; 0];
   [0; 0; 1; 1; 1; 1; 0; 0; 0; 0; 1; 1; 1; 1; 0; 0];
   [0; 1; 0; 1; 0; 1; 0; 1; 1; 0; 1; 0; 1; 0; 1; 0];
   [0; 1; 1; 0; 1; 0; 0; 1; 0; 1; 1; 0; 1; 0; 0; 1];
   [0; 1; 0; 1; 1; 0; 1; 0; 1; 0; 1; 0; 0; 1; 0; 1];
   [0; 1; 1; 1; 0; 0; 1; 1; 1; 1; 0; 0; 1; 1; 1; 0];
   [0; 0; 0; 1; 0; 0; 1; 1; 1; 1; 0; 0; 1; 0; 0; 0];
   [0; 0; 1; 1; 0; 0; 1; 0; 0; 1; 0; 0; 1; 1; 0; 0];
   [0; 0; 1; 1; 1; 0; 1; 1; 1; 1; 0; 1; 1; 1; 0; 0];
   [0; 1; 1; 0; 1; 0; 0; 1; 1; 0; 0; 1; 0; 1; 1; 0];
   [0; 0; 1; 1; 1; 1; 0; 0; 1; 1; 0; 0; 0; 0; 1; 1];
   [0; 1; 1; 0; 0; 1; 1; 0; 1; 0; 0; 1; 1; 0; 0; 1];
   [0; 0; 0; 0; 0; 1; 1; 0; 0; 1; 1; 0; 0; 0; 0; 0];
   [0; 1; 0; 0; 1; 1; 1; 0; 0; 1; 0; 0; 0; 0; 0; 0];
   [0; 0; 1; 0; 0; 1; 1; 1; 0; 0; 1; 0; 0; 0; 0; 0];
   [0; 0; 0; 0; 0; 0; 1; 0; 0; 1; 1; 1; 0; 0; 1; 0];
   [0; 0; 0; 0; 0; 1; 0; 0; 1; 1; 1; 0; 0; 1; 0; 0];
   [0; 1; 1; 0; 1; 1; 0; 0; 1; 0; 0; 1; 0; 0; 1; 1];
   [0; 0; 1; 1; 0; 1; 1; 0; 1; 1; 0; 0; 1; 0; 0; 1];
   [0; 1; 1; 0; 0; 0; 1; 1; 1; 0; 0; 1; 1; 1; 0; 0];
   [0; 0; 1; 1; 1; 0; 0; 1; 1; 1; 0; 0; 0; 1; 1; 0];
   [0; 1; 1; 0; 1; 1; 0; 0; 1; 1; 0; 0; 1; 0; 0; 1];
   [0; 1; 1; 0; 0; 0; 1; 1; 0; 0; 1; 1; 1; 0; 0; 1];
   [0; 1; 1; 1; 1; 1; 1; 0; 1; 0; 0; 0; 0; 0; 0; 1];
   [0; 0; 0; 1; 1; 0; 0; 0; 1; 1; 1; 0; 0; 1; 1; 1];
   [0; 0; 0; 0; 1; 1; 1; 1; 0; 0; 1; 1; 0; 0; 1; 1];
   [0; 0; 1; 1; 0; 0; 1; 1; 1; 1; 1; 1; 0; 0; 0; 0];
   [0; 0; 1; 0; 0; 0; 1; 0; 1; 1; 1; 0; 1; 1; 1; 0];
   [0; 1; 0; 0; 0; 1; 0; 0; 0; 1; 1; 1; 0; 1; 1; 1]].

Definition partition3 : list (list Z) :=
  [
   [0; 0; 1; 1; 0; 0; 1; 1; 0; 2; 2; 1; 2; 2; 2; 2];
   [0; 0; 0; 1; 0; 0; 1; 1; 2; 2; 1; 1; 2; 2; 2; 1];
   [0; 0; 0; 0; 2; 0; 0; 1; 2; 2; 1; 1; 2; 2; 1; 1];
   [0; 2; 2; 2; 0; 0; 2; 2; 0; 0; 1; 1; 0; 1; 1; 1];
   [0; 0; 0; 0; 0; 0; 0; 0; 1; 1; 2; 2; 1; 1; 2; 2];
   [0; 0; 1; 1; 0; 0; 1; 1; 0; 0; 2; 2; 0; 0; 2; 2];
   [0; 0; 2; 2; 0; 0; 2; 2; 1; 1; 1; 1; 1; 1; 1; 1];
   [0; 0; 1; 1; 0; 0; 1; 1; 2; 2; 1; 1; 2; 2; 1; 1];
   [0; 0; 0; 0; 0; 0; 0; 0; 1; 1; 1; 1; 2; 2; 2; 2];
   [0; 0; 0; 0; 1; 1; 1; 1; 1; 1; 1; 1; 2; 2; 2; 2];
   [0; 0; 0; 0; 1; 1; 1; 1; 2; 2; 2; 2; 2; 2; 2; 2];
   [0; 0; 1; 2; 0; 0; 1; 2; 0; 0; 1; 2; 0; 0; 1; 2];
   [0; 1; 1; 2; 0; 1; 1; 2; 0; 1; 1; 2; 0; 1; 1; 2];
   [0; 1; 2; 2; 0; 1; 2; 2; 0; 1; 2; 2; 0; 1; 2; 2];
   [0; 0; 1; 1; 0; 1; 1; 2; 1; 1; 2; 2; 1; 2; 2; 2];
   [0; 0; 1; 1; 2; 0; 0; 1; 2; 2; 0; 0; 2; 2; 2; 0];
   [0; 0; 0; 1; 0; 0; 1; 1; 0; 1; 1; 2; 1; 1; 2; 2];
   [0; 1; 1; 1; 0; 0; 1; 1; 2; 0; 0; 1; 2; 2; 0; 0];
   [0; 0; 0; 0; 1; 1; 2; 2; 1; 1; 2; 2; 1; 1; 2; 2];
   [0; 0; 2; 2; 0; 0; 2; 2; 0; 0; 2; 2; 1; 1; 1; 1];
   [0; 1; 1; 1; 0; 1; 1; 1; 0; 2; 2; 2; 0; 2; 2; 2];
   [0; 0; 0; 1; 0; 0; 0; 1; 2; 2; 2; 1; 2; 2; 2; 1];
   [0; 0; 0; 0; 0; 0; 1; 1; 0; 1; 2; 2; 0; 1; 2; 2];
   [0; 0; 0; 0; 1; 1; 0; 0; 2; 2; 1; 0; 2; 2; 1; 0];
   [0; 1; 2; 2; 0; 1; 2; 2; 0; 0; 1; 1; 0; 0; 0; 0];
   [0; 0; 1; 2; 0; 0; 1; 2; 1; 1; 2; 2; 2; 2; 2; 2];
   [0; 1; 1; 0; 1; 2; 2; 1; 1; 2; 2; 1; 0; 1; 1; 0];
   [0; 0; 0; 0; 0; 1; 1; 0; 1; 2; 2; 1; 1; 2; 2; 1];
   [0; 0; 2; 2; 1; 1; 0; 2; 1; 1; 0; 2; 0; 0; 2; 2];
   [0; 1; 1; 0; 0; 1; 1; 0; 2; 0; 0; 2; 2; 2; 2; 2];
   [0; 0; 1; 1; 0; 1; 2; 2; 0; 1; 2; 2; 0; 0; 1; 1];
   [0; 0; 0; 0; 2; 0; 0; 0; 2; 2; 1; 1; 2; 2; 2; 1];
   [0; 0; 0; 0; 0; 0; 0; 2; 1; 1; 2; 2; 1; 2; 2; 2];
   [0; 2; 2; 2; 0; 0; 2; 2; 0; 0; 1; 2; 0; 0; 1; 1];
   [0; 0; 1; 1; 0; 0; 1; 2; 0; 0; 2; 2; 0; 2; 2; 2];
   [0; 1; 2; 0; 0; 1; 2; 0; 0; 1; 2; 0; 0; 1; 2; 0];
   [0; 0; 0; 0; 1; 1; 1; 1; 2; 2; 2; 2; 0; 0; 0; 0];
   [0; 1; 2; 0; 1; 2; 0; 1; 2; 0; 1; 2; 0; 1; 2; 0];
   [0; 1; 2; 0; 2; 0; 1; 2; 1; 2; 0; 1; 0; 1; 2; 0];
   [0; 0; 1; 1; 2; 2; 0; 0; 1; 1; 2; 2; 0; 0; 1; 1];
   [0; 0; 1; 1; 1; 1; 2; 2; 2; 2; 0; 0; 0; 0; 1; 1];
   [0; 1; 0; 1; 0; 1; 0; 1; 2; 2; 2; 2; 2; 2; 2; 2];
   [0; 0; 0; 0; 0; 0; 0; 0; 2; 1; 2; 1; 2; 1; 2; 1];
   [0; 0; 2; 2; 1; 1; 2; 2; 0; 0; 2; 2; 1; 1; 2; 2];
   [0; 0; 2; 2; 0; 0; 1; 1; 0; 0; 2; 2; 0; 0; 1; 1];
   [0; 2; 2; 0; 1; 2; 2; 1; 0; 2; 2; 0; 1; 2; 2; 1];
   [0; 1; 0; 1; 2; 2; 2; 2; 2; 2; 2; 2; 0; 1; 0; 1];
   [0; 0; 0; 0; 2; 1; 2; 1; 2; 1; 2; 1; 2; 1; 2; 1];
   [0; 1; 0; 1; 0; 1; 0; 1; 0; 1; 0; 1; 2; 2; 2; 2];
   [0; 2; 2; 2; 0; 1; 1; 1; 0; 2; 2; 2; 0; 1; 1; 1];
   [0; 0; 0; 2; 1; 1; 1; 2; 0; 0; 0; 2; 1; 1; 1; 2];
   [0; 0; 0; 0; 2; 1; 1; 2; 2; 1; 1; 2; 2; 1; 1; 2];
   [0; 2; 2; 2; 0; 1; 1; 1; 0; 1; 1; 1; 0; 2; 2; 2];
   [0; 0; 0; 2; 1; 1; 1; 2; 1; 1; 1; 2; 0; 0; 0; 2];
   [0; 1; 1; 0; 0; 1; 1; 0; 0; 1; 1; 0; 2; 2; 2; 2];
   [0; 0; 0; 0; 0; 0; 0; 0; 2; 1; 1; 2; 2; 1; 1; 2];
   [0; 1; 1; 0; 0; 1; 1; 0; 2; 2; 2; 2; 2; 2; 2; 2];
   [0; 0; 2; 2; 0; 0; 1; 1; 0; 0; 1; 1; 0; 0; 2; 2];
   [0; 0; 2; 2; 1; 1; 2; 2; 1; 1; 2; 2; 0; 0; 2; 2];
   [0; 0; 0; 0; 0; 0; 0; 0; 0; 0; 0; 0; 2; 1; 1; 2];
   [0; 0; 0; 2; 0; 0; 0; 1; 0; 0; 0; 2; 0; 0; 0; 1];
   [0; 2; 2; 2; 1; 2; 2; 2; 0; 2; 2; 2; 1; 2; 2; 2];
   [0; 1; 0; 1; 2; 2; 2; 2; 2; 2; 2; 2; 2; 2; 2; 2];
   [0; 1; 1; 1; 2; 0; 1; 1; 2; 2; 0; 1; 2; 2; 2; 0]].

(** Anchor of the second subset out of two. *)
Definition anchor2 : list Z :=
  [15; 15; 15; 15; 15; 15; 15; 15;
   15; 15; 15; 15; 15; 15; 15; 15;
   15;  2;  8;  2;  2;  8;  8; 15;
    2;  8;  2;  2;  8;  8;  2;  2;
   15; 15;  6;  8;  2;  8; 15; 15;
    2;  8;  2;  2;  2; 15; 15;  6;
    6;  2;  6;  8; 15; 15;  2;  2;
   15; 15; 15; 15; 15;  2;  2; 15].

(** Anchor of the second subset out of three. *)
Definition anchor3a : list Z :=
  [ 3;  3; 15; 15;  8;  3; 15; 15;
    8;  8;  6;  6;  6;  5;  3;  3;
    3;  3;  8; 15;  3;  3;  6; 10;
    5;  8;  8;  6;  8;  5; 15; 15;
    8; 15;  3;  5;  6; 10;  8; 15;
   15;  3; 15;  5; 15; 15; 15; 15;
    3; 15;  5;  5;  5;  8;  5; 10;
    5; 10;  8; 13; 15; 12;  3;  3].

(** Anchor of the third subset out of three. *)
Definition anchor3b : list Z :=
  [15;  8;  8;  3; 15; 15;  3;  8;
   15; 15; 15; 15; 15; 15; 15;  8;
   15;  8; 15;  3; 15;  8; 15;  8;
    3; 15;  6; 10; 15; 15; 10;  8;
   15;  3; 15; 10; 10;  8;  9; 10;
    6; 15;  8; 15;  3;  6;  6;  8;
   15;  3; 15; 15; 15; 15; 15; 15;
   15; 15; 15; 15;  3; 15; 15;  8].

(** Interpolation weights for indices of 2, 3 and 4 bits. *)
Definition weights (n : Z) : list Z :=
  if n =? 2 then [0; 21; 43; 64]
  else if n =? 3 then [0; 9; 18; 27; 37; 46; 55; 64]
  else [0; 4; 9; 13; 17; 21; 26; 30; 34; 38; 43; 47; 51; 55; 60; 64].

(** Weighted mean in 64ths, rounded to nearest. *)
Definition lerp64 (e0 e1 w : Z) : Z := (e0 * (64 - w) + e1 * w + 32) / 64.
