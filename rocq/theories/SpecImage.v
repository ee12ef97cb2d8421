(** * What an image decoder must do, independently of how it is programmed. *)
From Verif Require Import Base BaseLemmas ModelColor.

(** Number of blocks of size [b] needed to cover [n] texels. *)
Definition blocks (n b : Z) : Z := (n + b - 1) / b.

(** The bytes of block number [k]. *)
Definition block_bytes (raw k : Z) (data : list Z) : list Z :=
  firstn (Z.to_nat raw) (skipn (Z.to_nat (raw * k)) data).

(** [image'] is [image] with the w x h picture stored: pixel (x,y) is the
    texel at the same position of the block covering it, where [tex b t] is
    texel number [t] (row by row) of the block with bytes [b]; nothing else
    changed. *)
Definition picture (bw bh raw : Z) (tex : list Z -> Z -> Z)
    (data : list Z) (w h : Z) (image image' : list Z) : Prop :=
  zlen image' = zlen image /\
  (forall x y, 0 <= x < w -> 0 <= y < h ->
     znth image' (y * w + x) =
     tex (block_bytes raw ((y / bh) * blocks w bw + x / bw) data)
         ((y mod bh) * bw + x mod bw)) /\
  (forall j, w * h <= j < zlen image -> znth image' j = znth image j).

(** The same with the texels of block number [k] given by [tex k]. *)
Definition placed (bw bh : Z) (tex : Z -> Z -> Z) (w h : Z) (image image' : list Z) : Prop :=
  zlen image' = zlen image /\
  (forall x y, 0 <= x < w -> 0 <= y < h ->
     znth image' (y * w + x) = tex ((y / bh) * blocks w bw + x / bw) ((y mod bh) * bw + x mod bw)) /\
  (forall j, w * h <= j < zlen image -> znth image' j = znth image j).

(** Full contract of an image decoder taking data, width, height, image.
    A u32 slice occupies at most isize::MAX bytes, hence the bound on the
    length of [image]. *)
Definition image_decoder (bw bh raw : Z) (tex : list Z -> Z -> Z)
    (dec : list Z -> Z -> Z -> list Z -> res (status * list Z)) : Prop :=
  forall data w h image,
    bytes data -> 0 <= w < 2 ^ 64 -> 0 <= h < 2 ^ 64 -> 4 * zlen image < 2 ^ 63 ->
    blocks w bw * blocks h bh * raw < 2 ^ 64 ->
    w * h < 2 ^ 64 ->
    (zlen data < blocks w bw * blocks h bh * raw ->
       dec data w h image = Ok (Failed "Not enough data to decode image!", image)) /\
    (blocks w bw * blocks h bh * raw <= zlen data -> zlen image < w * h ->
       dec data w h image = Ok (Failed "Image buffer is too small!", image)) /\
    (blocks w bw * blocks h bh * raw <= zlen data -> w * h <= zlen image ->
       exists image', dec data w h image = Ok (Done, image') /\
         picture bw bh raw tex data w h image image').

(** Contract of a 4x4 block function with [raw] bytes per block: on any output
    slice of at least 16 words it returns normally, keeps the length and
    stores texel [t] of the block at index [t]. *)
Definition block_exact (raw : Z) (tex : list Z -> Z -> Z)
    (bd : list Z -> list Z -> res (list Z)) : Prop :=
  forall data outbuf,
    bytes data -> raw <= zlen data -> 16 <= zlen outbuf -> Forall is_u32 outbuf ->
    exists out, bd data outbuf = Ok out /\ zlen out = zlen outbuf /\
      forall t, 0 <= t < 16 -> znth out t = tex data t.

(** ... and leaves everything from index 16 on alone. *)
Definition block_confined (raw : Z) (bd : list Z -> list Z -> res (list Z)) : Prop :=
  forall data outbuf,
    bytes data -> raw <= zlen data -> 16 <= zlen outbuf -> Forall is_u32 outbuf ->
    exists out, bd data outbuf = Ok out /\ zlen out = zlen outbuf /\
      forall t, 16 <= t < zlen outbuf -> znth out t = znth outbuf t.
