(** * Model of src/color.rs and of the block_decoder! macro (src/macros.rs) *)
From Verif Require Import Base.

(** src/color.rs lines 26-28: `color`; `u32::from_le_bytes([b, g, r, a])`. *)
Definition color (r g b a : Z) : Z := le_bytes [b; g; r; a].

(** src/color.rs lines 44-50: `rgb565_le`. [d] is a u16. *)
Definition rgb565_le (d : Z) : Z * Z * Z :=
  (Z.lor (u8 (Z.land (Z.shiftr d 8) 0xf8)) (u8 (Z.shiftr d 13)),
   Z.lor (u8 (Z.land (Z.shiftr d 3) 0xfc)) (u8 (Z.land (Z.shiftr d 9) 3)),
   Z.lor (u8 (u16 (Z.shiftl d 3))) (u8 (Z.land (Z.shiftr d 2) 7))).

(** `image[a..b].copy_from_slice(src)`: slice range check, then the length
    check of `copy_from_slice` (used by src/color.rs lines 102-103). *)
Definition copy_slice {A} (image : list A) (a b : Z) (src : list A) : res (list A) :=
  let* dst := slice image a b in
  if zlen dst =? zlen src then copy_into image a src else Panic.

(** src/macros.rs:6, src/astc.rs:1781, src/pvrtc.rs:378, src/crunch.rs:50:
    The value of type `Result<(), &'static str>` returned by an image decoder.
    Image decoders are modelled as returning this together with the final
    contents of the `image` slice, also when they return early. *)
Inductive status := Done | Failed (msg : string).

Section WithBuild.
Context (m : build).

(** src/color.rs lines 83-107: `copy_block_buffer`. *)
Definition copy_block_buffer (bx by_ w h bw bh : Z) (buffer image : list Z) : res (list Z) :=
  let* x := ua m 64 (bw * bx) in
  let* bx1 := ua m 64 (bx + 1) in
  let* xe := ua m 64 (bw * bx1) in
  let* copy_width := if w <? xe then ua m 64 (w - x) else Ok bw in
  let* y_0 := ua m 64 (by_ * bh) in
  let* by1 := ua m 64 (by_ + 1) in
  let* ye := ua m 64 (bh * by1) in
  let* copy_height := if h <? ye then ua m 64 (h - y_0) else Ok bh in
  let* y_end := ua m 64 (y_0 + copy_height) in
  let* (image, _) :=
    for_range y_0 y_end (fun y '(image, buffer_offset) =>
      let* row := ua m 64 (y * w) in
      let* image_offset := ua m 64 (row + x) in
      let* image_end := ua m 64 (image_offset + copy_width) in
      let* buffer_end := ua m 64 (buffer_offset + copy_width) in
      let* src := slice buffer buffer_offset buffer_end in
      let* image := copy_slice image image_offset image_end src in
      let* buffer_offset := ua m 64 (buffer_offset + bw) in
      Ok (image, buffer_offset)) (image, 0) in
  Ok image.

(** src/macros.rs lines 2-44: the function generated by `block_decoder!`
    for block dimensions [bw] x [bh], [raw] bytes per block and block
    function [bd] (which maps the data slice and the current scratch buffer
    to the new scratch buffer). *)
Definition block_decoder (bw bh raw : Z) (bd : list Z -> list Z -> res (list Z))
    (data : list Z) (width height : Z) (image : list Z) : res (status * list Z) :=
  let block_size := bw * bh in
  let num_blocks_x := div_ceil width bw in
  let num_blocks_y := div_ceil height bh in
  let buffer := repeat (color 0 0 0 255) (Z.to_nat block_size) in
  let* nb := ua m 64 (num_blocks_x * num_blocks_y) in
  let* need := ua m 64 (nb * raw) in
  if zlen data <? need then Ok (Failed "Not enough data to decode image!", image) else
  let* area := ua m 64 (width * height) in
  if zlen image <? area then Ok (Failed "Image buffer is too small!", image) else
  let* (_, image, _) :=
    for_range 0 num_blocks_y (fun by_ st =>
      for_range 0 num_blocks_x (fun bx '(buffer, image, data_offset) =>
        let* d := slice_from data data_offset in
        let* buffer := bd d buffer in
        let* image := copy_block_buffer bx by_ width height bw bh buffer image in
        let* data_offset := ua m 64 (data_offset + raw) in
        Ok (buffer, image, data_offset)) st) (buffer, image, 0) in
  Ok (Done, image).

End WithBuild.
