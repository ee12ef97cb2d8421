(** * The 4x4 block formats as one family *)
From Verif Require Import Base ModelColor SpecImage SpecBc ModelBc ModelEtc ModelBc7.

(** The formats handled by `block_decoder!` with 4x4 blocks: bytes per block,
    block function, image decoder (src/bcn.rs lines 21-29, src/atc.rs lines 89-90,
    src/etc.rs lines 17-26). *)
Definition fmt : Type :=
  (Z * (list Z -> list Z -> res (list Z)) * (list Z -> Z -> Z -> list Z -> res (status * list Z)))%type.
Definition formats (m : build) : list fmt :=
  [(8, decode_bc1_block m, decode_bc1 m); (8, decode_bc1a_block m, decode_bc1a m);
   (16, decode_bc2_block m, decode_bc2 m); (16, decode_bc3_block m, decode_bc3 m);
   (8, decode_bc4_block m, decode_bc4 m); (16, decode_bc5_block m, decode_bc5 m);
   (8, decode_atc_rgb4_block m, decode_atc_rgb4 m); (16, decode_atc_rgba8_block m, decode_atc_rgba8 m);
   (8, decode_etc1_block m, decode_etc1 m); (8, decode_etc2_rgb_block m, decode_etc2_rgb m);
   (8, decode_etc2_rgba1_block m, decode_etc2_rgba1 m); (16, decode_etc2_rgba8_block m, decode_etc2_rgba8 m);
   (8, decode_eacr_block m, decode_eacr m); (8, decode_eacr_signed_block m, decode_eacr_signed m);
   (16, decode_eacrg_block m, decode_eacrg m); (16, decode_eacrg_signed_block m, decode_eacrg_signed m);
   (16, decode_bc7_block m, decode_bc7 m)].

(** Admissible arguments: lengths and dimensions whose products fit in usize. *)
Definition sane (raw : Z) (data : list Z) (w h : Z) (image : list Z) : Prop :=
  bytes data /\ 0 <= w < 2 ^ 64 /\ 0 <= h < 2 ^ 64 /\ 4 * zlen image < 2 ^ 63 /\
  blocks w 4 * blocks h 4 * raw < 2 ^ 64 /\ w * h < 2 ^ 64.

(** The scratch buffer before the first block (src/macros.rs line 12). *)
Definition fresh_block : list Z := repeat (rgba 0 0 0 255) 16.

