(** * Block formats stored in crunch files. *)
From Verif Require Import Base BaseLemmas SpecBc SpecEtc.

(** Bytes per block, and the texels of a block: DXT1, the DXT5 family, DXN,
    DXT5A. *)
Definition crunch_texels (f : Z) : option (Z * (list Z -> Z -> Z)) :=
  if f =? 0 then Some (8, bc1_texel)
  else if (2 <=? f) && (f <=? 6) then Some (16, bc3_texel)
  else if (f =? 7) || (f =? 8) then Some (16, bc5_texel)
  else if f =? 9 then Some (8, bc4_texel)
  else None.

(** Unity's variant also has ETC1 (10), ETC2 (11), ETC2 with alpha (12), and
    the simplified ETC1S (13) and ETC2AS (14). *)
Definition unity_texels (f : Z) : option (Z * (list Z -> Z -> Z)) :=
  if (f =? 10) || (f =? 13) then Some (8, etc1_wrap_texel)
  else if f =? 11 then Some (8, fun b => etc2_texel b 0)
  else if (f =? 12) || (f =? 14) then Some (16, etc2_rgba8_texel)
  else crunch_texels f.
