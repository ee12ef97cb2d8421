(** * Model of src/f16.rs and of the float-to-byte conversions
    f32 values are Coq's [spec_float] with 24 bits of precision and exponent
    bound 128 (IEEE 754 binary32, round to nearest even).  NaN payloads are not
    represented: every NaN has the bit pattern 0x7fc00000. *)
From Verif Require Import Base.
From Coq Require Import Floats.SpecFloat.

(** src/f16.rs:46, :51, :61: the type `f32` *)
Definition f32 : Type := spec_float.
(** src/f16.rs:121, src/astc.rs:239, :247, src/bcn/bc6.rs:328-331: `*` on `f32` *)
Definition f32_mul : f32 -> f32 -> f32 := SFmul 24 128.
(** src/f16.rs:152: `-` on `f32` *)
Definition f32_sub : f32 -> f32 -> f32 := SFsub 24 128.
(** src/astc.rs:7-14: `<` on `f32` *)
Definition f32_lt : f32 -> f32 -> bool := SFltb.
(** src/astc.rs:7-14: `==` on `f32` *)
Definition f32_eq : f32 -> f32 -> bool := SFeqb.
(** src/astc.rs:7-14, :247: `0.0` *)
Definition f32_zero : f32 := S754_zero false.

(** `f32::from_le_bytes(u32::to_le_bytes(x))` (src/f16.rs lines 45-48). *)
Definition fp32_from_bits (x : Z) : f32 :=
  let s := Z.testbit x 31 in
  let e := x / 2 ^ 23 mod 256 in
  let f := x mod 2 ^ 23 in
  if e =? 255 then if f =? 0 then S754_infinity s else S754_nan
  else if e =? 0 then if f =? 0 then S754_zero s else S754_finite s (Z.to_pos f) (-149)
  else S754_finite s (Z.to_pos (f + 2 ^ 23)) (e - 150).

(** `u32::from_le_bytes(f32::to_le_bytes(x))` (src/f16.rs lines 50-53). *)
Definition fp32_to_bits (x : f32) : Z :=
  let sgn (s : bool) := if s then 2 ^ 31 else 0 in
  match x with
  | S754_nan => 0x7fc00000
  | S754_infinity s => sgn s + 255 * 2 ^ 23
  | S754_zero s => sgn s
  | S754_finite s f e =>
      if Z.pos f <? 2 ^ 23 then sgn s + Z.pos f
      else sgn s + (e + 150) * 2 ^ 23 + (Z.pos f - 2 ^ 23)
  end.

(** src/astc.rs:7-14:
    The integer part (towards zero) of a finite float. *)
Definition f32_trunc (x : f32) : Z :=
  match x with
  | S754_finite s f e =>
      let a := if 0 <=? e then Z.pos f * 2 ^ e else Z.pos f / 2 ^ (- e) in
      if s then - a else a
  | _ => 0
  end.
(** src/astc.rs:7-14, :239, :247, src/bcn/bc6.rs:328-331:
    `x as iN/uN`: saturating, NaN gives 0. *)
Definition f32_as (lo hi : Z) (x : f32) : Z :=
  match x with
  | S754_nan => 0
  | S754_infinity s => if s then lo else hi
  | _ => Z.max lo (Z.min hi (f32_trunc x))
  end.
(** src/astc.rs:7-14:
    `i as f32` *)
Definition f32_of_int (i : Z) : f32 := binary_normalize 24 128 i 0 false.
(** src/astc.rs:247, src/bcn/bc6.rs:328-331:
    `x.clamp(lo, hi)` for floats (lo <= hi): NaN stays NaN. *)
Definition f32_clamp (lo hi x : f32) : f32 :=
  let x := if f32_lt x lo then lo else x in
  if f32_lt hi x then hi else x.

(** src/f16.rs lines 60-167: `fp16_ieee_to_fp32_value`.  No integer operation
    in it can overflow: `(two_w >> 4) + exp_offset` is below 2^32. *)
Definition fp16_ieee_to_fp32_value (h : Z) : f32 :=
  let w := h * 2 ^ 16 in
  let sign := Z.land w 0x80000000 in
  let two_w := u32 (w + w) in
  let exp_offset := u32 (Z.shiftl 0xE0 23) in
  let exp_scale := fp32_from_bits 0x7800000 in
  let normalized_value := f32_mul (fp32_from_bits (Z.shiftr two_w 4 + exp_offset)) exp_scale in
  let magic_mask := Z.shiftl 126 23 in
  let magic_bias := fp32_from_bits 0x3f000000 in
  let denormalized_value := f32_sub (fp32_from_bits (Z.lor (Z.shiftr two_w 17) magic_mask)) magic_bias in
  let denormalized_cutoff := Z.shiftl 1 27 in
  let result :=
    Z.lor sign (if two_w <? denormalized_cutoff then fp32_to_bits denormalized_value
                else fp32_to_bits normalized_value) in
  fp32_from_bits result.

(** src/astc.rs:239, :247: `255.0` *)
Definition f32_255 : f32 := fp32_from_bits 0x437f0000.

(** src/bcn/bc6.rs lines 328-331: `f32_to_u8`. *)
Definition bc6_f32_to_u8 (f : f32) : Z :=
  f32_as 0 255 (f32_clamp f32_zero f32_255 (f32_mul f f32_255)).
(** src/bcn/bc6.rs lines 333-337: `f16_to_u8`. *)
Definition f16_to_u8 (h : Z) : Z := bc6_f32_to_u8 (fp16_ieee_to_fp32_value h).

(** src/astc.rs lines 7-14: `floor`.  `i -= 1` overflows when `x` is below the
    i32 range: `x as i32` saturates to `i32::MIN`, which differs from `x`. *)
Definition floor_f32 (m : build) (x : f32) : res f32 :=
  let i := f32_as (- 2 ^ 31) (2 ^ 31 - 1) x in
  let* i := if f32_lt x f32_zero && negb (f32_eq x (f32_of_int i)) then ia m 32 (i - 1) else Ok i in
  Ok (f32_of_int i).
(** src/astc.rs lines 245-248: `f32_to_u8`. *)
Definition astc_f32_to_u8 (m : build) (f : f32) : res Z :=
  let* x := floor_f32 m (f32_mul f f32_255) in
  Ok (f32_as 0 255 (f32_clamp f32_zero f32_255 x)).
(** src/astc.rs lines 250-255: `f16ptr_to_u8` of the half-float with bits [h]. *)
Definition astc_f16_to_u8 (m : build) (h : Z) : res Z := astc_f32_to_u8 m (fp16_ieee_to_fp32_value h).
