(** * Specification: exactly which pictures BC6H decoding can show.
    As in [SpecContent7], the contents of a block are described without bits; the
    deviations of the code from the format (C15, C45) are part of the description. *)
From Verif Require Import Base BaseLemmas ModelColor SpecBptc SpecBc SpecF16 SpecBc6 SpecContent.

(** The mode gives the number of subsets and the sizes of the numbers; [v c e] is
    the number for end point [e] of channel [c]: itself or a difference to the
    first one. *)
Definition number_bits (mode c e : Z) : Z := if e =? 0 then EB mode else DB mode c.
Definition end6 (sgn : bool) (mode : Z) (v : Z -> Z -> Z) (c e : Z) : Z :=
  let first := if sgn then sext (EB mode) (v c 0) else v c 0 in
  if e =? 0 then first
  else if is_delta mode then
    let x := (first + sext (DB mode c) (v c e)) mod 2 ^ EB mode in if sgn then sext (EB mode) x else x
  else if sgn then sext (DB mode c) (v c e) else v c e.
Definition level6 (sgn : bool) (mode : Z) (v : Z -> Z -> Z) (c e : Z) : Z :=
  if (mode =? 15) && (e =? 1) then 0 else (if sgn then unq_signed_code else unq_unsigned_code) (EB mode) (end6 sgn mode v c e).
(** Weights have 3 bits with two subsets, else 4; the first texels of the subsets
    have one bit less, and only the weights of the first half. *)
Definition weight_bits (mode : Z) : Z := if subsets6 mode =? 2 then 3 else 4.
Definition subset_of (mode part t : Z) : Z := if subsets6 mode =? 2 then znth (nth (Z.to_nat part) partition2 []) t else 0.
Definition first_of (mode part t : Z) : bool := (t =? 0) || (subsets6 mode =? 2) && (t =? znth anchor2 part).
Definition channel6 (sgn : bool) (mode part : Z) (v : Z -> Z -> Z) (i : Z -> Z) (c t : Z) : Z :=
  let s := subset_of mode part t in
  half_byte ((if sgn then finish_signed_code else finish_unsigned)
    (lerp64 (level6 sgn mode v c (2 * s)) (level6 sgn mode v c (2 * s + 1)) (znth (weights (weight_bits mode)) (i t)))).
(** Blocks of reserved modes are transparent black; with overflow checks there is
    no mode 15. *)
Definition bc6_full (m : build) (sgn : bool) (f : Z -> Z) : Prop :=
  (forall t, 0 <= t < 16 -> f t = 0) \/
  exists mode part v i, In mode bc6_modes /\ (m = Wrapping \/ mode <> 15) /\ 0 <= part < 32 /\
    (forall c e, 0 <= c < 3 -> 0 <= e < 2 * subsets6 mode -> 0 <= v c e < 2 ^ number_bits mode c e) /\
    (forall t, 0 <= t < 16 -> 0 <= i t < 2 ^ (weight_bits mode - if first_of mode part t then 1 else 0)) /\
    forall t, 0 <= t < 16 -> f t = rgba (channel6 sgn mode part v i 0 t) (channel6 sgn mode part v i 1 t) (channel6 sgn mode part v i 2 t) 255.
