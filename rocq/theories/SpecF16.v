(** * IEEE 754 half precision, by its definition *)
From Verif Require Import Base.

Definition half_sign (h : Z) : Z := h / 2 ^ 15.
Definition half_exp (h : Z) : Z := h / 2 ^ 10 mod 32.
Definition half_frac (h : Z) : Z := h mod 2 ^ 10.
Definition half_nan (h : Z) : Prop := half_exp h = 31 /\ half_frac h <> 0.
Definition half_inf (h : Z) : Prop := half_exp h = 31 /\ half_frac h = 0.

(** A finite half is (-1)^sign * [half_num] / 2^24, subnormals included. *)
Definition half_num (h : Z) : Z :=
  if half_exp h =? 0 then half_frac h else (2 ^ 10 + half_frac h) * 2 ^ (half_exp h - 1).

(** floor(255 * v) clamped to 0..255; NaN and negative values give 0. *)
Definition half_byte (h : Z) : Z :=
  if half_exp h =? 31 then if (half_frac h =? 0) && (half_sign h =? 0) then 255 else 0
  else if half_sign h =? 1 then 0
  else Z.min 255 (255 * half_num h / 2 ^ 24).

(** The exact single precision bit pattern of a finite half that is not zero:
    sign, exponent, fraction of the same number. *)
Definition single_num (x : Z) : Z :=
  (* a finite single is (-1)^sign * [single_num] / 2^149 *)
  let e := x / 2 ^ 23 mod 256 in
  if e =? 0 then x mod 2 ^ 23 else (2 ^ 23 + x mod 2 ^ 23) * 2 ^ (e - 1).
