(** * BC6H blocks, after the format specification
    (Khronos Data Format Specification, section on BPTC / BC6H; Direct3D 11
    functional specification).  Independent of the model of the decoder. *)
From Verif Require Import Base BaseLemmas SpecBits SpecBptc SpecBc SpecF16.

(** Two mode bits if the first is 0 and 1, otherwise five. *)
Definition bc6_mode (b : list Z) : Z := if bits b 0 2 <? 2 then bits b 0 2 else bits b 0 5.
Definition mode_len (mode : Z) : Z := if mode <? 2 then 2 else 5.
Definition bc6_modes : list Z := [0; 1; 2; 3; 6; 7; 10; 11; 14; 15; 18; 22; 26; 30].
Definition bc6_valid (mode : Z) : bool := existsb (Z.eqb mode) bc6_modes.

(** Parameters: are the other end points stored as differences to the first,
    number of subsets, bits of the first end point, bits of the others
    (red, green, blue). *)
Definition bc6_params (mode : Z) : bool * Z * Z * list Z :=
  match mode with
  | 0 => (true, 2, 10, [5; 5; 5])
  | 1 => (true, 2, 7, [6; 6; 6])
  | 2 => (true, 2, 11, [5; 4; 4])
  | 6 => (true, 2, 11, [4; 5; 4])
  | 10 => (true, 2, 11, [4; 4; 5])
  | 14 => (true, 2, 9, [5; 5; 5])
  | 18 => (true, 2, 8, [6; 5; 5])
  | 22 => (true, 2, 8, [5; 6; 5])
  | 26 => (true, 2, 8, [5; 5; 6])
  | 30 => (false, 2, 6, [6; 6; 6])
  | 3 => (false, 1, 10, [10; 10; 10])
  | 7 => (true, 1, 11, [9; 9; 9])
  | 11 => (true, 1, 12, [8; 8; 8])
  | 15 => (true, 1, 16, [4; 4; 4])
  | _ => (false, 1, 0, [])
  end.
Definition is_delta (mode : Z) : bool := fst (fst (fst (bc6_params mode))).
Definition subsets6 (mode : Z) : Z := snd (fst (fst (bc6_params mode))).
Definition EB (mode : Z) : Z := snd (fst (bc6_params mode)).
Definition DB (mode c : Z) : Z := znth (snd (bc6_params mode)) c.

(** The stored components: end points W X Y Z of red, green, blue. *)
Definition RW := 0. Definition GW := 1. Definition BW := 2.
Definition RX := 3. Definition GX := 4. Definition BX := 5.
Definition RY := 6. Definition GY := 7. Definition BY := 8.
Definition RZ := 9. Definition GZ := 10. Definition BZ := 11.
(** Component of channel [c] of end point [e] (0..3 for W X Y Z). *)
Definition component (c e : Z) : Z := 3 * e + c.

(** The fields following the mode bits, in order: (component, lowest bit, bits). *)
Definition layout (mode : Z) : list (Z * Z * Z) :=
  match mode with
  | 0 =>
    [(GY, 4, 1); (BY, 4, 1); (BZ, 4, 1); (RW, 0, 10); (GW, 0, 10); (BW, 0, 10); (RX, 0, 5);
     (GZ, 4, 1); (GY, 0, 4); (GX, 0, 5); (BZ, 0, 1); (GZ, 0, 4); (BX, 0, 5); (BZ, 1, 1);
     (BY, 0, 4); (RY, 0, 5); (BZ, 2, 1); (RZ, 0, 5); (BZ, 3, 1)]
  | 1 =>
    [(GY, 5, 1); (GZ, 4, 1); (GZ, 5, 1); (RW, 0, 7); (BZ, 0, 1); (BZ, 1, 1); (BY, 4, 1);
     (GW, 0, 7); (BY, 5, 1); (BZ, 2, 1); (GY, 4, 1); (BW, 0, 7); (BZ, 3, 1); (BZ, 5, 1);
     (BZ, 4, 1); (RX, 0, 6); (GY, 0, 4); (GX, 0, 6); (GZ, 0, 4); (BX, 0, 6); (BY, 0, 4);
     (RY, 0, 6); (RZ, 0, 6)]
  | 2 =>
    [(RW, 0, 10); (GW, 0, 10); (BW, 0, 10); (RX, 0, 5); (RW, 10, 1); (GY, 0, 4); (GX, 0, 4);
     (GW, 10, 1); (BZ, 0, 1); (GZ, 0, 4); (BX, 0, 4); (BW, 10, 1); (BZ, 1, 1); (BY, 0, 4);
     (RY, 0, 5); (BZ, 2, 1); (RZ, 0, 5); (BZ, 3, 1)]
  | 3 =>
    [(RW, 0, 10); (GW, 0, 10); (BW, 0, 10); (RX, 0, 10); (GX, 0, 10); (BX, 0, 10)]
  | 6 =>
    [(RW, 0, 10); (GW, 0, 10); (BW, 0, 10); (RX, 0, 4); (RW, 10, 1); (GZ, 4, 1); (GY, 0, 4);
     (GX, 0, 5); (GW, 10, 1); (GZ, 0, 4); (BX, 0, 4); (BW, 10, 1); (BZ, 1, 1); (BY, 0, 4);
     (RY, 0, 4); (BZ, 0, 1); (BZ, 2, 1); (RZ, 0, 4); (GY, 4, 1); (BZ, 3, 1)]
  | 7 =>
    [(RW, 0, 10); (GW, 0, 10); (BW, 0, 10); (RX, 0, 9); (RW, 10, 1); (GX, 0, 9); (GW, 10, 1);
     (BX, 0, 9); (BW, 10, 1)]
  | 10 =>
    [(RW, 0, 10); (GW, 0, 10); (BW, 0, 10); (RX, 0, 4); (RW, 10, 1); (BY, 4, 1); (GY, 0, 4);
     (GX, 0, 4); (GW, 10, 1); (BZ, 0, 1); (GZ, 0, 4); (BX, 0, 5); (BW, 10, 1); (BY, 0, 4);
     (RY, 0, 4); (BZ, 1, 1); (BZ, 2, 1); (RZ, 0, 4); (BZ, 4, 1); (BZ, 3, 1)]
  | 11 =>
    [(RW, 0, 10); (GW, 0, 10); (BW, 0, 10); (RX, 0, 8); (RW, 11, 1); (RW, 10, 1); (GX, 0, 8);
     (GW, 11, 1); (GW, 10, 1); (BX, 0, 8); (BW, 11, 1); (BW, 10, 1)]
  | 14 =>
    [(RW, 0, 9); (BY, 4, 1); (GW, 0, 9); (GY, 4, 1); (BW, 0, 9); (BZ, 4, 1); (RX, 0, 5);
     (GZ, 4, 1); (GY, 0, 4); (GX, 0, 5); (BZ, 0, 1); (GZ, 0, 4); (BX, 0, 5); (BZ, 1, 1);
     (BY, 0, 4); (RY, 0, 5); (BZ, 2, 1); (RZ, 0, 5); (BZ, 3, 1)]
  | 15 =>
    [(RW, 0, 10); (GW, 0, 10); (BW, 0, 10); (RX, 0, 4); (RW, 15, 1); (RW, 14, 1); (RW, 13, 1);
     (RW, 12, 1); (RW, 11, 1); (RW, 10, 1); (GX, 0, 4); (GW, 15, 1); (GW, 14, 1); (GW, 13, 1);
     (GW, 12, 1); (GW, 11, 1); (GW, 10, 1); (BX, 0, 4); (BW, 15, 1); (BW, 14, 1); (BW, 13, 1);
     (BW, 12, 1); (BW, 11, 1); (BW, 10, 1)]
  | 18 =>
    [(RW, 0, 8); (GZ, 4, 1); (BY, 4, 1); (GW, 0, 8); (BZ, 2, 1); (GY, 4, 1); (BW, 0, 8);
     (BZ, 3, 1); (BZ, 4, 1); (RX, 0, 6); (GY, 0, 4); (GX, 0, 5); (BZ, 0, 1); (GZ, 0, 4);
     (BX, 0, 5); (BZ, 1, 1); (BY, 0, 4); (RY, 0, 6); (RZ, 0, 6)]
  | 22 =>
    [(RW, 0, 8); (BZ, 0, 1); (BY, 4, 1); (GW, 0, 8); (GY, 5, 1); (GY, 4, 1); (BW, 0, 8);
     (GZ, 5, 1); (BZ, 4, 1); (RX, 0, 5); (GZ, 4, 1); (GY, 0, 4); (GX, 0, 6); (GZ, 0, 4);
     (BX, 0, 5); (BZ, 1, 1); (BY, 0, 4); (RY, 0, 5); (BZ, 2, 1); (RZ, 0, 5); (BZ, 3, 1)]
  | 26 =>
    [(RW, 0, 8); (BZ, 1, 1); (BY, 4, 1); (GW, 0, 8); (BY, 5, 1); (GY, 4, 1); (BW, 0, 8);
     (BZ, 5, 1); (BZ, 4, 1); (RX, 0, 5); (GZ, 4, 1); (GY, 0, 4); (GX, 0, 5); (BZ, 0, 1);
     (GZ, 0, 4); (BX, 0, 6); (BY, 0, 4); (RY, 0, 5); (BZ, 2, 1); (RZ, 0, 5); (BZ, 3, 1)]
  | 30 =>
    [(RW, 0, 6); (GZ, 4, 1); (BZ, 0, 1); (BZ, 1, 1); (BY, 4, 1); (GW, 0, 6); (GY, 5, 1);
     (BY, 5, 1); (BZ, 2, 1); (GY, 4, 1); (BW, 0, 6); (GZ, 5, 1); (BZ, 3, 1); (BZ, 5, 1);
     (BZ, 4, 1); (RX, 0, 6); (GY, 0, 4); (GX, 0, 6); (GZ, 0, 4); (BX, 0, 6); (BY, 0, 4);
     (RY, 0, 6); (RZ, 0, 6)]
  | _ => []
  end.

(** Value of component [k] put together from its fields in [l], which start at
    bit [p]. *)
Fixpoint gather (b : list Z) (k : Z) (l : list (Z * Z * Z)) (p : Z) : Z :=
  match l with
  | [] => 0
  | (k', lo, n) :: l' =>
      Z.lor (if k' =? k then bits b p n * 2 ^ lo else 0) (gather b k l' (p + n))
  end.
Definition stored (b : list Z) (c e : Z) : Z :=
  gather b (component c e) (layout (bc6_mode b)) (mode_len (bc6_mode b)).

(** Two's complement reading of an [n]-bit value. *)
Definition sext (n v : Z) : Z := if v <? 2 ^ (n - 1) then v else v - 2 ^ n.

(** The end points as integers; [sgn] selects the signed variant of the format. *)
Definition first_end (sgn : bool) (b : list Z) (c : Z) : Z :=
  let v := stored b c 0 in if sgn then sext (EB (bc6_mode b)) v else v.
Definition bc6_end (sgn : bool) (b : list Z) (c e : Z) : Z :=
  let mode := bc6_mode b in
  if e =? 0 then first_end sgn b c
  else if is_delta mode then
    let x := (first_end sgn b c + sext (DB mode c) (stored b c e)) mod 2 ^ EB mode in
    if sgn then sext (EB mode) x else x
  else if sgn then sext (DB mode c) (stored b c e) else stored b c e.

(** Unquantisation to 16 (unsigned) or 1 + 15 bits (signed). *)
Definition unq_unsigned (eb v : Z) : Z :=
  if 15 <=? eb then v
  else if v =? 0 then 0
  else if v =? 2 ^ eb - 1 then 65535
  else (v * 2 ^ 16 + 2 ^ 15) / 2 ^ eb.
Definition unq_signed (eb v : Z) : Z :=
  if 16 <=? eb then v else
  let a := Z.abs v in
  let u := if a =? 0 then 0 else if 2 ^ (eb - 1) - 1 <=? a then 0x7fff else (a * 2 ^ 15 + 2 ^ 14) / 2 ^ (eb - 1) in
  if v <? 0 then - u else u.

(** Partition, subset, anchors, indices. *)
Definition part6 (b : list Z) : Z := if subsets6 (bc6_mode b) =? 2 then bits b 77 5 else 0.
Definition subset6 (b : list Z) (t : Z) : Z :=
  if subsets6 (bc6_mode b) =? 2 then znth (nth (Z.to_nat (part6 b)) partition2 []) t else 0.
Definition anchor6 (b : list Z) (t : Z) : bool :=
  (t =? 0) || (subsets6 (bc6_mode b) =? 2) && (t =? znth anchor2 (part6 b)).
Definition anchors_below6 (b : list Z) (t : Z) : Z := zlen (filter (anchor6 b) (zrange 0 t)).
Definition index6 (b : list Z) (t : Z) : Z :=
  let two := subsets6 (bc6_mode b) =? 2 in
  let n := if two then 3 else 4 in
  bits b ((if two then 82 else 65) + n * t - anchors_below6 b t) (n - if anchor6 b t then 1 else 0).
Definition weight6 (b : list Z) (t : Z) : Z :=
  znth (weights (if subsets6 (bc6_mode b) =? 2 then 3 else 4)) (index6 b t).

(** The half-float bit pattern of an interpolated value. *)
Definition finish_unsigned (x : Z) : Z := x * 31 / 64.
Definition finish_signed (x : Z) : Z := if x <? 0 then 2 ^ 15 + (- x) * 31 / 32 else x * 31 / 32.

(** Texel [t], given the unquantised end points. *)
Definition bc6_half (sgn : bool) (b : list Z) (ends : Z -> Z -> Z) (c t : Z) : Z :=
  let s := subset6 b t in
  let x := lerp64 (ends c (2 * s)) (ends c (2 * s + 1)) (weight6 b t) in
  if sgn then finish_signed x else finish_unsigned x.
Definition bc6_texel_of (sgn : bool) (b : list Z) (ends : Z -> Z -> Z) (t : Z) : Z :=
  if bc6_valid (bc6_mode b) then
    let ch c := half_byte (bc6_half sgn b ends c t) in
    rgba (ch 0) (ch 1) (ch 2) 255
  else 0.

(** The format: unsigned and signed. *)
Definition bc6u_texel (b : list Z) (t : Z) : Z :=
  bc6_texel_of false b (fun c e => unq_unsigned (EB (bc6_mode b)) (bc6_end false b c e)) t.
Definition bc6s_texel (b : list Z) (t : Z) : Z :=
  bc6_texel_of true b (fun c e => unq_signed (EB (bc6_mode b)) (bc6_end true b c e)) t.

(** What the code does instead (unsigned): the top value of the scale is
    recognised at half scale, and (in a wrapping build) the second end point of
    mode 15 is 0. *)
Definition unq_unsigned_code (eb v : Z) : Z :=
  if 15 <=? eb then v
  else if v =? 0 then 0
  else if v =? 2 ^ (eb - 1) then 65535
  else (v * 2 ^ 16 + 2 ^ 15) / 2 ^ eb.
Definition bc6u_code_texel (b : list Z) (t : Z) : Z :=
  bc6_texel_of false b (fun c e =>
    if (bc6_mode b =? 15) && (e =? 1) then 0
    else unq_unsigned_code (EB (bc6_mode b)) (bc6_end false b c e)) t.

(** What the code does instead (signed): the magnitude of a negative end point
    is taken by masking the sign off its two's complement, which always
    saturates; the interpolation is on unsigned 16-bit patterns. *)
Definition unq_signed_code (eb v : Z) : Z :=
  if 16 <=? eb then v mod 65536 else if v <? 0 then 0x8001 else unq_signed eb v.
Definition finish_signed_code (x : Z) : Z := x mod 32768 * 31 / 32 + x / 32768 * 32768.
Definition bc6s_code_half (b : list Z) (c t : Z) : Z :=
  let ends e := if (bc6_mode b =? 15) && (e =? 1) then 0 else unq_signed_code (EB (bc6_mode b)) (bc6_end true b c e) in
  let s := subset6 b t in
  finish_signed_code (lerp64 (ends (2 * s)) (ends (2 * s + 1)) (weight6 b t)).
Definition bc6s_code_texel (b : list Z) (t : Z) : Z :=
  if bc6_valid (bc6_mode b) then
    rgba (half_byte (bc6s_code_half b 0 t)) (half_byte (bc6s_code_half b 1 t)) (half_byte (bc6s_code_half b 2 t)) 255
  else 0.

(** Blocks on which the deviations of the code do not show: not mode 15, and no
    end point in use at the two values which the unsigned unquantisation
    confuses; no negative end point (signed). *)
Definition bc6u_clean (b : list Z) : Prop :=
  bc6_mode b <> 15 /\
  forall c e, 0 <= c < 3 -> 0 <= e < 2 * subsets6 (bc6_mode b) ->
    bc6_end false b c e <> 2 ^ (EB (bc6_mode b) - 1) /\ bc6_end false b c e <> 2 ^ EB (bc6_mode b) - 1.
Definition bc6s_clean (b : list Z) : Prop :=
  bc6_mode b <> 15 /\
  forall c e, 0 <= c < 3 -> 0 <= e < 2 * subsets6 (bc6_mode b) -> 0 <= bc6_end true b c e.
