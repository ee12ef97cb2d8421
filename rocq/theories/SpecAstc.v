(** * The ASTC block format (Khronos Data Format Specification, chapter
    "ASTC Compressed Texture Image Formats"), written from the tables of the
    specification: bit patterns are given as in its text, independently of the
    program. *)
From Verif Require Import Base BaseLemmas SpecF16.
From Coq Require Import Ascii.

(** Bits [p, p+n) of a number. *)
Definition bfield (x p n : Z) : Z := x / 2 ^ p mod 2 ^ n.
(** The 128-bit block. *)
Definition astc_word (b : list Z) : Z := le_bytes (firstn 16 b).
(** The number with the low [n] bits in reverse order: weights are stored from
    the top of the block downwards. *)
Fixpoint rev_bits (n : nat) (x : Z) : Z :=
  match n with
  | O => 0
  | S n' => (x mod 2) * 2 ^ Z.of_nat n' + rev_bits n' (x / 2)
  end.

(** ** Bit patterns
    A pattern is a string, most significant bit first. *)
Fixpoint pattern_bits (f : ascii -> Z) (acc : Z) (p : string) : Z :=
  match p with
  | EmptyString => acc
  | String c p' => pattern_bits f (2 * acc + f c) p'
  end.
(** Patterns over the bits of a value: "a" is its bit 0, "b" bit 1, ...;
    "0" is a zero. *)
Definition replicate_pattern (p : string) (v : Z) : Z :=
  pattern_bits (fun c => if Ascii.eqb c "0" then 0 else bfield v (Z.of_nat (nat_of_ascii c) - 97) 1) 0 p.

(** ** Bounded integer sequence encoding *)
Inductive radix := Bits | Trits | Quints.
Definition per_block (k : radix) : Z := match k with Bits => 1 | Trits => 5 | Quints => 3 end.
(** Widths of the pieces of the packed digits that follow each value. *)
Definition pieces (k : radix) : list Z :=
  match k with Bits => [0] | Trits => [2; 2; 1; 2; 1] | Quints => [3; 2; 2] end.
Definition zsum (l : list Z) : Z := fold_right Z.add 0 l.
Definition before (k : radix) (j : Z) : Z := zsum (firstn (Z.to_nat j) (pieces k)).
(** Bits of one complete block. *)
Definition block_size (k : radix) (n : Z) : Z := zsum (pieces k) + per_block k * n.
(** Bits used by [count] values. *)
Definition seq_size (k : radix) (n count : Z) : Z :=
  match k with
  | Bits => n * count
  | Trits => n * count + (8 * count + 4) / 5
  | Quints => n * count + (7 * count + 2) / 3
  end.

(** Five trits from eight bits. *)
Definition trit_digits (T : Z) : list Z :=
  let t i := bfield T i 1 in
  let '(C, t4, t3) :=
    if bfield T 2 3 =? 7 then (4 * bfield T 5 3 + bfield T 0 2, 2, 2)
    else if bfield T 5 2 =? 3 then (bfield T 0 5, 2, t 7)
    else (bfield T 0 5, t 7, bfield T 5 2) in
  let c i := bfield C i 1 in
  if bfield C 0 2 =? 3 then [2 * c 3 + c 2 * (1 - c 3); c 4; 2; t3; t4]
  else if bfield C 2 2 =? 3 then [bfield C 0 2; 2; 2; t3; t4]
  else [2 * c 1 + c 0 * (1 - c 1); bfield C 2 2; c 4; t3; t4].
(** Three quints from seven bits. *)
Definition quint_digits (Q : Z) : list Z :=
  let q i := bfield Q i 1 in
  if (bfield Q 1 2 =? 3) && (bfield Q 5 2 =? 0) then
    [4; 4; 4 * q 0 + 2 * (q 4 * (1 - q 0)) + q 3 * (1 - q 0)]
  else
    let '(C, q2) :=
      if bfield Q 1 2 =? 3 then (8 * bfield Q 3 2 + 2 * (3 - bfield Q 5 2) + q 0, 4)
      else (bfield Q 0 5, bfield Q 5 2) in
    if bfield C 0 3 =? 5 then [bfield C 3 2; 4; q2] else [bfield C 0 3; bfield C 3 2; q2].
Definition digits (k : radix) (x : Z) : list Z :=
  match k with Bits => [0] | Trits => trit_digits x | Quints => quint_digits x end.

(** The packed digits of the block [D] with [n] extra bits per value: piece j
    stands behind value j. *)
Definition packed (k : radix) (n D : Z) : Z :=
  zsum (map (fun j => bfield D ((j + 1) * n + before k j) (znth (pieces k) j) * 2 ^ before k j)
            (zrange 0 (per_block k))).
(** Entry [i] (extra bits, digit) of the sequence stored in the bits of [S]. *)
Definition seq_entry (k : radix) (n S i : Z) : Z * Z :=
  let D := bfield S (block_size k n * (i / per_block k)) (block_size k n) in
  let j := i mod per_block k in
  (bfield D (j * n + before k j) n, znth (digits k (packed k n D)) j).

(** ** Unquantization *)
(** The top [m] bits of the [n]-bit number [x] repeated for ever. *)
Definition bit_replicate (n m x : Z) : Z := x * ((2 ^ (n * m) - 1) / (2 ^ n - 1)) / 2 ^ (n * m - m).

(** Weights, 0..63 plus one above 32. *)
Definition weight_pattern (k : radix) (n : Z) : string :=
  match k, n with
  | Trits, 2 => "b000b0b"
  | Trits, 3 => "cb000cb"
  | Quints, 2 => "b0000b0"
  | _, _ => "0000000"
  end.
Definition weight_factor (k : radix) (n : Z) : Z :=
  match k, n with
  | Trits, 1 => 50 | Trits, 2 => 23 | Trits, 3 => 11
  | Quints, 1 => 28 | Quints, 2 => 13
  | _, _ => 0
  end.
Definition weight_raw (k : radix) (n : Z) (e : Z * Z) : Z :=
  let '(v, d) := e in
  match k with
  | Bits => bit_replicate n 6 v
  | _ =>
      if n =? 0 then match k with Trits => znth [0; 32; 63] d | _ => znth [0; 16; 32; 47; 63] d end
      else
        let A := replicate_pattern "aaaaaaa" v in
        let T := Z.lxor (d * weight_factor k n + replicate_pattern (weight_pattern k n) v) A in
        Z.lor (Z.land A 0x20) (T / 4)
  end.
Definition weight_value (k : radix) (n : Z) (e : Z * Z) : Z :=
  let w := weight_raw k n e in if 32 <? w then w + 1 else w.

(** Colour values, 0..255. *)
Definition color_pattern (k : radix) (n : Z) : string :=
  match k, n with
  | Trits, 2 => "b000b0bb0"
  | Trits, 3 => "cb000cbcb"
  | Trits, 4 => "dcb000dcb"
  | Trits, 5 => "edcb000ed"
  | Trits, 6 => "fedcb000f"
  | Quints, 2 => "b0000bb00"
  | Quints, 3 => "cb0000cbc"
  | Quints, 4 => "dcb0000dc"
  | Quints, 5 => "edcb0000e"
  | _, _ => "000000000"
  end.
Definition color_factor (k : radix) (n : Z) : Z :=
  match k, n with
  | Trits, 1 => 204 | Trits, 2 => 93 | Trits, 3 => 44 | Trits, 4 => 22 | Trits, 5 => 11 | Trits, 6 => 5
  | Quints, 1 => 113 | Quints, 2 => 54 | Quints, 3 => 26 | Quints, 4 => 13 | Quints, 5 => 6
  | _, _ => 0
  end.
Definition color_value (k : radix) (n : Z) (e : Z * Z) : Z :=
  let '(v, d) := e in
  match k with
  | Bits => bit_replicate n 8 v
  | _ =>
      let A := replicate_pattern "aaaaaaaaa" v in
      let T := Z.lxor (d * color_factor k n + replicate_pattern (color_pattern k n) v) A in
      Z.lor (Z.land A 0x80) (T / 4)
  end.

(** ** Block modes (2D) *)
Fixpoint pattern_matches (p : string) (bit : Z -> Z) : bool :=
  match p with
  | EmptyString => true
  | String c p' =>
      let b := bit (Z.of_nat (String.length p')) in
      (if Ascii.eqb c "0" then b =? 0 else if Ascii.eqb c "1" then b =? 1 else true)
      && pattern_matches p' bit
  end.
(** The value of the bits marked [l] in a pattern, most significant first. *)
Fixpoint marked (l : ascii) (acc : Z) (p : string) (bit : Z -> Z) : Z :=
  match p with
  | EmptyString => acc
  | String c p' =>
      marked l (if Ascii.eqb c l then 2 * acc + bit (Z.of_nat (String.length p')) else acc) p' bit
  end.
(** Bits 10..0 of the block; r, Q, P stand for the bits R0, R1, R2 of the
    weight range.  Each mode gives width and height from the fields A and B. *)
Definition block_modes : list (string * (Z -> Z -> Z * Z)) :=
  [("DHBBAAr00PQ"%string, fun A B => (B + 4, A + 2));
   ("DHBBAAr01PQ"%string, fun A B => (B + 8, A + 2));
   ("DHBBAAr10PQ"%string, fun A B => (A + 2, B + 8));
   ("DH0BAAr11PQ"%string, fun A B => (A + 2, B + 6));
   ("DH1BAAr11PQ"%string, fun A B => (B + 2, A + 2));
   ("DH00AArPQ00"%string, fun A B => (12, A + 2));
   ("DH01AArPQ00"%string, fun A B => (A + 2, 12));
   ("DH1100rPQ00"%string, fun A B => (6, 10));
   ("DH1101rPQ00"%string, fun A B => (10, 6));
   ("BB10AArPQ00"%string, fun A B => (A + 6, B + 6))].
(** A pattern with P, Q needs P or Q set (in the first five rows: R1, R2 not
    both zero, in the others likewise). *)
Record grid := mkGrid { g_dual : bool; g_range : Z; g_width : Z; g_height : Z }.
Definition mode_grid (md : string * (Z -> Z -> Z * Z)) (bit : Z -> Z) : option grid :=
  let '(p, f) := md in
  let get l := marked l 0 p bit in
  if pattern_matches p bit && negb ((get "P"%char =? 0) && (get "Q"%char =? 0)) then
    let '(w, h) := f (get "A"%char) (get "B"%char) in
    Some (mkGrid (get "D"%char =? 1) (8 * get "H"%char + 4 * get "P"%char + 2 * get "Q"%char + get "r"%char) w h)
  else None.
Definition block_mode (W : Z) : option grid :=
  let bit i := bfield W i 1 in
  fold_right (fun md rest => match mode_grid md bit with Some g => Some g | None => rest end) None block_modes.

(** Weight ranges: bits H R2 R1 R0. *)
Definition weight_quant (r : Z) : option (radix * Z) :=
  match r with
  | 2 => Some (Bits, 1) | 3 => Some (Trits, 0) | 4 => Some (Bits, 2)
  | 5 => Some (Quints, 0) | 6 => Some (Trits, 1) | 7 => Some (Bits, 3)
  | 10 => Some (Quints, 1) | 11 => Some (Trits, 2) | 12 => Some (Bits, 4)
  | 13 => Some (Quints, 2) | 14 => Some (Trits, 3) | 15 => Some (Bits, 5)
  | _ => None
  end.
(** Colour ranges from 256 down to 6 levels. *)
Definition color_quants : list (radix * Z) :=
  [(Bits, 8); (Trits, 6); (Quints, 5); (Bits, 7); (Trits, 5); (Quints, 4); (Bits, 6); (Trits, 4);
   (Quints, 3); (Bits, 5); (Trits, 3); (Quints, 2); (Bits, 4); (Trits, 2); (Quints, 1); (Bits, 3);
   (Trits, 1)].
(** The largest range whose [n] values fit in [room] bits. *)
Definition color_quant (n room : Z) : option (radix * Z) :=
  find (fun '(k, b) => seq_size k b n <=? room) color_quants.

(** ** Layout of a block *)
Record layout := mkLayout {
  l_grid : grid;
  l_wq : radix * Z;          (* weight range *)
  l_wcount : Z;              (* number of weights *)
  l_wbits : Z;               (* bits of the weights *)
  l_parts : Z;               (* number of partitions *)
  l_cems : list Z;           (* colour end point mode of each partition *)
  l_plane : Z;               (* second plane's channel *)
  l_cstart : Z;              (* first bit of the colour values *)
  l_cvalues : Z;             (* number of colour values *)
  l_cq : radix * Z           (* colour range *)
}.
Definition cem_values (cem : Z) : Z := 2 * (cem / 4) + 2.
Definition block_layout (W : Z) : option layout :=
  match block_mode W with
  | None => None
  | Some g =>
  match weight_quant (g_range g) with
  | None => None
  | Some (wk, wn) =>
      let wcount := g_width g * g_height g * (if g_dual g then 2 else 1) in
      let wbits := seq_size wk wn wcount in
      let n := bfield W 11 2 + 1 in
      let base := bfield W 23 2 in
      let extra := if (n =? 1) || (base =? 0) then 0 else 3 * n - 4 in
      (* the class and mode bits, the last of them just below the weights *)
      let E := bfield W 25 4 + 16 * bfield W (128 - wbits - extra) extra in
      let cems :=
        if n =? 1 then [bfield W 13 4]
        else if base =? 0 then repeat (bfield W 25 4) (Z.to_nat n)
        else map (fun i => 4 * (base - 1 + bfield E i 1) + bfield E (n + 2 * i) 2) (zrange 0 n) in
      let plane := if g_dual g then bfield W (128 - wbits - extra - 2) 2 else 0 in
      let cstart := if n =? 1 then 17 else 29 in
      let room := 128 - wbits - extra - (if g_dual g then 2 else 0) - cstart in
      let cvalues := zsum (map cem_values cems) in
      match color_quant cvalues room with
      | None => None
      | Some cq =>
          if (wcount <=? 64) && (wbits <=? 96) then
            Some (mkLayout g (wk, wn) wcount wbits n cems plane cstart cvalues cq)
          else None
      end
  end
  end.

(** ** Values *)
Definition weights_of (W : Z) (l : layout) (i : Z) : Z :=
  if i <? l_wcount l then
    let '(k, n) := l_wq l in
    weight_value k n (seq_entry k n (bfield (rev_bits 128 W) 0 (l_wbits l)) i)
  else 0.
Definition colors_of (W : Z) (l : layout) (i : Z) : Z :=
  let '(k, n) := l_cq l in
  color_value k n (seq_entry k n (bfield W (l_cstart l) (seq_size k n (l_cvalues l))) i).

(** ** Weight infill: weight of plane [p] (of [pn]) at texel (s, t). *)
Definition infill (bw bh gw gh pn : Z) (wv : Z -> Z) (p s t : Z) : Z :=
  let ds := (1024 + bw / 2) / (bw - 1) in
  let dt := (1024 + bh / 2) / (bh - 1) in
  let gs := (ds * s * (gw - 1) + 32) / 64 in
  let gt := (dt * t * (gh - 1) + 32) / 64 in
  let js := gs / 16 in let fs := gs mod 16 in
  let jt := gt / 16 in let ft := gt mod 16 in
  let w11 := (fs * ft + 8) / 16 in
  let at_ x y := wv ((x + y * gw) * pn + p) in
  (at_ js jt * (16 - fs - ft + w11) + at_ (js + 1) jt * (fs - w11) +
   at_ js (jt + 1) * (ft - w11) + at_ (js + 1) (jt + 1) * w11 + 8) / 16.

(** ** Partition function *)
Definition hash52 (p : Z) : Z :=
  let w x := x mod 2 ^ 32 in
  let p := Z.lxor p (p / 2 ^ 15) in
  let p := w (p - p * 2 ^ 17) in
  let p := w (p + p * 2 ^ 7) in
  let p := w (p + p * 2 ^ 4) in
  let p := Z.lxor p (p / 2 ^ 5) in
  let p := w (p + p * 2 ^ 16) in
  let p := Z.lxor p (p / 2 ^ 7) in
  let p := Z.lxor p (p / 2 ^ 3) in
  let p := Z.lxor p (w (p * 2 ^ 6)) in
  Z.lxor p (p / 2 ^ 17).
Definition partition (seed parts x y : Z) (small : bool) : Z :=
  let x := if small then 2 * x else x in
  let y := if small then 2 * y else y in
  let seed := seed + (parts - 1) * 1024 in
  let rnum := hash52 seed in
  let sh_a := if bfield seed 1 1 =? 1 then 4 else 5 in
  let sh_b := if parts =? 3 then 6 else 5 in
  let '(sh1, sh2) := if bfield seed 0 1 =? 1 then (sh_a, sh_b) else (sh_b, sh_a) in
  let sq i := bfield rnum (4 * (i - 1)) 4 ^ 2 in
  let a := (sq 1 / 2 ^ sh1 * x + sq 2 / 2 ^ sh2 * y + rnum / 2 ^ 14) mod 64 in
  let b := (sq 3 / 2 ^ sh1 * x + sq 4 / 2 ^ sh2 * y + rnum / 2 ^ 10) mod 64 in
  let c := if parts <? 3 then 0 else (sq 5 / 2 ^ sh1 * x + sq 6 / 2 ^ sh2 * y + rnum / 2 ^ 6) mod 64 in
  let d := if parts <? 4 then 0 else (sq 7 / 2 ^ sh1 * x + sq 8 / 2 ^ sh2 * y + rnum / 2 ^ 2) mod 64 in
  if (b <=? a) && (c <=? a) && (d <=? a) then 0
  else if (c <=? b) && (d <=? b) then 1
  else if d <=? c then 2 else 3.

(** ** Colour end points *)
Definition quad : Type := Z * Z * Z * Z.
Definition clamp (hi x : Z) : Z := Z.max 0 (Z.min hi x).
Definition clamp4 (hi : Z) (e : quad) : quad :=
  let '(r, g, b, a) := e in (clamp hi r, clamp hi g, clamp hi b, clamp hi a).
Definition blue_contract (e : quad) : quad :=
  let '(r, g, b, a) := e in ((r + b) / 2, (g + b) / 2, b, a).
(** bit_transfer_signed(a, b): the new a and b. *)
Definition transfer_a (a : Z) : Z := let x := bfield a 1 6 in if 32 <=? x then x - 64 else x.
Definition transfer_b (a b : Z) : Z := b / 2 + 128 * bfield a 7 1.

(** HDR RGB with scale (mode 7): position of the bits x0..x6 by mode. *)
Definition onehot (mode : Z) (l : list Z) : Z := if existsb (Z.eqb mode) l then 1 else 0.
Definition hdr7 (v0 v1 v2 v3 : Z) : quad * quad :=
  let modeval := bfield v0 6 2 + 4 * bfield v1 7 1 + 8 * bfield v2 7 1 in
  let '(majcomp, mode) :=
    if modeval <? 12 then (modeval / 4, modeval mod 4)
    else if modeval <? 15 then (modeval mod 4, 4) else (0, 5) in
  let x0 := bfield v1 6 1 in let x1 := bfield v1 5 1 in
  let x2 := bfield v2 6 1 in let x3 := bfield v2 5 1 in
  let x4 := bfield v3 7 1 in let x5 := bfield v3 6 1 in let x6 := bfield v3 5 1 in
  let in_ l := onehot mode l in
  let green := bfield v1 0 5 + in_ [1; 3; 4; 5] * x1 * 2 ^ 5 + in_ [4; 5] * x0 * 2 ^ 6 in
  let blue := bfield v2 0 5 + in_ [1; 3; 4; 5] * x3 * 2 ^ 5 + in_ [4; 5] * x2 * 2 ^ 6 in
  let scale := bfield v3 0 5 + in_ [0; 2; 3; 4; 5] * x6 * 2 ^ 5 + in_ [0; 2; 3; 5] * x5 * 2 ^ 6
               + in_ [2] * x4 * 2 ^ 7 in
  let red := bfield v0 0 6
    + (in_ [0; 1; 3; 4; 5] * x4 + in_ [2] * x3) * 2 ^ 6
    + (in_ [4] * x5 + in_ [0; 1; 2; 3] * x2) * 2 ^ 7
    + (in_ [0; 2] * x1 + in_ [1; 3] * x0) * 2 ^ 8
    + (in_ [0; 2] * x0 + in_ [1] * x6) * 2 ^ 9
    + (in_ [0] * x3 + in_ [1] * x5) * 2 ^ 10 in
  let s := 2 ^ znth [1; 1; 2; 3; 4; 5] mode in
  let red := red * s in let green := green * s in let blue := blue * s in let scale := scale * s in
  let '(green, blue) := if mode =? 5 then (green, blue) else (red - green, red - blue) in
  let '(r, g, b) :=
    if majcomp =? 1 then (green, red, blue) else if majcomp =? 2 then (blue, green, red)
    else (red, green, blue) in
  let c := clamp 0xfff in
  ((c (r - scale), c (g - scale), c (b - scale), 0x780), (c r, c g, c b, 0x780)).

(** HDR RGB (mode 11) with the given alphas.  The deltas are two's complement
    numbers of the mode's number of bits; the definitions are parameterised by
    the sign extension [sx bits x] so that a deviating one can be described. *)
Definition sign_extend (n x : Z) : Z := let y := x mod 2 ^ n in if 2 ^ (n - 1) <=? y then y - 2 ^ n else y.
(** What the decoder does instead: 16 bits are extended, the 32-bit number stays positive. *)
Definition extend16 (n x : Z) : Z := sign_extend n x mod 65536.
Definition hdr11_mode (v1 v2 v3 : Z) : Z := bfield v1 7 1 + 2 * bfield v2 7 1 + 4 * bfield v3 7 1.
Definition hdr11_dbits (mode : Z) : Z := znth [7; 6; 7; 6; 5; 6; 5; 6] mode.
Definition hdr11_majcomp (v4 v5 : Z) : Z := bfield v4 7 1 + 2 * bfield v5 7 1.
Definition hdr11 (sx : Z -> Z -> Z) (v0 v1 v2 v3 v4 v5 : Z) (alpha0 alpha1 : Z) : quad * quad :=
  let majcomp := hdr11_majcomp v4 v5 in
  if majcomp =? 3 then
    ((v0 * 16, v2 * 16, bfield v4 0 7 * 32, alpha0), (v1 * 16, v3 * 16, bfield v5 0 7 * 32, alpha1))
  else
  let mode := hdr11_mode v1 v2 v3 in
  let x0 := bfield v2 6 1 in let x1 := bfield v3 6 1 in
  let x2 := bfield v4 6 1 in let x3 := bfield v5 6 1 in
  let x4 := bfield v4 5 1 in let x5 := bfield v5 5 1 in
  let in_ l := onehot mode l in
  let va := v0 + bfield v1 6 1 * 2 ^ 8
    + (in_ [2; 5; 7] * x0 + in_ [3] * x2 + in_ [4; 6] * x4) * 2 ^ 9
    + (in_ [4; 6] * x5 + in_ [5; 7] * x1) * 2 ^ 10
    + in_ [6; 7] * x2 * 2 ^ 11 in
  let vc := bfield v1 0 6 + (in_ [2] * x1 + in_ [3; 5; 6; 7] * x3) * 2 ^ 6 + in_ [5] * x2 * 2 ^ 7 in
  let vb0 := bfield v2 0 6 + in_ [0; 1; 3; 4; 6] * x0 * 2 ^ 6 + in_ [1; 4] * x2 * 2 ^ 7 in
  let vb1 := bfield v3 0 6 + in_ [0; 1; 3; 4; 6] * x1 * 2 ^ 6 + in_ [1; 4] * x3 * 2 ^ 7 in
  let vd0 := sx (hdr11_dbits mode) v4 in
  let vd1 := sx (hdr11_dbits mode) v5 in
  let s := 2 ^ (3 - mode / 2) in
  let va := va * s in let vb0 := vb0 * s in let vb1 := vb1 * s in
  let vc := vc * s in let vd0 := vd0 * s in let vd1 := vd1 * s in
  let c := clamp 0xfff in
  let rot (e : Z * Z * Z) := let '(r, g, b) := e in
    if majcomp =? 1 then (g, r, b) else if majcomp =? 2 then (b, g, r) else (r, g, b) in
  let '(r0, g0, b0) := rot (va - vc, va - vb0 - vc - vd0, va - vb1 - vc - vd1) in
  let '(r1, g1, b1) := rot (va, va - vb0, va - vb1) in
  ((c r0, c g0, c b0, c alpha0), (c r1, c g1, c b1, c alpha1)).

(** Alpha of mode 15. *)
Definition hdr_alpha (v6 v7 : Z) : Z * Z :=
  let mode := bfield v6 7 1 + 2 * bfield v7 7 1 in
  let l6 := bfield v6 0 7 in let l7 := bfield v7 0 7 in
  if mode =? 3 then (l6 * 32, l7 * 32)
  else
    let a0 := (l6 + bfield l7 (6 - mode) (mode + 1) * 2 ^ 7) * 2 ^ (4 - mode) in
    let d := sign_extend (6 - mode) l7 * 2 ^ (4 - mode) in
    (a0, clamp 0xfff (a0 + d)).

(** End points (first, second) of mode [cem] from the values [v i]. *)
Definition end_points_with (sx : Z -> Z -> Z) (cem : Z) (v : Z -> Z) : quad * quad :=
  let t a := transfer_a (v a) in
  let u a b := transfer_b (v a) (v b) in
  match cem with
  | 0 => ((v 0, v 0, v 0, 255), (v 1, v 1, v 1, 255))
  | 1 => let l0 := v 0 / 4 + 64 * bfield (v 1) 6 2 in
         let l1 := Z.min 255 (l0 + bfield (v 1) 0 6) in
         ((l0, l0, l0, 255), (l1, l1, l1, 255))
  | 2 => let '(y0, y1) := if v 0 <=? v 1 then (v 0 * 16, v 1 * 16) else (v 1 * 16 + 8, v 0 * 16 - 8) in
         ((y0, y0, y0, 0x780), (y1, y1, y1, 0x780))
  | 3 => let '(y0, d) :=
           if bfield (v 0) 7 1 =? 1 then (bfield (v 1) 5 3 * 2 ^ 9 + bfield (v 0) 0 7 * 4, bfield (v 1) 0 5 * 4)
           else (bfield (v 1) 4 4 * 2 ^ 8 + bfield (v 0) 0 7 * 2, bfield (v 1) 0 4 * 2) in
         let y1 := Z.min 0xfff (y0 + d) in
         ((y0, y0, y0, 0x780), (y1, y1, y1, 0x780))
  | 4 => ((v 0, v 0, v 0, v 2), (v 1, v 1, v 1, v 3))
  | 5 => let l := u 1 0 in let a := u 3 2 in
         (clamp4 255 (l, l, l, a), clamp4 255 (l + t 1, l + t 1, l + t 1, a + t 3))
  | 6 => ((v 0 * v 3 / 256, v 1 * v 3 / 256, v 2 * v 3 / 256, 255), (v 0, v 1, v 2, 255))
  | 7 => hdr7 (v 0) (v 1) (v 2) (v 3)
  | 8 => if v 0 + v 2 + v 4 <=? v 1 + v 3 + v 5
         then ((v 0, v 2, v 4, 255), (v 1, v 3, v 5, 255))
         else (blue_contract (v 1, v 3, v 5, 255), blue_contract (v 0, v 2, v 4, 255))
  | 9 => let base := (u 1 0, u 3 2, u 5 4, 255) in
         let off := (u 1 0 + t 1, u 3 2 + t 3, u 5 4 + t 5, 255) in
         if 0 <=? t 1 + t 3 + t 5 then (clamp4 255 base, clamp4 255 off)
         else (clamp4 255 (blue_contract off), clamp4 255 (blue_contract base))
  | 10 => ((v 0 * v 3 / 256, v 1 * v 3 / 256, v 2 * v 3 / 256, v 4), (v 0, v 1, v 2, v 5))
  | 11 => hdr11 sx (v 0) (v 1) (v 2) (v 3) (v 4) (v 5) 0x780 0x780
  | 12 => if v 0 + v 2 + v 4 <=? v 1 + v 3 + v 5
          then ((v 0, v 2, v 4, v 6), (v 1, v 3, v 5, v 7))
          else (blue_contract (v 1, v 3, v 5, v 7), blue_contract (v 0, v 2, v 4, v 6))
  | 13 => let base := (u 1 0, u 3 2, u 5 4, u 7 6) in
          let off := (u 1 0 + t 1, u 3 2 + t 3, u 5 4 + t 5, u 7 6 + t 7) in
          if 0 <=? t 1 + t 3 + t 5 then (clamp4 255 base, clamp4 255 off)
          else (clamp4 255 (blue_contract off), clamp4 255 (blue_contract base))
  | 14 => hdr11 sx (v 0) (v 1) (v 2) (v 3) (v 4) (v 5) (v 6) (v 7)
  | _ => let '(a0, a1) := hdr_alpha (v 6) (v 7) in
         hdr11 sx (v 0) (v 1) (v 2) (v 3) (v 4) (v 5) a0 a1
  end.

Definition end_points : Z -> (Z -> Z) -> quad * quad := end_points_with sign_extend.

(** ** Texels *)
Definition channel (e : quad) (c : Z) : Z := let '(r, g, b, a) := e in znth [r; g; b; a] c.
(** 8-bit result of interpolating LDR end points: 16-bit UNORM interpolation,
    then scaling by 255/65536 with rounding. *)
Definition ldr_texel (e0 e1 w : Z) : Z :=
  ((e0 * 257 * (64 - w) + e1 * 257 * w + 32) / 64 * 255 + 32768) / 65536.
(** HDR: interpolation of the logarithmic codes, the half-float it stands for,
    as a byte (255 for infinity or NaN codes). *)
Definition lns_half (c : Z) : Z :=
  let mt := c mod 2048 in
  let mt := if mt <? 512 then 3 * mt else if mt <? 1536 then 4 * mt - 512 else 5 * mt - 2048 in
  c / 2048 * 1024 + mt / 8.
Definition hdr_texel (e0 e1 w : Z) : Z :=
  let h := lns_half ((e0 * 16 * (64 - w) + e1 * 16 * w + 32) / 64) in
  if half_exp h =? 31 then 255 else half_byte h.
(** Modes with HDR colour, with HDR alpha. *)
Definition hdr_color_mode (cem : Z) : bool := existsb (Z.eqb cem) [2; 3; 7; 11; 14; 15].
Definition hdr_alpha_mode (cem : Z) : bool := existsb (Z.eqb cem) [2; 3; 7; 11; 15].

Definition astc_rgba (r g b a : Z) : Z := b + 256 * g + 65536 * r + 16777216 * a.

(** Texel number [i] (row by row) of a legal block. *)
Definition cem_start (l : layout) (p : Z) : Z := zsum (map cem_values (firstn (Z.to_nat p) (l_cems l))).
Definition legal_texel_with (sx : Z -> Z -> Z) (bw bh W : Z) (l : layout) (i : Z) : Z :=
  let g := l_grid l in
  let s := i mod bw in let t := i / bw in
  let p := if l_parts l =? 1 then 0 else partition (bfield W 13 10) (l_parts l) s t (bw * bh <? 31) in
  let cem := znth (l_cems l) p in
  let '(e0, e1) := end_points_with sx cem (fun k => colors_of W l (cem_start l p + k)) in
  let pn := if g_dual g then 2 else 1 in
  let ch c :=
    let plane := if g_dual g && (c =? l_plane l) then 1 else 0 in
    let w := infill bw bh (g_width g) (g_height g) pn (weights_of W l) plane s t in
    let hdr := if c =? 3 then hdr_alpha_mode cem else hdr_color_mode cem in
    (if hdr then hdr_texel else ldr_texel) (channel e0 c) (channel e1 c) w in
  astc_rgba (ch 0) (ch 1) (ch 2) (ch 3).
Definition legal_texel : Z -> Z -> Z -> layout -> Z -> Z := legal_texel_with sign_extend.

(** ** Any block *)
(** Void extent: one colour for the whole block, four 16-bit numbers in the
    upper half; UNORM16 (of which the upper byte is kept) or half-floats. *)
Definition void_extent (W : Z) : bool := bfield W 0 9 =? 0x1fc.
Definition void_texel (W : Z) : Z :=
  let v c := bfield W (64 + 16 * c) 16 in
  if bfield W 9 1 =? 1
  then astc_rgba (half_byte (v 0)) (half_byte (v 1)) (half_byte (v 2)) (half_byte (v 3))
  else astc_rgba (v 0 / 256) (v 1 / 256) (v 2 / 256) (v 3 / 256).
(** Magenta, for anything that is not legal. *)
Definition error_texel : Z := 0xffff00ff.
(** Void extent with a half-float colour of which a channel is minus infinity, for which the format
    leaves the result open (but does not allow the decoder to stop). *)
Definition void_neg_inf (W : Z) : bool :=
  void_extent W && (bfield W 9 1 =? 1) && existsb (fun c => bfield W (64 + 16 * c) 16 =? 0xfc00) [0; 1; 2; 3].
(** Void-extent, or reserved block mode, or a block whose fields fit. *)
Definition fitting (W : Z) : Prop :=
  void_extent W = true \/ block_mode W = None \/ block_layout W <> None.
(** ... and minus infinity does not occur. *)
Definition well_formed (W : Z) : Prop := void_neg_inf W = false /\ fitting W.
Definition astc_texel_with (sx : Z -> Z -> Z) (bw bh W i : Z) : Z :=
  if void_extent W then void_texel W
  else match block_layout W with
  | Some l => legal_texel_with sx bw bh W l i
  | None => error_texel
  end.
Definition astc_texel : Z -> Z -> Z -> Z -> Z := astc_texel_with sign_extend.

(** The end point values [v] of mode [cem] use no negative HDR delta (no HDR
    RGB mode, or its direct encoding, or both sign bits clear). *)
Definition no_negative_delta (cem : Z) (v : Z -> Z) : Prop :=
  In cem [11; 14; 15] ->
  hdr11_majcomp (v 4) (v 5) = 3 \/
  let d := hdr11_dbits (hdr11_mode (v 1) (v 2) (v 3)) in
  bfield (v 4) (d - 1) 1 = 0 /\ bfield (v 5) (d - 1) 1 = 0.
(** ... in none of the partitions of the block. *)
Definition plain_deltas (W : Z) : Prop :=
  forall l p, block_layout W = Some l -> 0 <= p < l_parts l ->
    no_negative_delta (znth (l_cems l) p) (fun k => colors_of W l (cem_start l p + k)).

(** The weights each range can express, in order (tables of the specification;
    the radix part and number of bits of the range, then the levels). *)
Definition weight_levels : list (radix * Z * list Z) :=
  [(Bits, 1, [0; 64]);
   (Trits, 0, [0; 32; 64]);
   (Bits, 2, [0; 21; 43; 64]);
   (Quints, 0, [0; 16; 32; 48; 64]);
   (Trits, 1, [0; 12; 25; 39; 52; 64]);
   (Bits, 3, [0; 9; 18; 27; 37; 46; 55; 64]);
   (Quints, 1, [0; 7; 14; 21; 28; 36; 43; 50; 57; 64]);
   (Trits, 2, [0; 5; 11; 17; 23; 28; 36; 41; 47; 53; 59; 64]);
   (Bits, 4, [0; 4; 8; 12; 17; 21; 25; 29; 35; 39; 43; 47; 52; 56; 60; 64]);
   (Quints, 2, [0; 3; 6; 9; 13; 16; 19; 23; 26; 29; 35; 38; 41; 45; 48; 51; 55; 58; 61; 64]);
   (Trits, 3, [0; 2; 5; 8; 11; 13; 16; 19; 22; 24; 27; 30; 34; 37; 40; 42; 45; 48; 51; 53; 56; 59; 62; 64]);
   (Bits, 5, [0; 2; 4; 6; 8; 10; 12; 14; 16; 18; 20; 22; 24; 26; 28; 30; 34; 36; 38; 40; 42; 44; 46; 48; 50; 52; 54; 56; 58; 60; 62; 64])].
Definition radix_size (k : radix) : Z := match k with Bits => 1 | Trits => 3 | Quints => 5 end.
