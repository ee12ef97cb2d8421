(** * ASTC blocks as the program reads them, legal or not
    The program takes any block whose mode is not reserved as if it were legal.
    This file says, in terms of the fields of the format, which blocks it
    decodes that way and what the texels are. *)
From Verif Require Import Base BaseLemmas SpecF16 SpecAstc.

(** The colour ranges tried, from the largest down; two more than the format
    has, and the largest one again when none fits. *)
Definition code_quants : list (radix * Z) := color_quants ++ [(Bits, 2); (Bits, 1)].
Definition code_quant (n room : Z) : radix * Z :=
  match find (fun '(k, b) => seq_size k b n <=? room) code_quants with
  | Some q => q
  | None => (Bits, 8)
  end.

(** Bits of colour end point modes stored below the weights. *)
Definition mode_bits (W : Z) : Z :=
  let n := bfield W 11 2 + 1 in
  if (n =? 1) || (bfield W 23 2 =? 0) then 0 else 3 * n - 4.

(** The layout of any block with a mode: as in the format, but with the colour
    range above and no limits on the weights. *)
Definition code_layout (W : Z) : option layout :=
  match block_mode W with
  | None => None
  | Some g =>
  match weight_quant (g_range g) with
  | None => None
  | Some (wk, wn) =>
      let wcount := g_width g * g_height g * (if g_dual g then 2 else 1) in
      let wbits := seq_size wk wn wcount in
      let n := bfield W 11 2 + 1 in
      let base := bfield W 23 2 in
      let extra := mode_bits W in
      let E := bfield W 25 4 + 16 * bfield W (128 - wbits - extra) extra in
      let cems :=
        if n =? 1 then [bfield W 13 4]
        else if base =? 0 then repeat (bfield W 25 4) (Z.to_nat n)
        else map (fun i => 4 * (base - 1 + bfield E i 1) + bfield E (n + 2 * i) 2) (zrange 0 n) in
      let plane := if g_dual g then bfield W (128 - wbits - extra - 2) 2 else 0 in
      let cstart := if n =? 1 then 17 else 29 in
      let room := 128 - wbits - extra - (if g_dual g then 2 else 0) - cstart in
      let cvalues := zsum (map cem_values cems) in
      Some (mkLayout g (wk, wn) wcount wbits n cems plane cstart cvalues (code_quant cvalues room))
  end
  end.

(** Bits left for the colours. *)
Definition layout_room (W : Z) (l : layout) : Z :=
  128 - l_wbits l - mode_bits W - (if g_dual (l_grid l) then 2 else 0) - l_cstart l.
(** The first bit behind the colours. *)
Definition color_end (l : layout) : Z := l_cstart l + seq_size (fst (l_cq l)) (snd (l_cq l)) (l_cvalues l).

(** The blocks that are decoded from a buffer of [len] bytes: the colours lie
    in the buffer, and some room was left for them ... *)
Definition code_accepts (m : build) (W len : Z) (l : layout) : bool :=
  let g := l_grid l in
  (color_end l <=? 8 * len) &&
  ((0 <=? layout_room W l) ||
   match m with
   | Checked => false
   | Wrapping =>
       (* ... or, without overflow checks, the fields below the weights have
          non-negative positions (the program reads one bit too many with three
          partitions), the weights are not plain bits running below bit 0, and
          the infill of two planes stays within the 128 stored weights. *)
       ((mode_bits W =? 0) || (0 <=? (if l_parts l =? 3 then 122 else 128 - mode_bits W) - l_wbits l)) &&
       (negb (g_dual g) || (0 <=? 128 - l_wbits l - mode_bits W - 2)) &&
       (match fst (l_wq l) with Bits => l_wbits l <=? 128 | _ => true end) &&
       (negb (g_dual g) || (g_width g * (g_height g + 1) <=? 63))
   end).

(** The weights: packed blocks of bits from the top of the block downwards.
    Below bit 0 the lower half of the block is read, shifted by the position
    modulo 64. *)
Definition weight_word (W : Z) (l : layout) (i : Z) : Z :=
  let '(k, n) := l_wq l in
  let size := Z.min (block_size k n) (l_wbits l - block_size k n * i) in
  let q := 128 - block_size k n * i - size in
  rev_bits (Z.to_nat size)
    (if q <? 0 then (W * 2 ^ ((- q) mod 64)) mod 2 ^ size else bfield W q size).
Definition code_weights (W : Z) (l : layout) (i : Z) : Z :=
  if i <? l_wcount l then
    let '(k, n) := l_wq l in
    let D := weight_word W l (i / per_block k) in
    let j := i mod per_block k in
    weight_value k n (bfield D (j * n + before k j) n, znth (digits k (packed k n D)) j)
  else 0.

(** Texel [i] of the block, colours taken from the word [V] of the whole
    buffer (the block and those behind it). *)
Definition code_texel (bw bh W V : Z) (l : layout) (i : Z) : Z :=
  let g := l_grid l in
  let s := i mod bw in let t := i / bw in
  let p := if l_parts l =? 1 then 0 else partition (bfield W 13 10) (l_parts l) s t (bw * bh <? 31) in
  let cem := znth (l_cems l) p in
  let '(e0, e1) := end_points_with extend16 cem (fun k => colors_of V l (cem_start l p + k)) in
  let pn := if g_dual g then 2 else 1 in
  let ch c :=
    let plane := if g_dual g && (c =? l_plane l) then 1 else 0 in
    let w := infill bw bh (g_width g) (g_height g) pn (code_weights W l) plane s t in
    let hdr := if c =? 3 then hdr_alpha_mode cem else hdr_color_mode cem in
    (if hdr then hdr_texel else ldr_texel) (channel e0 c) (channel e1 c) w in
  astc_rgba (ch 0) (ch 1) (ch 2) (ch 3).

(** Any block. *)
(** Void-extent blocks with minus infinity: a panic with overflow checks, the
    byte 255 without. *)
Definition void_decodes (m : build) (W : Z) : bool :=
  match m with Checked => negb (void_neg_inf W) | Wrapping => true end.
Definition code_half_byte (h : Z) : Z := if h =? 0xfc00 then 255 else half_byte h.
Definition code_void_texel (W : Z) : Z :=
  let v c := bfield W (64 + 16 * c) 16 in
  if bfield W 9 1 =? 1
  then astc_rgba (code_half_byte (v 0)) (code_half_byte (v 1)) (code_half_byte (v 2)) (code_half_byte (v 3))
  else astc_rgba (v 0 / 256) (v 1 / 256) (v 2 / 256) (v 3 / 256).
Definition code_decodes (m : build) (W len : Z) : bool :=
  if void_extent W then void_decodes m W else
  match code_layout W with
  | None => true
  | Some l => code_accepts m W len l
  end.
Definition code_block_texel (bw bh W V i : Z) : Z :=
  if void_extent W then code_void_texel W
  else match code_layout W with
  | Some l => code_texel bw bh W V l i
  | None => error_texel
  end.
