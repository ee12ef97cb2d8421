(** * BC7 blocks, after the format specification
    (Khronos Data Format Specification, section on BPTC / BC7).  Independent of
    the model of the decoder. *)
From Verif Require Import Base BaseLemmas SpecBits SpecBptc SpecBc.

(** Parameters of the modes 0..7: number of subsets, bits of partition,
    rotation, index selection, colour and alpha end points; one p-bit per end
    point, one p-bit per subset; bits of primary and secondary indices. *)
Definition mode_table : list (list Z) :=
  [[3; 4; 0; 0; 4; 0; 1; 0; 3; 0];
   [2; 6; 0; 0; 6; 0; 0; 1; 3; 0];
   [3; 6; 0; 0; 5; 0; 0; 0; 2; 0];
   [2; 6; 0; 0; 7; 0; 1; 0; 2; 0];
   [1; 0; 2; 1; 5; 6; 0; 0; 2; 3];
   [1; 0; 2; 0; 7; 8; 0; 0; 2; 2];
   [1; 0; 0; 0; 7; 7; 1; 0; 4; 0];
   [2; 6; 0; 0; 5; 5; 1; 0; 2; 0]].
Definition mcol (k mode : Z) : Z := znth (nth (Z.to_nat mode) mode_table []) k.
Definition NS := mcol 0.
Definition PB := mcol 1.
Definition RB := mcol 2.
Definition ISB := mcol 3.
Definition CB := mcol 4.
Definition AB := mcol 5.
Definition EPB := mcol 6.
Definition SPB := mcol 7.
Definition IB := mcol 8.
Definition IB2 := mcol 9.

(** The mode is the number of zero bits before the first one bit; 8 (reserved)
    if the first eight bits are zero. *)
Definition bc7_mode (b : list Z) : Z :=
  match filter (fun i => bits b i 1 =? 1) (zrange 0 8) with
  | i :: _ => i
  | [] => 8
  end.

(** Layout: mode, partition, rotation, index selection, end points channel by
    channel, p-bits, primary indices, secondary indices. *)
Definition o_part (mode : Z) : Z := mode + 1.
Definition o_rot (mode : Z) : Z := o_part mode + PB mode.
Definition o_isel (mode : Z) : Z := o_rot mode + RB mode.
Definition o_color (mode : Z) : Z := o_isel mode + ISB mode.
Definition o_alpha (mode : Z) : Z := o_color mode + 3 * (2 * NS mode) * CB mode.
Definition o_pbit (mode : Z) : Z := o_alpha mode + 2 * NS mode * AB mode.
Definition o_index (mode : Z) : Z := o_pbit mode + 2 * NS mode * EPB mode + NS mode * SPB mode.
Definition o_index2 (mode : Z) : Z := o_index mode + 16 * IB mode - NS mode.

(** Replicate the top bits of an [n]-bit value to fill 8 bits (4 <= n <= 8). *)
Definition expand8 (n v : Z) : Z := v * 2 ^ (8 - n) + v / 2 ^ (2 * n - 8).

(** End point [e] (2 * subset, 2 * subset + 1) of a channel stored with [nbits]
    bits per end point from [o]: append the p-bit if the mode has any, expand. *)
Definition endpoint (b : list Z) (mode o nbits e : Z) : Z :=
  let v := bits b (o + e * nbits) nbits in
  if EPB mode =? 1 then expand8 (nbits + 1) (2 * v + bits b (o_pbit mode + e) 1)
  else if SPB mode =? 1 then expand8 (nbits + 1) (2 * v + bits b (o_pbit mode + e / 2) 1)
  else expand8 nbits v.
(** Channel 0 red, 1 green, 2 blue, 3 alpha (opaque if not stored). *)
Definition channel_endpoint (b : list Z) (mode c e : Z) : Z :=
  if c =? 3 then
    if AB mode =? 0 then 255 else endpoint b mode (o_alpha mode) (AB mode) e
  else endpoint b mode (o_color mode + c * (2 * NS mode * CB mode)) (CB mode) e.

(** Subset of texel [t] and anchor texel of subset [s]. *)
Definition subset (mode part t : Z) : Z :=
  if NS mode =? 1 then 0
  else if NS mode =? 2 then znth (nth (Z.to_nat part) partition2 []) t
  else znth (nth (Z.to_nat part) partition3 []) t.
Definition anchor (mode part s : Z) : Z :=
  if s =? 0 then 0
  else if NS mode =? 2 then znth anchor2 part
  else if s =? 1 then znth anchor3a part
  else znth anchor3b part.
Definition is_anchor (mode part t : Z) : bool := t =? anchor mode part (subset mode part t).
Definition anchors_below (mode part t : Z) : Z :=
  zlen (filter (is_anchor mode part) (zrange 0 t)).

(** Indices: [n] bits per texel in order, one bit less for the anchors (the top
    bit, not stored, is 0). *)
Definition texel_index (b : list Z) (mode part o n t : Z) : Z :=
  bits b (o + n * t - anchors_below mode part t) (n - if is_anchor mode part t then 1 else 0).

(** The texels. *)
Definition bc7_part (b : list Z) : Z := bits b (o_part (bc7_mode b)) (PB (bc7_mode b)).
Definition bc7_rot (b : list Z) : Z := bits b (o_rot (bc7_mode b)) (RB (bc7_mode b)).
Definition bc7_isel (b : list Z) : Z := bits b (o_isel (bc7_mode b)) (ISB (bc7_mode b)).

(** Weights of texel [t]: primary and secondary index; modes without secondary
    indices use the primary one for alpha as well; the index selection bit swaps. *)
Definition weight1 (b : list Z) (t : Z) : Z :=
  let mode := bc7_mode b in
  znth (weights (IB mode)) (texel_index b mode (bc7_part b) (o_index mode) (IB mode) t).
Definition weight2 (b : list Z) (t : Z) : Z :=
  let mode := bc7_mode b in
  if IB2 mode =? 0 then weight1 b t
  else znth (weights (IB2 mode)) (texel_index b mode (bc7_part b) (o_index2 mode) (IB2 mode) t).
Definition color_weight (b : list Z) (t : Z) : Z := if bc7_isel b =? 1 then weight2 b t else weight1 b t.
Definition alpha_weight (b : list Z) (t : Z) : Z := if bc7_isel b =? 1 then weight1 b t else weight2 b t.

(** Interpolated channel before the rotation. *)
Definition bc7_channel (b : list Z) (c t : Z) : Z :=
  let mode := bc7_mode b in
  let s := subset mode (bc7_part b) t in
  lerp64 (channel_endpoint b mode c (2 * s)) (channel_endpoint b mode c (2 * s + 1))
    (if c =? 3 then alpha_weight b t else color_weight b t).

(** Rotation 1, 2, 3 exchanges alpha with red, green, blue. *)
Definition bc7_texel (b : list Z) (t : Z) : Z :=
  if bc7_mode b =? 8 then 0 else
  let rot := bc7_rot b in
  let ch c := bc7_channel b (if rot =? 0 then c else if c =? 3 then rot - 1 else if c =? rot - 1 then 3 else c) t in
  rgba (ch 0) (ch 1) (ch 2) (ch 3).
