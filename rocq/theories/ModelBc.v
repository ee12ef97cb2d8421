(** * Model of src/bcn/bc1.rs .. bc5.rs and src/atc.rs *)
From Verif Require Import Base ModelColor.

Section WithBuild.
Context (m : build).

(** src/bcn/bc1.rs lines 22-33: `((x * 2 + y) / 3) as u8`, with x, y: u16. *)
Definition mix21 (x y : Z) : res Z :=
  let* p := ua m 16 (x * 2) in
  let* s := ua m 16 (p + y) in
  Ok (u8 (s / 3)).

(** src/bcn/bc1.rs lines 28-33: `((x + y * 2) / 3) as u8`. *)
Definition mix12 (x y : Z) : res Z :=
  let* p := ua m 16 (y * 2) in
  let* s := ua m 16 (x + p) in
  Ok (u8 (s / 3)).

(** src/bcn/bc1.rs lines 35-40: `((x + y) / 2) as u8`. *)
Definition mix11 (x y : Z) : res Z :=
  let* s := ua m 16 (x + y) in
  Ok (u8 (s / 2)).

(** src/bcn/bc1.rs lines 3-46: `_decode_bc1_block`. *)
Definition decode_bc1_block_gen (data outbuf : list Z) (use_alpha : bool) : res (list Z) :=
  let* d0 := idx data 0 in
  let* d1 := idx data 1 in
  let* d2 := idx data 2 in
  let* d3 := idx data 3 in
  let q0 := le_bytes [d0; d1] in
  let q1 := le_bytes [d2; d3] in
  let '(r0, g0, b0) := rgb565_le q0 in
  let '(r1, g1, b1) := rgb565_le q1 in
  let c0 := color r0 g0 b0 255 in
  let c1 := color r1 g1 b1 255 in
  let* (c2, c3) :=
    if q1 <? q0 then
      let* r2 := mix21 r0 r1 in
      let* g2 := mix21 g0 g1 in
      let* b2 := mix21 b0 b1 in
      let* r3 := mix12 r0 r1 in
      let* g3 := mix12 g0 g1 in
      let* b3 := mix12 b0 b1 in
      Ok (color r2 g2 b2 255, color r3 g3 b3 255)
    else
      let* r2 := mix11 r0 r1 in
      let* g2 := mix11 g0 g1 in
      let* b2 := mix11 b0 b1 in
      Ok (color r2 g2 b2 255, color 0 0 0 (if use_alpha then 0 else 255)) in
  let c := [c0; c1; c2; c3] in
  let* s := slice data 4 8 in
  let* (outbuf, _) :=
    for_range 0 16 (fun i '(outbuf, d) =>
      let* v := idx c (Z.land d 3) in
      let* outbuf := upd outbuf i v in
      Ok (outbuf, Z.shiftr d 2)) (outbuf, le_bytes s) in
  Ok outbuf.

(** src/bcn/bc1.rs lines 48-51: `decode_bc1_block`. *)
Definition decode_bc1_block (data outbuf : list Z) := decode_bc1_block_gen data outbuf false.
(** src/bcn/bc1.rs lines 53-56: `decode_bc1a_block`. *)
Definition decode_bc1a_block (data outbuf : list Z) := decode_bc1_block_gen data outbuf true.

(** src/bcn/bc2.rs lines 3-17: `decode_bc2_alpha`.  `data[byte_idx] >> bit_off`
    and `av << 4` are u8 operations, the channel operations are u32. *)
Definition decode_bc2_alpha (data outbuf : list Z) (channel : Z) : res (list Z) :=
  let* channel_shift := ua m 64 (channel * 8) in
  let* sh := ushl m 32 0xFF channel_shift in
  let channel_mask := Z.lxor 0xFFFFFFFF sh in
  let* _ := slice outbuf 0 16 in
  let* (outbuf, _) :=
    for_range 0 16 (fun i '(outbuf, u) =>
      let byte_idx := Z.shiftr i 1 in
      let bit_off := Z.shiftl (Z.land i 1) 2 in
      let* b := idx data byte_idx in
      let* av := ushr m 8 b bit_off in
      let av := Z.land av 0xF in
      let av := Z.lor (u8 (Z.shiftl av 4)) av in
      let* p := idx outbuf i in
      let* a := ushl m 32 av channel_shift in
      let* outbuf := upd outbuf i (Z.lor (Z.land p channel_mask) a) in
      Ok (outbuf, u)) (outbuf, tt) in
  Ok outbuf.

(** src/bcn/bc2.rs lines 19-23: `decode_bc2_block`. *)
Definition decode_bc2_block (data outbuf : list Z) : res (list Z) :=
  let* d8 := slice_from data 8 in
  let* outbuf := decode_bc1_block d8 outbuf in
  decode_bc2_alpha data outbuf 3.

(** src/bcn/bc3.rs lines 7-20: `(a[0] * p + a[1] * q) / n` on u16. *)
Definition wmix (a0 p a1 q n : Z) : res Z :=
  let* x := ua m 16 (a0 * p) in
  let* y := ua m 16 (a1 * q) in
  let* s := ua m 16 (x + y) in
  Ok (s / n).

(** src/bcn/bc3.rs lines 6-21: the table `a` of 8 interpolated values. *)
Definition bc3_table (a0 a1 : Z) : res (list Z) :=
  if a1 <? a0 then
    let* a2 := wmix a0 6 a1 1 7 in
    let* a3 := wmix a0 5 a1 2 7 in
    let* a4 := wmix a0 4 a1 3 7 in
    let* a5 := wmix a0 3 a1 4 7 in
    let* a6 := wmix a0 2 a1 5 7 in
    let* a7 := wmix a0 1 a1 6 7 in
    Ok [a0; a1; a2; a3; a4; a5; a6; a7]
  else
    let* a2 := wmix a0 4 a1 1 5 in
    let* a3 := wmix a0 3 a1 2 5 in
    let* a4 := wmix a0 2 a1 3 5 in
    let* a5 := wmix a0 1 a1 4 5 in
    Ok [a0; a1; a2; a3; a4; a5; 0; 255].

(** src/bcn/bc3.rs lines 3-31: `decode_bc3_alpha`.  Note that it iterates over
    the whole of [outbuf]. *)
Definition decode_bc3_alpha (data outbuf : list Z) (channel : Z) : res (list Z) :=
  let* a0 := idx data 0 in
  let* a1 := idx data 1 in
  let* a := bc3_table a0 a1 in
  let* s := slice data 0 8 in
  let d := Z.shiftr (le_bytes s) 16 in
  let* channel_shift := ua m 64 (channel * 8) in
  let* sh := ushl m 32 0xFF channel_shift in
  let channel_mask := Z.lxor 0xFFFFFFFF sh in
  let* (outbuf, _) :=
    for_range 0 (zlen outbuf) (fun i '(outbuf, d) =>
      let* p := idx outbuf i in
      let* v := idx a (Z.land d 7) in
      let* v := ushl m 32 v channel_shift in
      let* outbuf := upd outbuf i (Z.lor (Z.land p channel_mask) v) in
      Ok (outbuf, Z.shiftr d 3)) (outbuf, d) in
  Ok outbuf.

(** src/bcn/bc3.rs lines 33-37: `decode_bc3_block`. *)
Definition decode_bc3_block (data outbuf : list Z) : res (list Z) :=
  let* d8 := slice_from data 8 in
  let* outbuf := decode_bc1_block d8 outbuf in
  decode_bc3_alpha data outbuf 3.

(** src/bcn/bc4.rs lines 3-6: `decode_bc4_block`. *)
Definition decode_bc4_block (data outbuf : list Z) : res (list Z) :=
  decode_bc3_alpha data outbuf 2.

(** src/bcn/bc5.rs lines 3-7: `decode_bc5_block`. *)
Definition decode_bc5_block (data outbuf : list Z) : res (list Z) :=
  let* outbuf := decode_bc3_alpha data outbuf 2 in
  let* d8 := slice_from data 8 in
  decode_bc3_alpha d8 outbuf 1.

(** src/atc.rs lines 8-12: `expand_quantized` on u8. *)
Definition atc_expand (v bits : Z) : res Z :=
  let* s := ua m 8 (8 - bits) in
  let* v := ushl m 8 v s in
  let* w := ushr m 8 v bits in
  Ok (Z.lor v w).

(** src/atc.rs lines 29-32: `interop_colors`. *)
Definition atc_interop (c0 c1 : Z) : res Z :=
  let* x := ua m 16 (5 * c0) in
  let* y := ua m 16 (3 * c1) in
  let* s := ua m 16 (x + y) in
  Ok (u8 (s / 8)).

(** src/atc.rs lines 61-72: `max(0, (x.overflowing_sub(y).0 / 4) as u8)` on u16. *)
Definition atc_dark (x y : Z) : Z := Z.max 0 (u8 (u16 (x - y) / 4)).

(** src/atc.rs lines 14-80: `decode_atc_rgb4_block`.  The array [colors] is
    written as the list of its final values. *)
Definition decode_atc_rgb4_block (data outbuf : list Z) : res (list Z) :=
  let* d0 := idx data 0 in
  let* d1 := idx data 1 in
  let* d2 := idx data 2 in
  let* d3 := idx data 3 in
  let c0 := le_bytes [d0; d1] in
  let c1 := le_bytes [d2; d3] in
  let* x0 := atc_expand (u8 (Z.land (Z.shiftr c0 0) 0x1f)) 5 in
  let* x1 := atc_expand (u8 (Z.land (Z.shiftr c0 5) 0x1f)) 5 in
  let* x2 := atc_expand (u8 (Z.land (Z.shiftr c0 10) 0x1f)) 5 in
  let* y0 := atc_expand (u8 (Z.land (Z.shiftr c1 0) 0x1f)) 5 in
  let* y1 := atc_expand (u8 (Z.land (Z.shiftr c1 5) 0x3f)) 6 in
  let* y2 := atc_expand (u8 (Z.land (Z.shiftr c1 11) 0x1f)) 5 in
  let* colors :=
    if 0 =? Z.land c0 0x8000 then
      let* i4 := atc_interop x0 y0 in
      let* i5 := atc_interop x1 y1 in
      let* i6 := atc_interop x2 y2 in
      let* i8 := atc_interop y0 x0 in
      let* i9 := atc_interop y1 x1 in
      let* i10 := atc_interop y2 x2 in
      Ok [x0; x1; x2; 0; i4; i5; i6; 0; i8; i9; i10; 0; y0; y1; y2; 0]
    else
      Ok [0; 0; 0; 0; atc_dark x0 y0; atc_dark x1 y1; atc_dark x2 y2; 0;
          x0; x1; x2; 0; y0; y1; y2; 0] in
  let* (outbuf, _) :=
    for_range 0 16 (fun i '(outbuf, next) =>
      let* b := idx data (Z.shiftr next 3) in
      let* s := ushr m 8 b (Z.land next 7) in
      let* k := ua m 8 (Z.land s 3 * 4) in
      let* cr := idx colors (k + 2) in
      let* cg := idx colors (k + 1) in
      let* cb := idx colors (k + 0) in
      let* outbuf := upd outbuf i (color cr cg cb 255) in
      Ok (outbuf, next + 2)) (outbuf, 32) in
  Ok outbuf.

(** src/atc.rs lines 82-86: `decode_atc_rgba8_block`. *)
Definition decode_atc_rgba8_block (data outbuf : list Z) : res (list Z) :=
  let* d8 := slice_from data 8 in
  let* outbuf := decode_atc_rgb4_block d8 outbuf in
  decode_bc3_alpha data outbuf 3.

(** src/bcn.rs lines 21-26, src/atc.rs lines 89-90: instances of `block_decoder!`. *)
Definition decode_bc1 := block_decoder m 4 4 8 decode_bc1_block.
(** src/bcn.rs:22 *)
Definition decode_bc1a := block_decoder m 4 4 8 decode_bc1a_block.
(** src/bcn.rs:23 *)
Definition decode_bc2 := block_decoder m 4 4 16 decode_bc2_block.
(** src/bcn.rs:24 *)
Definition decode_bc3 := block_decoder m 4 4 16 decode_bc3_block.
(** src/bcn.rs:25 *)
Definition decode_bc4 := block_decoder m 4 4 8 decode_bc4_block.
(** src/bcn.rs:26 *)
Definition decode_bc5 := block_decoder m 4 4 16 decode_bc5_block.
(** src/atc.rs:89 *)
Definition decode_atc_rgb4 := block_decoder m 4 4 8 decode_atc_rgb4_block.
(** src/atc.rs:90 *)
Definition decode_atc_rgba8 := block_decoder m 4 4 16 decode_atc_rgba8_block.

End WithBuild.
