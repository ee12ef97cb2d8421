(** * Model of src/etc/{consts,etc1,etc2,eac}.rs and src/etc.rs *)
From Verif Require Import Base ModelColor.

(** src/etc/consts.rs lines 1-2 *)
Definition WRITE_ORDER_TABLE : list Z := [0; 4; 8; 12; 1; 5; 9; 13; 2; 6; 10; 14; 3; 7; 11; 15].
(** src/etc/consts.rs lines 3-4 *)
Definition WRITE_ORDER_TABLE_REV : list Z := [15; 11; 7; 3; 14; 10; 6; 2; 13; 9; 5; 1; 12; 8; 4; 0].
(** src/etc/consts.rs lines 5-14 *)
Definition ETC1_MODIFIER_TABLE : list (list Z) :=
  [[2; 8]; [5; 17]; [9; 29]; [13; 42]; [18; 60]; [24; 80]; [33; 106]; [47; 183]].
(** src/etc/consts.rs lines 15-36 *)
Definition ETC2A_MODIFIER_TABLE : list (list (list Z)) :=
  [[[0; 8]; [0; 17]; [0; 29]; [0; 42]; [0; 60]; [0; 80]; [0; 106]; [0; 183]];
   [[2; 8]; [5; 17]; [9; 29]; [13; 42]; [18; 60]; [24; 80]; [33; 106]; [47; 183]]].
(** src/etc/consts.rs lines 37-40 *)
Definition ETC1_SUBBLOCK_TABLE : list (list Z) :=
  [[0; 0; 0; 0; 0; 0; 0; 0; 1; 1; 1; 1; 1; 1; 1; 1];
   [0; 0; 1; 1; 0; 0; 1; 1; 0; 0; 1; 1; 0; 0; 1; 1]].
(** src/etc/consts.rs line 41 *)
Definition ETC2_DISTANCE_TABLE : list Z := [3; 6; 11; 16; 23; 32; 41; 64].
(** src/etc/consts.rs lines 42-59 *)
Definition ETC2_ALPHA_MOD_TABLE : list (list Z) :=
  [[-3; -6; -9; -15; 2; 5; 8; 14];
   [-3; -7; -10; -13; 2; 6; 9; 12];
   [-2; -5; -8; -13; 1; 4; 7; 12];
   [-2; -4; -6; -13; 1; 3; 5; 12];
   [-3; -6; -8; -12; 2; 5; 7; 11];
   [-3; -7; -9; -11; 2; 6; 8; 10];
   [-4; -7; -8; -11; 3; 6; 7; 10];
   [-3; -5; -8; -11; 2; 4; 7; 10];
   [-2; -6; -8; -10; 1; 5; 7; 9];
   [-2; -5; -8; -10; 1; 4; 7; 9];
   [-2; -4; -8; -10; 1; 3; 7; 9];
   [-2; -5; -7; -10; 1; 4; 6; 9];
   [-3; -4; -7; -10; 2; 3; 6; 9];
   [-1; -2; -3; -10; 0; 1; 2; 9];
   [-4; -6; -8; -9; 3; 5; 7; 8];
   [-3; -5; -7; -9; 2; 4; 6; 8]].

(** src/etc/etc1.rs lines 5-13: `clamp` *)
Definition clamp (n : Z) : Z := u8 (if n <? 0 then 0 else if 255 <? n then 255 else n).

(** src/etc/etc1.rs:56-78, src/etc/etc2.rs:30-92, :145-254:
    `x << s` for u8 [x] and a literal amount below 8. *)
Definition shl8 (x s : Z) : Z := u8 (Z.shiftl x s).

Section WithBuild.
Context (m : build).

(** src/etc/etc1.rs lines 15-33: `applicate_color` and `applicate_color_alpha`
    ([a] is the alpha); `[u8; 3]` is a triple. *)
Definition applicate (c : Z * Z * Z) (md a : Z) : res Z :=
  let '(c0, c1, c2) := c in
  let* r := ia m 32 (c0 + md) in
  let* g := ia m 32 (c1 + md) in
  let* b := ia m 32 (c2 + md) in
  Ok (color (clamp r) (clamp g) (clamp b) a).
(** src/etc/etc1.rs lines 15-23 *)
Definition applicate_color (c : Z * Z * Z) (md : Z) : res Z := applicate c md 255.
(** src/etc/etc1.rs lines 25-33 *)
Definition applicate_color_alpha (c : Z * Z * Z) (md : Z) (transparent : bool) : res Z :=
  applicate c md (if transparent then 0 else 255).
(** src/etc/etc1.rs lines 35-38 *)
Definition applicate_color_raw (c : Z * Z * Z) : Z := let '(c0, c1, c2) := c in color c0 c1 c2 255.

(** src/etc/etc1.rs lines 47-64: second base colour of the differential mode,
    `c0.overflowing_add(d << 3 & 0x18).0.overflowing_sub(d << 3 & 0x20).0`. *)
Definition etc1_second (d : Z) : Z :=
  let c0 := Z.land d 0xf8 in
  u8 (u8 (c0 + Z.land (shl8 d 3) 0x18) - Z.land (shl8 d 3) 0x20).
(** src/etc/etc1.rs lines 65-70: `c |= c >> 5`. *)
Definition or5 (c : Z) : Z := Z.lor c (Z.shiftr c 5).
(** src/etc/etc1.rs lines 73-78: the two 4-bit colours. *)
Definition hi4 (d : Z) : Z := Z.lor (Z.land d 0xf0) (Z.shiftr d 4).
(** src/etc/etc1.rs:73-78 *)
Definition lo4 (d : Z) : Z := Z.lor (Z.land d 0x0f) (shl8 d 4).

(** src/etc/etc1.rs lines 84-90, src/etc/etc2.rs lines 134-141 and 153-159:
    the loop writing the texels of the individual and differential modes. *)
Definition etc_sub_loop (c0 c1 : Z * Z * Z) (code0 code1 : Z) (table outbuf : list Z) (j k : Z)
    : res (list Z) :=
  let* (outbuf, _) :=
    for_range 0 16 (fun i '(outbuf, (j, k)) =>
      let* s := idx table i in
      let* code := idx [code0; code1] s in
      let* row := idx ETC1_MODIFIER_TABLE code in
      let* md := idx row (Z.land j 1) in
      let* c := idx [c0; c1] s in
      let* md := if 0 <? Z.land k 1 then ia m 16 (- md) else Ok md in
      let* v := applicate_color c md in
      let* w := idx WRITE_ORDER_TABLE i in
      let* outbuf := upd outbuf w v in
      Ok (outbuf, (Z.shiftr j 1, Z.shiftr k 1))) (outbuf, (j, k)) in
  Ok outbuf.

(** src/etc/etc1.rs lines 40-91: `decode_etc1_block` *)
Definition decode_etc1_block (data outbuf : list Z) : res (list Z) :=
  let* d3 := idx data 3 in
  let code0 := Z.shiftr d3 5 in
  let code1 := Z.land (Z.shiftr d3 2) 7 in
  let* table := idx ETC1_SUBBLOCK_TABLE (Z.land d3 1) in
  let* d0 := idx data 0 in
  let* d1 := idx data 1 in
  let* d2 := idx data 2 in
  let '(c0, c1) :=
    if 0 <? Z.land d3 2 then
      ((or5 (Z.land d0 0xf8), or5 (Z.land d1 0xf8), or5 (Z.land d2 0xf8)),
       (or5 (etc1_second d0), or5 (etc1_second d1), or5 (etc1_second d2)))
    else ((hi4 d0, hi4 d1, hi4 d2), (lo4 d0, lo4 d1, lo4 d2)) in
  let* d6 := idx data 6 in
  let* d7 := idx data 7 in
  let* d4 := idx data 4 in
  let* d5 := idx data 5 in
  etc_sub_loop c0 c1 code0 code1 table outbuf (be_bytes [d6; d7]) (be_bytes [d4; d5]).

(** src/etc/etc2.rs lines 16-21: signed 3-bit difference times 8. *)
Definition etc2_delta (d : Z) : res Z :=
  ia m 32 (Z.land (Z.shiftl d 3) 0x18 - Z.land (Z.shiftl d 3) 0x20).

(** src/etc/etc2.rs lines 24-32 and 180-186: colours of the T mode *)
Definition t_colors (d0 d1 d2 d3 : Z) : (Z * Z * Z) * (Z * Z * Z) :=
  ((Z.lor (Z.lor (Z.lor (Z.land (shl8 d0 3) 0xc0) (Z.land (shl8 d0 4) 0x30))
                 (Z.land (Z.shiftr d0 1) 0xc)) (Z.land d0 3),
    hi4 d1, lo4 d1),
   (hi4 d2, lo4 d2, hi4 d3)).

(** src/etc/etc2.rs lines 48-56 and 206-214: colours of the H mode *)
Definition h_colors (d0 d1 d2 d3 : Z) : (Z * Z * Z) * (Z * Z * Z) :=
  let c01 := Z.lor (Z.land (shl8 d0 5) 0xe0) (Z.land d1 0x10) in
  let c01 := Z.lor c01 (Z.shiftr c01 4) in
  let c02 := Z.lor (Z.lor (Z.land d1 8) (Z.land (shl8 d1 1) 6)) (Z.shiftr d2 7) in
  let c02 := Z.lor c02 (shl8 c02 4) in
  let c11 := Z.lor (Z.land (shl8 d2 5) 0xe0) (Z.land (Z.shiftr d3 3) 0x10) in
  let c11 := Z.lor c11 (Z.shiftr c11 4) in
  ((Z.lor (Z.land (shl8 d0 1) 0xf0) (Z.land (Z.shiftr d0 3) 0xf), c01, c02),
   (Z.lor (Z.land (shl8 d2 1) 0xf0) (Z.land (Z.shiftr d2 3) 0xf), c11,
    Z.lor (Z.land (shl8 d3 1) 0xf0) (Z.land (Z.shiftr d3 3) 0xf))).

(** src/etc/etc2.rs lines 58-60 and 216-218: `c[0] >= c[1]` lexicographically *)
Definition h_order (c0 c1 : Z * Z * Z) : bool :=
  let '(c00, c01, c02) := c0 in
  let '(c10, c11, c12) := c1 in
  (c10 <? c00) || ((c00 =? c10) && ((c11 <? c01) || ((c01 =? c11) && (c12 <=? c02)))).

(** src/etc/etc2.rs lines 34-39 and 188-193: `color_set` of the T mode *)
Definition t_set (c0 c1 : Z * Z * Z) (d : Z) : res (list Z) :=
  let* nd := ia m 16 (- d) in
  let* p1 := applicate_color c1 d in
  let* p3 := applicate_color c1 nd in
  Ok [applicate_color_raw c0; p1; applicate_color_raw c1; p3].

(** src/etc/etc2.rs lines 65-70 and 223-228: `color_set` of the H mode *)
Definition h_set (c0 c1 : Z * Z * Z) (d : Z) : res (list Z) :=
  let* nd := ia m 16 (- d) in
  let* p0 := applicate_color c0 d in
  let* p1 := applicate_color c0 nd in
  let* p2 := applicate_color c1 d in
  let* p3 := applicate_color c1 nd in
  Ok [p0; p1; p2; p3].

(** src/etc/etc2.rs lines 40-45 and 71-76: the loop of the T and H modes; with
    [punch] also lines 194-203 and 229-238 (`obaq` false: index 2 gets alpha 0). *)
Definition etc_set_loop (punch : bool) (color_set outbuf : list Z) (j k : Z) : res (list Z) :=
  let* k := ushl m 64 k 1 in
  let* (outbuf, _) :=
    for_range 0 16 (fun i '(outbuf, (j, k)) =>
      let index := Z.lor (Z.land k 2) (Z.land j 1) in
      let* w := idx WRITE_ORDER_TABLE i in
      let* v := idx color_set index in
      let* outbuf := upd outbuf w v in
      let* outbuf :=
        if punch && (index =? 2) then
          let* p := idx outbuf w in
          upd outbuf w (Z.land p 0x00ffffff)
        else Ok outbuf in
      Ok (outbuf, (Z.shiftr j 1, Z.shiftr k 1))) (outbuf, (j, k)) in
  Ok outbuf.

(** src/etc/etc2.rs lines 79-92 and 241-254: end point colours of the planar mode *)
Definition or6 (c : Z) : Z := Z.lor c (Z.shiftr c 6).
(** src/etc/etc2.rs:79-92, :241-254 *)
Definition planar_o (d0 d1 d2 d3 : Z) : Z * Z * Z :=
  (Z.lor (Z.land (shl8 d0 1) 0xfc) (Z.land (Z.shiftr d0 5) 3),
   Z.lor (Z.lor (Z.land (shl8 d0 7) 0x80) (Z.land d1 0x7e)) (Z.land d0 1),
   or6 (Z.lor (Z.lor (Z.lor (Z.land (shl8 d1 7) 0x80) (Z.land (shl8 d2 2) 0x60))
                     (Z.land (shl8 d2 3) 0x18)) (Z.land (Z.shiftr d3 5) 4))).
(** src/etc/etc2.rs:79-92, :241-254 *)
Definition planar_h (d3 d4 d5 : Z) : Z * Z * Z :=
  (Z.lor (Z.lor (Z.land (shl8 d3 1) 0xf8) (Z.land (shl8 d3 2) 4)) (Z.land (Z.shiftr d3 5) 3),
   Z.lor (Z.land d4 0xfe) (Z.shiftr d4 7),
   or6 (Z.lor (Z.land (shl8 d4 7) 0x80) (Z.land (Z.shiftr d5 1) 0x7c))).
(** src/etc/etc2.rs:79-92, :241-254 *)
Definition planar_v (d5 d6 d7 : Z) : Z * Z * Z :=
  (Z.lor (Z.lor (Z.land (shl8 d5 5) 0xe0) (Z.land (Z.shiftr d6 3) 0x1c)) (Z.land (Z.shiftr d5 1) 3),
   Z.lor (Z.lor (Z.land (shl8 d6 3) 0xf8) (Z.land (Z.shiftr d7 5) 6)) (Z.land (Z.shiftr d6 4) 1),
   Z.lor (shl8 d7 2) (Z.land (Z.shiftr d7 4) 3)).

(** src/etc/etc2.rs lines 96-116 and 258-278: one channel of a planar texel *)
Definition planar_chan (x y o h v : Z) : res Z :=
  let* dh := ia m 32 (h - o) in
  let* xh := ia m 32 (x * dh) in
  let* dv := ia m 32 (v - o) in
  let* yv := ia m 32 (y * dv) in
  let* o4 := ia m 32 (4 * o) in
  let* s := ia m 32 (xh + yv) in
  let* s := ia m 32 (s + o4) in
  let* s := ia m 32 (s + 2) in
  Ok (clamp (Z.shiftr s 2)).

(** src/etc/etc2.rs lines 93-120 and 255-282: the loops of the planar mode *)
Definition planar_loop (o h v : Z * Z * Z) (outbuf : list Z) : res (list Z) :=
  let '(or, og, ob) := o in
  let '(hr, hg, hb) := h in
  let '(vr, vg, vb) := v in
  let* (outbuf, _) :=
    for_range 0 4 (fun y st =>
      for_range 0 4 (fun x '(outbuf, i) =>
        let* r := planar_chan x y or hr vr in
        let* g := planar_chan x y og hg vg in
        let* b := planar_chan x y ob hb vb in
        let* outbuf := upd outbuf i (color r g b 255) in
        Ok (outbuf, i + 1)) st) (outbuf, 0) in
  Ok outbuf.

(** src/etc/etc2.rs lines 57-64, 215-222: distance index of the H mode, `d += 1` on u8 *)
Definition h_dist (c0 c1 : Z * Z * Z) (d3 : Z) : res Z :=
  let d := Z.lor (Z.land d3 4) (Z.land (shl8 d3 1) 2) in
  let* d := if h_order c0 c1 then ua m 8 (d + 1) else Ok d in
  idx ETC2_DISTANCE_TABLE d.

(** src/etc/etc2.rs lines 9-161: `decode_etc2_rgb_block` *)
Definition decode_etc2_rgb_block (data outbuf : list Z) : res (list Z) :=
  let* d6 := idx data 6 in
  let* d7 := idx data 7 in
  let j := be_bytes [d6; d7] in
  let* d4 := idx data 4 in
  let* d5 := idx data 5 in
  let k := be_bytes [d4; d5] in
  let* d3 := idx data 3 in
  let* d0 := idx data 0 in
  let* d1 := idx data 1 in
  let* d2 := idx data 2 in
  if 0 <? Z.land d3 2 then
    let r := Z.land d0 0xf8 in
    let* dr := etc2_delta d0 in
    let g := Z.land d1 0xf8 in
    let* dg := etc2_delta d1 in
    let b := Z.land d2 0xf8 in
    let* db := etc2_delta d2 in
    let* r' := ia m 32 (r + dr) in
    let* g' := ia m 32 (g + dg) in
    let* b' := ia m 32 (b + db) in
    if (r' <? 0) || (255 <? r') then
      let '(c0, c1) := t_colors d0 d1 d2 d3 in
      let* d := idx ETC2_DISTANCE_TABLE (Z.lor (Z.land (Z.shiftr d3 1) 6) (Z.land d3 1)) in
      let* set := t_set c0 c1 d in
      etc_set_loop false set outbuf j k
    else if (g' <? 0) || (255 <? g') then
      let '(c0, c1) := h_colors d0 d1 d2 d3 in
      let* d := h_dist c0 c1 d3 in
      let* set := h_set c0 c1 d in
      etc_set_loop false set outbuf j k
    else if (b' <? 0) || (255 <? b') then
      planar_loop (planar_o d0 d1 d2 d3) (planar_h d3 d4 d5) (planar_v d5 d6 d7) outbuf
    else
      let* table := idx ETC1_SUBBLOCK_TABLE (Z.land d3 1) in
      etc_sub_loop (u8 (or5 r), u8 (or5 g), u8 (or5 b)) (or5 (u8 r'), or5 (u8 g'), or5 (u8 b'))
        (Z.shiftr d3 5) (Z.land (Z.shiftr d3 2) 7) table outbuf j k
  else
    let* table := idx ETC1_SUBBLOCK_TABLE (Z.land d3 1) in
    etc_sub_loop (hi4 d0, hi4 d1, hi4 d2) (lo4 d0, lo4 d1, lo4 d2)
      (Z.shiftr d3 5) (Z.land (Z.shiftr d3 2) 7) table outbuf j k.

(** src/etc/etc2.rs lines 296-306: the loop of the punch-through differential mode *)
Definition etc2a_sub_loop (obaq : bool) (c0 c1 : Z * Z * Z) (code0 code1 : Z)
    (table outbuf : list Z) (j k : Z) : res (list Z) :=
  let* mods := idx ETC2A_MODIFIER_TABLE (if obaq then 1 else 0) in
  let* (outbuf, _) :=
    for_range 0 16 (fun i '(outbuf, (j, k)) =>
      let* s := idx table i in
      let* code := idx [code0; code1] s in
      let* row := idx mods code in
      let* md := idx row (Z.land j 1) in
      let* c := idx [c0; c1] s in
      let* md := if 0 <? Z.land k 1 then ia m 16 (- md) else Ok md in
      let* v := applicate_color_alpha c md
                  (negb obaq && negb (Z.land k 1 =? 0) && (Z.land j 1 =? 0)) in
      let* w := idx WRITE_ORDER_TABLE i in
      let* outbuf := upd outbuf w v in
      Ok (outbuf, (Z.shiftr j 1, Z.shiftr k 1))) (outbuf, (j, k)) in
  Ok outbuf.

(** src/etc/etc2.rs lines 163-308: `decode_etc2_rgba1_block` *)
Definition decode_etc2_rgba1_block (data outbuf : list Z) : res (list Z) :=
  let* d6 := idx data 6 in
  let* d7 := idx data 7 in
  let j := be_bytes [d6; d7] in
  let* d4 := idx data 4 in
  let* d5 := idx data 5 in
  let k := be_bytes [d4; d5] in
  let* d3 := idx data 3 in
  let obaq := 0 <? Z.land (Z.shiftr d3 1) 1 in
  let* d0 := idx data 0 in
  let* d1 := idx data 1 in
  let* d2 := idx data 2 in
  let r := Z.land d0 0xf8 in
  let* dr := etc2_delta d0 in
  let g := Z.land d1 0xf8 in
  let* dg := etc2_delta d1 in
  let b := Z.land d2 0xf8 in
  let* db := etc2_delta d2 in
  let* r' := ia m 32 (r + dr) in
  let* g' := ia m 32 (g + dg) in
  let* b' := ia m 32 (b + db) in
  if (r' <? 0) || (255 <? r') then
    let '(c0, c1) := t_colors d0 d1 d2 d3 in
    let* d := idx ETC2_DISTANCE_TABLE (Z.lor (Z.land (Z.shiftr d3 1) 6) (Z.land d3 1)) in
    let* set := t_set c0 c1 d in
    etc_set_loop (negb obaq) set outbuf j k
  else if (g' <? 0) || (255 <? g') then
    let '(c0, c1) := h_colors d0 d1 d2 d3 in
    let* d := h_dist c0 c1 d3 in
    let* set := h_set c0 c1 d in
    etc_set_loop (negb obaq) set outbuf j k
  else if (b' <? 0) || (255 <? b') then
    planar_loop (planar_o d0 d1 d2 d3) (planar_h d3 d4 d5) (planar_v d5 d6 d7) outbuf
  else
    let* table := idx ETC1_SUBBLOCK_TABLE (Z.land d3 1) in
    etc2a_sub_loop obaq (u8 (or5 r), u8 (or5 g), u8 (or5 b)) (or5 (u8 r'), or5 (u8 g'), or5 (u8 b'))
      (Z.shiftr d3 5) (Z.land (Z.shiftr d3 2) 7) table outbuf j k.

(** src/etc/etc2.rs lines 310-332: `decode_etc2_a8_block`.  `take(16)` stops at
    the end of a shorter slice. *)
Definition decode_etc2_a8_block (data outbuf : list Z) : res (list Z) :=
  let* d1 := idx data 1 in
  if 0 <? Z.land d1 0xf0 then
    let multiplier := Z.shiftr d1 4 in
    let* table := idx ETC2_ALPHA_MOD_TABLE (Z.land d1 0xf) in
    let* s := slice data 0 8 in
    let* (outbuf, _) :=
      for_range 0 16 (fun i '(outbuf, l) =>
        let* d0 := idx data 0 in
        let* t := idx table (Z.land l 7) in
        let* p := ia m 32 (multiplier * t) in
        let* v := ia m 32 (d0 + p) in
        let* alpha := ushl m 32 (clamp v) 24 in
        let* w := idx WRITE_ORDER_TABLE_REV i in
        let* x := idx outbuf w in
        let* outbuf := upd outbuf w (Z.lor (Z.land x 0x00ffffff) alpha) in
        Ok (outbuf, Z.shiftr l 3)) (outbuf, be_bytes s) in
    Ok outbuf
  else
    let* d0 := idx data 0 in
    let* alpha := ushl m 32 d0 24 in
    let* (outbuf, _) :=
      for_range 0 (Z.min 16 (zlen outbuf)) (fun i '(outbuf, u) =>
        let* x := idx outbuf i in
        let* outbuf := upd outbuf i (Z.lor (Z.land x 0x00ffffff) alpha) in
        Ok (outbuf, u)) (outbuf, tt) in
    Ok outbuf.

(** src/etc/etc2.rs lines 334-338: `decode_etc2_rgba8_block` *)
Definition decode_etc2_rgba8_block (data outbuf : list Z) : res (list Z) :=
  let* d8 := slice_from data 8 in
  let* outbuf := decode_etc2_rgb_block d8 outbuf in
  decode_etc2_a8_block data outbuf.

(** src/etc/eac.rs lines 4-25 and 27-49: `decode_eac_block` (base = data[0],
    offset 4) and `decode_eac_signed_block` (base = data[0] as i8, offset 1023);
    [chan] is the parameter `color`. *)
Definition decode_eac_gen (base offset : Z) (data : list Z) (chan : Z) (outbuf : list Z) : res (list Z) :=
  let* d1 := idx data 1 in
  let mult := Z.land (Z.shiftr d1 1) 0x78 in
  let mult := if mult =? 0 then 1 else mult in
  let* table := idx ETC2_ALPHA_MOD_TABLE (Z.land d1 0xf) in
  let* s := slice data 0 8 in
  let* (outbuf, _) :=
    for_range 0 16 (fun i '(outbuf, (l, block)) =>
      let* b8 := ia m 32 (base * 8) in
      let* t := idx table (Z.land l 7) in
      let* p := ia m 32 (mult * t) in
      let* v := ia m 32 (b8 + p) in
      let* v := ia m 32 (v + offset) in
      let* block := upd block chan
        (if v <? 0 then 0 else if 2048 <=? v then 255 else u8 (Z.shiftr v 3)) in
      let* w := idx WRITE_ORDER_TABLE_REV i in
      let* x := idx outbuf w in
      let* outbuf := upd outbuf w (Z.lor x (le_bytes block)) in
      Ok (outbuf, (Z.shiftr l 3, block))) (outbuf, (le_bytes s, [0; 0; 0; 0])) in
  Ok outbuf.

(** src/etc/eac.rs lines 4-25 *)
Definition decode_eac_block (data : list Z) (chan : Z) (outbuf : list Z) : res (list Z) :=
  let* d0 := idx data 0 in
  decode_eac_gen d0 4 data chan outbuf.
(** src/etc/eac.rs lines 27-49 *)
Definition decode_eac_signed_block (data : list Z) (chan : Z) (outbuf : list Z) : res (list Z) :=
  let* d0 := idx data 0 in
  decode_eac_gen (swrap 8 d0) 1023 data chan outbuf.

(** src/etc/eac.rs lines 53, 59, 65, 72: `outbuf[0..16].fill(color(0, 0, 0, 255))` *)
Definition fill16 (outbuf : list Z) : res (list Z) :=
  let* _ := slice outbuf 0 16 in
  copy_into outbuf 0 (repeat (color 0 0 0 255) 16).

(** src/etc/eac.rs lines 51-55 *)
Definition decode_eacr_block (data outbuf : list Z) : res (list Z) :=
  let* outbuf := fill16 outbuf in decode_eac_block data 2 outbuf.
(** src/etc/eac.rs lines 57-61 *)
Definition decode_eacr_signed_block (data outbuf : list Z) : res (list Z) :=
  let* outbuf := fill16 outbuf in decode_eac_signed_block data 2 outbuf.
(** src/etc/eac.rs lines 63-68 *)
Definition decode_eacrg_block (data outbuf : list Z) : res (list Z) :=
  let* outbuf := fill16 outbuf in
  let* outbuf := decode_eac_block data 2 outbuf in
  let* d8 := slice_from data 8 in
  decode_eac_block d8 1 outbuf.
(** src/etc/eac.rs lines 70-75 *)
Definition decode_eacrg_signed_block (data outbuf : list Z) : res (list Z) :=
  let* outbuf := fill16 outbuf in
  let* outbuf := decode_eac_signed_block data 2 outbuf in
  let* d8 := slice_from data 8 in
  decode_eac_signed_block d8 1 outbuf.

(** src/etc.rs lines 17-26: instances of `block_decoder!` *)
Definition decode_etc1 := block_decoder m 4 4 8 decode_etc1_block.
(** src/etc.rs:18 *)
Definition decode_etc2_rgb := block_decoder m 4 4 8 decode_etc2_rgb_block.
(** src/etc.rs:19 *)
Definition decode_etc2_rgba1 := block_decoder m 4 4 8 decode_etc2_rgba1_block.
(** src/etc.rs:20 *)
Definition decode_etc2_rgba8 := block_decoder m 4 4 16 decode_etc2_rgba8_block.
(** src/etc.rs:23 *)
Definition decode_eacr := block_decoder m 4 4 8 decode_eacr_block.
(** src/etc.rs:24 *)
Definition decode_eacr_signed := block_decoder m 4 4 8 decode_eacr_signed_block.
(** src/etc.rs:25 *)
Definition decode_eacrg := block_decoder m 4 4 16 decode_eacrg_block.
(** src/etc.rs:26 *)
Definition decode_eacrg_signed := block_decoder m 4 4 16 decode_eacrg_signed_block.

End WithBuild.
