(** * Model of src/pvrtc.rs (the version built with feature "alloc"; the other
    one, lines 453-526, does not compile: `block_width`, `width` and `height`
    are undefined there and it has no return value) *)
From Verif Require Import Base ModelColor.

(** src/pvrtc.rs lines 4-10 and 42-48: a colour is the list [r; g; b; a]. *)
Record tinfo := mkT { ta : list Z; tb : list Z; tw : list Z; tp : Z }.
(** src/pvrtc.rs lines 12-21 and 50-59: `PVRTCTexelInfo::default`. *)
Definition tdefault : tinfo := mkT [0; 0; 0; 0] [0; 0; 0; 0] (repeat 0 32) 0.

(** src/pvrtc.rs lines 61-62. *)
Definition PVRTC1_STANDARD_WEIGHT : list Z := [0; 3; 5; 8].
(** src/pvrtc.rs:62 *)
Definition PVRTC1_PUNCHTHROUGH_WEIGHT : list Z := [0; 4; 4; 8].

Section WithBuild.
Context (m : build).

(** src/pvrtc.rs lines 64-76: `morton_index`.  The `while` loop has at most 64
    iterations as `mask` doubles; [fuel] 65 never runs out unless the loop does
    not terminate, which is reported as [Panic]. *)
Fixpoint morton_loop (fuel : nat) (x y min_dim offset shift mask : Z) : res (Z * Z) :=
  match fuel with
  | O => Panic
  | S fuel =>
      if mask <? min_dim then
        let* xs := ushl m 64 (Z.land x mask) 1 in
        let* d := ushl m 64 (Z.lor (Z.land y mask) xs) shift in
        let offset := Z.lor offset d in
        let* mask := ushl m 64 mask 1 in
        let* shift := ua m 64 (shift + 1) in
        morton_loop fuel x y min_dim offset shift mask
      else Ok (offset, shift)
  end.
(** src/pvrtc.rs:64-76: `morton_index` *)
Definition morton_index (x y min_dim : Z) : res Z :=
  let* (offset, shift) := morton_loop 65 x y min_dim 0 0 1 in
  let* h := ushr m 64 (Z.lor x y) shift in
  let* s2 := ua m 64 (shift * 2) in
  let* d := ushl m 64 h s2 in
  Ok (Z.lor offset d).

(** src/pvrtc.rs lines 78-103: `get_texel_colors`. *)
Definition get_texel_colors (data : list Z) (info : tinfo) : res tinfo :=
  let* ca := slice data 4 6 in
  let ca := le_bytes ca in
  let* cb := slice data 6 8 in
  let cb := le_bytes cb in
  let a :=
    if negb (Z.land ca 0x8000 =? 0) then
      [u8 (Z.land (Z.shiftr ca 10) 0x1f);
       u8 (Z.land (Z.shiftr ca 5) 0x1f);
       u8 (Z.lor (Z.land ca 0x1e) (Z.land (Z.shiftr ca 4) 1));
       0xf]
    else
      [u8 (Z.lor (Z.land (Z.shiftr ca 7) 0x1e) (Z.land (Z.shiftr ca 11) 1));
       u8 (Z.lor (Z.land (Z.shiftr ca 3) 0x1e) (Z.land (Z.shiftr ca 7) 1));
       u8 (Z.lor (Z.land (u16 (Z.shiftl ca 1)) 0x1c) (Z.land (Z.shiftr ca 2) 3));
       u8 (Z.land (Z.shiftr ca 11) 0xe)] in
  let b :=
    if negb (Z.land cb 0x8000 =? 0) then
      [u8 (Z.land (Z.shiftr cb 10) 0x1f);
       u8 (Z.land (Z.shiftr cb 5) 0x1f);
       u8 (Z.land cb 0x1f);
       0xf]
    else
      [u8 (Z.lor (Z.land (Z.shiftr cb 7) 0x1e) (Z.land (Z.shiftr cb 11) 1));
       u8 (Z.lor (Z.land (Z.shiftr cb 3) 0x1e) (Z.land (Z.shiftr cb 7) 1));
       u8 (Z.lor (Z.land (u16 (Z.shiftl cb 1)) 0x1e) (Z.land (Z.shiftr cb 3) 1));
       u8 (Z.land (Z.shiftr cb 11) 0xe)] in
  Ok (mkT a b (tw info) (tp info)).

(** src/pvrtc.rs lines 105-125: `get_texel_weights_4bpp`. *)
Definition get_texel_weights_4bpp (data : list Z) (info : tinfo) : res tinfo :=
  let* d4 := idx data 4 in
  let mod_mode := negb (Z.land d4 1 =? 0) in
  let* d := slice data 0 4 in
  let mod_bits := le_bytes d in
  if mod_mode then
    let* (w, p, _) :=
      for_range 0 16 (fun i '(w, p, mod_bits) =>
        let* v := idx PVRTC1_PUNCHTHROUGH_WEIGHT (Z.land mod_bits 3) in
        let* w := upd w i v in
        let* p := if Z.land mod_bits 3 =? 2 then let* s := ushl m 32 1 i in Ok (Z.lor p s) else Ok p in
        let* mod_bits := ushr m 64 mod_bits 2 in
        Ok (w, p, mod_bits)) (tw info, 0, mod_bits) in
    Ok (mkT (ta info) (tb info) w p)
  else
    let* (w, _) :=
      for_range 0 16 (fun i '(w, mod_bits) =>
        let* v := idx PVRTC1_STANDARD_WEIGHT (Z.land mod_bits 3) in
        let* w := upd w i v in
        let* mod_bits := ushr m 64 mod_bits 2 in
        Ok (w, mod_bits)) (tw info, mod_bits) in
    Ok (mkT (ta info) (tb info) w 0).

(** src/pvrtc.rs lines 127-180: `get_texel_weights_2bpp`. *)
Definition get_texel_weights_2bpp (data : list Z) (info : tinfo) : res tinfo :=
  let* d4 := idx data 4 in
  let mod_mode := negb (Z.land d4 1 =? 0) in
  let* d := slice data 0 4 in
  let mod_bits := le_bytes d in
  if mod_mode then
    let* d0 := idx data 0 in
    let* fillflag :=
      if negb (Z.land d0 1 =? 0) then
        let* d2 := idx data 2 in
        Ok (if negb (Z.land d2 0x10 =? 0) then -1 else -2)
      else Ok (-3) in
    let* (w, _) :=
      for_range 0 4 (fun y '(w, i) =>
        let* i := if Z.land y 1 =? 0 then ua m 64 (i + 1) else ua m 64 (i - 1) in
        for_range 0 4 (fun _ '(w, i) =>
          let* w := upd w i fillflag in
          let* i := ua m 64 (i + 2) in
          Ok (w, i)) (w, i)) (tw info, 0) in
    let* (w, _, _) :=
      for_range 0 4 (fun y '(w, i, mod_bits) =>
        let* i := if Z.land y 1 =? 0 then ua m 64 (i - 1) else ua m 64 (i + 1) in
        for_range 0 4 (fun _ '(w, i, mod_bits) =>
          let* v := idx PVRTC1_STANDARD_WEIGHT (Z.land mod_bits 3) in
          let* w := upd w i v in
          let* i := ua m 64 (i + 2) in
          let* mod_bits := ushr m 64 mod_bits 2 in
          Ok (w, i, mod_bits)) (w, i, mod_bits)) (w, 1, mod_bits) in
    let* w0 := idx w 0 in
    let* s := ia m 8 (w0 + 3) in
    let* w := upd w 0 (Z.land s 8) in
    let* w :=
      if negb (Z.land d0 1 =? 0) then
        let* w20 := idx w 20 in
        let* s := ia m 8 (w20 + 3) in
        upd w 20 (Z.land s 8)
      else Ok w in
    Ok (mkT (ta info) (tb info) w 0)
  else
    let* (w, _) :=
      for_range 0 32 (fun i '(w, mod_bits) =>
        let* w := upd w i (if negb (Z.land mod_bits 1 =? 0) then 8 else 0) in
        let* mod_bits := ushr m 64 mod_bits 1 in
        Ok (w, mod_bits)) (tw info, mod_bits) in
    Ok (mkT (ta info) (tb info) w 0).

(** src/pvrtc.rs lines 182-187: `interpolate_color`. *)
Definition interpolate_color (c1 c2 w : Z) : res Z :=
  let* k := ia m 32 (8 - w) in
  let* x := ia m 32 (c1 * k) in
  let* y := ia m 32 (c2 * w) in
  let* c := ia m 32 (x + y) in
  Ok (u8 (Z.quot c 8)).

(** src/pvrtc.rs lines 197-212 and 262-276: one channel (component [c] of the
    colours chosen by [sel]) of `clr_a[i]` or `clr_b[i]` of one texel; the code
    runs the eight accumulations in one loop. *)
Definition pvr_accumulate (info : list tinfo) (sel : tinfo -> list Z) (c : Z) (wx wy : list Z) : res Z :=
  let* (acc, _) :=
    for_range 0 3 (fun acy st =>
      for_range 0 3 (fun acx '(acc, ac) =>
        let* px := idx wx acx in
        let* py := idx wy acy in
        let* w := ia m 32 (px * py) in
        let* t := idx info ac in
        let* v := idx (sel t) c in
        let* p := ia m 32 (v * w) in
        let* acc := ia m 32 (acc + p) in
        let* ac := ua m 64 (ac + 1) in
        Ok (acc, ac)) st) (0, 0) in
  Ok acc.

(** src/pvrtc.rs lines 213-220 (4bpp: shifts 1, 6 and 0, 4) and 278-285 (2bpp:
    shifts 2, 7 and 1, 5): `(v >> s) + (v >> t)`. *)
Definition pvr_scale (v s t : Z) : res Z := ia m 32 (Z.shiftr v s + Z.shiftr v t).

(** src/pvrtc.rs lines 197-220 and 262-285: the four channels of `clr_a[i]` or `clr_b[i]`. *)
Definition pvr_clr (info : list tinfo) (sel : tinfo -> list Z) (wx wy : list Z) (s t sa ta_ : Z) : res (list Z) :=
  let* r := pvr_accumulate info sel 0 wx wy in
  let* g := pvr_accumulate info sel 1 wx wy in
  let* b := pvr_accumulate info sel 2 wx wy in
  let* a := pvr_accumulate info sel 3 wx wy in
  let* r := pvr_scale r s t in
  let* g := pvr_scale g s t in
  let* b := pvr_scale b s t in
  let* a := pvr_scale a sa ta_ in
  Ok [r; g; b; a].

(** src/pvrtc.rs lines 229-238 and 355-364: the pixel. *)
Definition pvr_pixel (ca cb : list Z) (weight flag : Z) : res Z :=
  let* ra := idx ca 0 in let* rb := idx cb 0 in
  let* r := interpolate_color ra rb weight in
  let* ga := idx ca 1 in let* gb := idx cb 1 in
  let* g := interpolate_color ga gb weight in
  let* ba := idx ca 2 in let* bb := idx cb 2 in
  let* b := interpolate_color ba bb weight in
  let* a :=
    if negb (Z.land flag 1 =? 0) then Ok 0
    else let* aa := idx ca 3 in let* ab := idx cb 3 in interpolate_color aa ab weight in
  Ok (color r g b a).

(** src/pvrtc.rs line 190. *)
Definition INTERP_WEIGHT : list (list Z) := [[2; 2; 0]; [1; 3; 0]; [0; 4; 0]; [0; 3; 1]].

(** src/pvrtc.rs lines 189-242: `applicate_color_4bpp`.  The code first fills
    the arrays `clr_a` and `clr_b` for all texels and then stores the pixels. *)
Definition applicate_color_4bpp (info : list tinfo) (buf : list Z) : res (list Z) :=
  let* (clr, _) :=
    for_range 0 4 (fun y st =>
      for_range 0 4 (fun x '(clr, i) =>
        let* wx := idx INTERP_WEIGHT x in
        let* wy := idx INTERP_WEIGHT y in
        let* ca := pvr_clr info ta wx wy 1 6 0 4 in
        let* cb := pvr_clr info tb wx wy 1 6 0 4 in
        let* clr := upd clr i (ca, cb) in
        let* i := ua m 64 (i + 1) in
        Ok (clr, i)) st) (repeat ([0; 0; 0; 0], [0; 0; 0; 0]) 16, 0) in
  let* self_info := idx info 4 in
  let* (buf, _) :=
    for_range 0 16 (fun i '(buf, flag) =>
      let* c := idx clr i in
      let* w := idx (tw self_info) i in
      let* p := pvr_pixel (fst c) (snd c) w flag in
      let* buf := upd buf i p in
      let* flag := ushr m 32 flag 1 in
      Ok (buf, flag)) (buf, tp self_info) in
  Ok buf.

(** src/pvrtc.rs lines 245-255 and 291-312. *)
Definition INTERP_WEIGHT_X : list (list Z) :=
  [[4; 4; 0]; [3; 5; 0]; [2; 6; 0]; [1; 7; 0]; [0; 8; 0]; [0; 7; 1]; [0; 6; 2]; [0; 5; 3]].
(** src/pvrtc.rs:255 *)
Definition INTERP_WEIGHT_Y : list (list Z) := [[2; 2; 0]; [1; 3; 0]; [0; 4; 0]; [0; 3; 1]].
(** src/pvrtc.rs:291 *)
Definition POSYA : list (Z * Z) := [(1, 24); (4, -8); (4, -8); (4, -8)].
(** src/pvrtc.rs:292 *)
Definition POSYB : list (Z * Z) := [(4, 8); (4, 8); (4, 8); (7, -24)].
(** src/pvrtc.rs:293-302 *)
Definition POSXL : list (Z * Z) := [(3, 7); (4, -1); (4, -1); (4, -1); (4, -1); (4, -1); (4, -1); (4, -1)].
(** src/pvrtc.rs:303-312 *)
Definition POSXR : list (Z * Z) := [(4, 1); (4, 1); (4, 1); (4, 1); (4, 1); (4, 1); (4, 1); (5, -7)].

(** src/pvrtc.rs lines 322-350: `info[POS[k][0] as usize].weight[(i as i32 +
    POS[k][1]) as usize] as i32`; a negative index becomes a huge `usize`. *)
Definition pvr_neighbour (info : list tinfo) (pos : list (Z * Z)) (k i : Z) : res Z :=
  let* p := idx pos k in
  let* t := idx info (fst p) in
  let* j := ia m 32 (i + snd p) in
  idx (tw t) (u64 j).

(** src/pvrtc.rs lines 320-353: the `match self_info.weight[i]`; result: the new weight. *)
Definition pvr_weight_2bpp (info : list tinfo) (x y i w : Z) : res Z :=
  if w =? -1 then
    let* a := pvr_neighbour info POSYA y i in
    let* b := pvr_neighbour info POSYB y i in
    let* s := ia m 32 (a + b) in
    let* s := ia m 32 (s + 1) in
    Ok (swrap 8 (Z.quot s 2))
  else if w =? -2 then
    let* a := pvr_neighbour info POSXL x i in
    let* b := pvr_neighbour info POSXR x i in
    let* s := ia m 32 (a + b) in
    let* s := ia m 32 (s + 1) in
    Ok (swrap 8 (Z.quot s 2))
  else if w =? -3 then
    let* a := pvr_neighbour info POSYA y i in
    let* b := pvr_neighbour info POSYB y i in
    let* s := ia m 32 (a + b) in
    let* c := pvr_neighbour info POSXL x i in
    let* s := ia m 32 (s + c) in
    let* d := pvr_neighbour info POSXR x i in
    let* s := ia m 32 (s + d) in
    let* s := ia m 32 (s + 2) in
    Ok (swrap 8 (Z.quot s 4))
  else Ok w.

(** src/pvrtc.rs lines 244-369: `applicate_color_2bpp`; `self_info` is a copy of `info[4]`. *)
Definition applicate_color_2bpp (info : list tinfo) (buf : list Z) : res (list Z) :=
  let* (clr, _) :=
    for_range 0 4 (fun y st =>
      for_range 0 8 (fun x '(clr, i) =>
        let* wx := idx INTERP_WEIGHT_X x in
        let* wy := idx INTERP_WEIGHT_Y y in
        let* ca := pvr_clr info ta wx wy 2 7 1 5 in
        let* cb := pvr_clr info tb wx wy 2 7 1 5 in
        let* clr := upd clr i (ca, cb) in
        let* i := ua m 64 (i + 1) in
        Ok (clr, i)) st) (repeat ([0; 0; 0; 0], [0; 0; 0; 0]) 32, 0) in
  let* self_info := idx info 4 in
  let* (buf, _, _, _) :=
    for_range 0 4 (fun y st =>
      for_range 0 8 (fun x '(buf, weight, flag, i) =>
        let* w := idx weight i in
        let* w := pvr_weight_2bpp info x y i w in
        let* weight := upd weight i w in
        let* c := idx clr i in
        let* p := pvr_pixel (fst c) (snd c) w flag in
        let* buf := upd buf i p in
        let* i := ua m 64 (i + 1) in
        let* flag := ushr m 32 flag 1 in
        Ok (buf, weight, flag, i)) st) (buf, tw self_info, tp self_info, 0) in
  Ok buf.

(** src/pvrtc.rs lines 398-417: the infos of all blocks, in the order of the data. *)
Definition pvr_infos (data : list Z) (num_blocks : Z) (is2bpp : bool) : res (list tinfo) :=
  let* (infos, _) :=
    for_range 0 num_blocks (fun k '(infos, data_offset) =>
      let* info := idx infos k in
      let* d := slice_from data data_offset in
      let* info := get_texel_colors d info in
      let* info := if is2bpp then get_texel_weights_2bpp d info else get_texel_weights_4bpp d info in
      let* infos := upd infos k info in
      let* data_offset := ua m 64 (data_offset + 8) in
      Ok (infos, data_offset)) (repeat tdefault (Z.to_nat num_blocks), 0) in
  Ok infos.

(** src/pvrtc.rs lines 425-427 and 430-432: the positions of the neighbours. *)
Definition pvr_positions (b n : Z) : res (list Z) :=
  let* p := if b =? 0 then ua m 64 (n - 1) else ua m 64 (b - 1) in
  let* last := ua m 64 (n - 1) in
  let* q := if b =? last then Ok 0 else ua m 64 (b + 1) in
  Ok [p; b; q].

(** src/pvrtc.rs lines 371-451: `decode_pvrtc`.  The first argument of
    `applicate_color_func` is unused there but its slicing may panic. *)
Definition decode_pvrtc (data : list Z) (width height : Z) (image : list Z) (is2bpp : bool) : res (status * list Z) :=
  let block_width := if is2bpp then 8 else 4 in
  let num_blocks_x := div_ceil width block_width in
  let num_blocks_y := div_ceil height 4 in
  let* num_blocks := ua m 64 (num_blocks_x * num_blocks_y) in
  let min_num_blocks := Z.min num_blocks_x num_blocks_y in
  let* need := ua m 64 (num_blocks * block_width) in
  if zlen data <? need then Ok (Failed "The data buffer is too small!", image) else
  let* area := ua m 64 (width * height) in
  if zlen image <? area then Ok (Failed "The image buffer is too small!", image) else
  let* x1 := ua m 64 (num_blocks_x - 1) in
  let* not_pow2 :=
    if negb (Z.land num_blocks_x x1 =? 0) then Ok true
    else let* y1 := ua m 64 (num_blocks_y - 1) in Ok (negb (Z.land num_blocks_y y1 =? 0)) in
  if not_pow2 : bool then Ok (Failed "The number of blocks of each side must be a power of 2!", image) else
  let* infos := pvr_infos data num_blocks is2bpp in
  let* (_, _, image) :=
    for_range 0 num_blocks_y (fun by_ st =>
      let* pos_y := pvr_positions by_ num_blocks_y in
      for_range 0 num_blocks_x (fun bx '(local_info, buffer, image) =>
        let* pos_x := pvr_positions bx num_blocks_x in
        let* (local_info, _) :=
          for_range 0 3 (fun cy st =>
            for_range 0 3 (fun cx '(local_info, c) =>
              let* px := idx pos_x cx in
              let* py := idx pos_y cy in
              let* k := morton_index px py min_num_blocks in
              let* t := idx infos k in
              let* local_info := upd local_info c t in
              let* c := ua m 64 (c + 1) in
              Ok (local_info, c)) st) (local_info, 0) in
        let* k := morton_index bx by_ min_num_blocks in
        let* k8 := ua m 64 (k * 8) in
        let* _ := slice_from data k8 in
        let* buffer := if is2bpp then applicate_color_2bpp local_info buffer else applicate_color_4bpp local_info buffer in
        let* image := copy_block_buffer m bx by_ width height block_width 4 buffer image in
        Ok (local_info, buffer, image)) st) (repeat tdefault 9, repeat 0 32, image) in
  Ok (Done, image).

(** src/pvrtc.rs lines 528-535 and 536-543. *)
Definition decode_pvrtc_2bpp (data : list Z) (width height : Z) (image : list Z) : res (status * list Z) :=
  decode_pvrtc data width height image true.
(** src/pvrtc.rs:536-543 *)
Definition decode_pvrtc_4bpp (data : list Z) (width height : Z) (image : list Z) : res (status * list Z) :=
  decode_pvrtc data width height image false.

End WithBuild.
