(** * Model of src/bcn/bc7.rs *)
From Verif Require Import Base ModelColor ModelBits ModelBptc.

(** src/bcn/bc7.rs lines 6-16: `Bc7ModeInfo`. *)
Record Bc7ModeInfo := mkBc7 {
  num_subsets : Z; partition_bits : Z; rotation_bits : Z; index_selection_bits : Z;
  color_bits : Z; alpha_bits : Z; endpoint_pbits : Z; shared_pbits : Z;
  index_bits0 : Z; index_bits1 : Z }.

(** src/bcn/bc7.rs lines 18-125: `S_BP7_MODE_INFO`. *)
Definition S_BP7_MODE_INFO : list Bc7ModeInfo :=
  [mkBc7 3 4 0 0 4 0 1 0 3 0; mkBc7 2 6 0 0 6 0 0 1 3 0; mkBc7 3 6 0 0 5 0 0 0 2 0;
   mkBc7 2 6 0 0 7 0 1 0 2 0; mkBc7 1 0 2 1 5 6 0 0 2 3; mkBc7 1 0 2 0 7 8 0 0 2 2;
   mkBc7 1 0 0 0 7 7 1 0 4 0; mkBc7 2 6 0 0 5 5 1 0 2 0].

Section WithBuild.
Context (m : build).

(** src/bcn/bc7.rs lines 126-130: `expand_quantized`.  `8 - bits as u16` is a u16
    subtraction; `overflowing_shr` masks the amount to 3 bits. *)
Definition expand_quantized (v bits : Z) : res Z :=
  let* k := ua m 16 (8 - u16 bits) in
  let* s := ushl m 16 v k in
  let s := u8 s in
  Ok (Z.lor s (Z.shiftr s (bits mod 8))).

(** src/bcn/bc7.rs lines 134-140: the loop finding the mode. *)
Fixpoint bc7_mode_loop (fuel : nat) (data : list Z) (pos mode : Z) : res (Z * Z) :=
  match fuel with
  | O => Panic
  | S fuel =>
      let* (b, pos) := read m data pos 1 in
      if (b =? 0) && (mode <? 8) then
        let* mode := ua m 64 (mode + 1) in
        bc7_mode_loop fuel data pos mode
      else Ok (mode, pos)
  end.

(** src/bcn/bc7.rs lines 163-166, 168-171, 173-176, 179-182: one channel of all end points. *)
Definition bc7_read_channel (data : list Z) (ns nbits pbits : Z) (ep : list Z) (pos : Z) : res (list Z * Z) :=
  for_range 0 ns (fun ii '(ep, pos) =>
    let* (v, pos) := read m data pos nbits in
    let* v := ushl m 16 v pbits in
    let* i := ua m 64 (ii * 2) in
    let* ep := upd ep i (u8 v) in
    let* (v, pos) := read m data pos nbits in
    let* v := ushl m 16 v pbits in
    let* i := ua m 64 (ii * 2) in
    let* i := ua m 64 (i + 1) in
    let* ep := upd ep i (u8 v) in
    Ok (ep, pos)) (ep, pos).

(** src/bcn/bc7.rs:196-203:
    `l[i] |= v` *)
Definition or_at (l : list Z) (i v : Z) : res (list Z) :=
  let* x := idx l i in upd l i (Z.lor x v).

(** src/bcn/bc7.rs lines 187-205: the p-bits. *)
Definition bc7_pbits (data : list Z) (ns pbits shared : Z)
    (st : list Z * list Z * list Z * list Z * Z) : res (list Z * list Z * list Z * list Z * Z) :=
  for_range 0 ns (fun ii '(ep_r, ep_g, ep_b, ep_a, pos) =>
    let* (pda, pos) := read m data pos pbits in
    let pda := u8 pda in
    let* (pdb, pos) :=
      if shared =? 0 then
        let* (x, pos) := read m data pos pbits in Ok (u8 x, pos)
      else Ok (pda, pos) in
    let* i := ua m 64 (ii * 2) in
    let* i1 := ua m 64 (i + 1) in
    let* ep_r := or_at ep_r i pda in
    let* ep_r := or_at ep_r i1 pdb in
    let* ep_g := or_at ep_g i pda in
    let* ep_g := or_at ep_g i1 pdb in
    let* ep_b := or_at ep_b i pda in
    let* ep_b := or_at ep_b i1 pdb in
    let* ep_a := or_at ep_a i pda in
    let* ep_a := or_at ep_a i1 pdb in
    Ok (ep_r, ep_g, ep_b, ep_a, pos)) st.

(** src/bcn/bc7.rs:210-223:
    `l[i] = expand_quantized(l[i], bits)` *)
Definition expand_at (l : list Z) (i bits : Z) : res (list Z) :=
  let* x := idx l i in
  let* y := expand_quantized x bits in
  upd l i y.

(** src/bcn/bc7.rs lines 209-216 and 221-224: expansion of one channel.  (The
    source interleaves red, green and blue in one loop; the three arrays are
    independent.) *)
Definition bc7_expand (ns bits : Z) (ep : list Z) : res (list Z) :=
  for_range 0 ns (fun ii ep =>
    let* i := ua m 64 (ii * 2) in
    let* ep := expand_at ep i bits in
    let* i := ua m 64 (ii * 2) in
    let* i := ua m 64 (i + 1) in
    expand_at ep i bits) ep.

(** src/bcn/bc7.rs lines 302-313: `(ep[s] as u16 * f0 + ep[s+1] as u16 * f1 + 32) >> 6 as u8`. *)
Definition bc7_mix (ep : list Z) (s f0 f1 : Z) : res Z :=
  let* e0 := idx ep s in
  let* x := ua m 16 (e0 * f0) in
  let* s1 := ua m 64 (s + 1) in
  let* e1 := idx ep s1 in
  let* y := ua m 16 (e1 * f1) in
  let* z := ua m 16 (x + y) in
  let* z := ua m 16 (z + 32) in
  Ok (u8 (Z.shiftr z 6)).

(** src/bcn/bc7.rs lines 244-264: subset of texel [i] and anchor of that subset. *)
Definition bc7_subset (ns part i : Z) : res (Z * Z) :=
  if ns =? 2 then
    let* p := idx S_BPTC_P2 part in
    let* s := ushr m 64 p i in
    let s := Z.land s 1 in
    let* a := if negb (s =? 0) then idx S_BPTC_A2 part else Ok 0 in
    Ok (s, a)
  else if ns =? 3 then
    let* p := idx S_BPTC_P3 part in
    let* s := ushr m 64 p (2 * i) in
    let s := Z.land s 3 in
    let* a := if negb (s =? 0) then
        let* s1 := ua m 64 (s - 1) in
        let* r := idx S_BPTC_A3 s1 in
        idx r part
      else Ok 0 in
    Ok (s, a)
  else Ok (0, 0).

(** src/bcn/bc7.rs lines 240-329: the loop body for one texel; state: output,
    the two index offsets. *)
Definition bc7_texel_body (data : list Z) (mi : Bc7ModeInfo) (pos part rot isel : Z)
    (ep_r ep_g ep_b ep_a : list Z) (f0 f1 : list Z) (yy xx : Z)
    (st : list Z * (Z * Z)) : res (list Z * (Z * Z)) :=
  let '(outbuf, (off0, off1)) := st in
  let* i := ua m 64 (yy * 4) in
  let* i := ua m 64 (i + xx) in
  let* (subset, anchor_i) := bc7_subset (num_subsets mi) part i in
  let anchor := if i =? anchor_i then 1 else 0 in
  let* num0 := ua m 64 (index_bits0 mi - anchor) in
  let* num1 := if negb (index_bits1 mi =? 0) then ua m 64 (index_bits1 mi - anchor) else Ok 0 in
  let* index0 := peek m data pos off0 num0 in
  let* index1 := if negb (index_bits1 mi =? 0) then peek m data pos off1 num1 else Ok index0 in
  let* off0 := ua m 64 (off0 + num0) in
  let* off1 := ua m 64 (off1 + num1) in
  let* fs := idx [f0; f1] isel in
  let* k := idx [index0; index1] isel in
  let* fc := idx fs k in
  let* nsel := ua m 64 (1 - isel) in
  let* fs := idx [f0; f1] nsel in
  let* k := idx [index0; index1] nsel in
  let* fa := idx fs k in
  let* fca := ua m 16 (64 - fc) in
  let* faa := ua m 16 (64 - fa) in
  let* s2 := ua m 64 (subset * 2) in
  let* rr := bc7_mix ep_r s2 fca fc in
  let* gg := bc7_mix ep_g s2 fca fc in
  let* bb := bc7_mix ep_b s2 fca fc in
  let* aa := bc7_mix ep_a s2 faa fa in
  let '(rr, gg, bb, aa) :=
    if rot =? 1 then (aa, gg, bb, rr)
    else if rot =? 2 then (rr, aa, bb, gg)
    else if rot =? 3 then (rr, gg, aa, bb)
    else (rr, gg, bb, aa) in
  let* outbuf := upd outbuf i (color rr gg bb aa) in
  Ok (outbuf, (off0, off1)).

(** src/bcn/bc7.rs lines 132-330: `decode_bc7_block`. *)
Definition decode_bc7_block (data outbuf : list Z) : res (list Z) :=
  let* (mode, pos) := bc7_mode_loop 9 data 0 0 in
  if mode =? 8 then copy_into outbuf 0 (repeat 0 16) else
  let* mi := idx S_BP7_MODE_INFO mode in
  let mode_pbits := if negb (endpoint_pbits mi =? 0) then endpoint_pbits mi else shared_pbits mi in
  let* (part, pos) := read m data pos (partition_bits mi) in
  let* (rot, pos) := read m data pos (rotation_bits mi) in
  let rot := u8 rot in
  let* (isel, pos) := read m data pos (index_selection_bits mi) in
  let z6 := repeat 0 6 in
  let ns := num_subsets mi in
  let* (ep_r, pos) := bc7_read_channel data ns (color_bits mi) mode_pbits z6 pos in
  let* (ep_g, pos) := bc7_read_channel data ns (color_bits mi) mode_pbits z6 pos in
  let* (ep_b, pos) := bc7_read_channel data ns (color_bits mi) mode_pbits z6 pos in
  let* (ep_a, pos) :=
    if 0 <? alpha_bits mi then bc7_read_channel data ns (alpha_bits mi) mode_pbits z6 pos
    else Ok (repeat 0xff 6, pos) in
  let* (ep_r, ep_g, ep_b, ep_a, pos) :=
    if negb (mode_pbits =? 0) then bc7_pbits data ns mode_pbits (shared_pbits mi) (ep_r, ep_g, ep_b, ep_a, pos)
    else Ok (ep_r, ep_g, ep_b, ep_a, pos) in
  let* cbits := ua m 64 (color_bits mi + mode_pbits) in
  let* ep_r := bc7_expand ns cbits ep_r in
  let* ep_g := bc7_expand ns cbits ep_g in
  let* ep_b := bc7_expand ns cbits ep_b in
  let* ep_a :=
    if 0 <? alpha_bits mi then
      let* abits := ua m 64 (alpha_bits mi + mode_pbits) in
      bc7_expand ns abits ep_a
    else Ok ep_a in
  let* k0 := ua m 64 (index_bits0 mi - 2) in
  let* f0 := idx S_BPTC_FACTORS k0 in
  let* f1 :=
    if negb (index_bits1 mi =? 0) then
      let* k1 := ua m 64 (index_bits1 mi - 2) in
      idx S_BPTC_FACTORS k1
    else idx S_BPTC_FACTORS k0 in
  let* o := ua m 64 (16 * index_bits0 mi) in
  let* o := ua m 64 (o - 1) in
  let* o := ua m 64 (ns * o) in
  let* (outbuf, _) :=
    for_range 0 4 (fun yy st =>
      for_range 0 4 (fun xx st =>
        bc7_texel_body data mi pos part rot isel ep_r ep_g ep_b ep_a f0 f1 yy xx st) st)
      (outbuf, (0, o)) in
  Ok outbuf.

(** src/bcn.rs line 29: `block_decoder!("bc7", 4, 4, 16, decode_bc7_block)`. *)
Definition decode_bc7 := block_decoder m 4 4 16 decode_bc7_block.

End WithBuild.
