(** * Model of src/bcn/bc6.rs *)
From Verif Require Import Base ModelColor ModelBits ModelBptc ModelBc7 ModelF16.

(** src/bcn/bc6.rs lines 5-10: `struct Bc6hModeInfo`. *)
Record Bc6hModeInfo := mkBc6 {
  transformed : bool;
  partition_bits6 : Z;
  endpoint_bits : Z;
  delta_bits : list Z
}.

(** src/bcn/bc6.rs lines 12-273: `S_BC6H_MODE_INFO`. *)
Definition S_BC6H_MODE_INFO : list Bc6hModeInfo :=
  [mkBc6 true 5 10 [5; 5; 5];
   mkBc6 true 5 7 [6; 6; 6];
   mkBc6 true 5 11 [5; 4; 4];
   mkBc6 false 0 10 [10; 10; 10];
   mkBc6 false 0 0 [0; 0; 0];
   mkBc6 false 0 0 [0; 0; 0];
   mkBc6 true 5 11 [4; 5; 4];
   mkBc6 true 0 11 [9; 9; 9];
   mkBc6 false 0 0 [0; 0; 0];
   mkBc6 false 0 0 [0; 0; 0];
   mkBc6 true 5 11 [4; 4; 5];
   mkBc6 true 0 12 [8; 8; 8];
   mkBc6 false 0 0 [0; 0; 0];
   mkBc6 false 0 0 [0; 0; 0];
   mkBc6 true 5 9 [5; 5; 5];
   mkBc6 true 0 16 [4; 4; 4];
   mkBc6 false 0 0 [0; 0; 0];
   mkBc6 false 0 0 [0; 0; 0];
   mkBc6 true 5 8 [6; 5; 5];
   mkBc6 false 0 0 [0; 0; 0];
   mkBc6 false 0 0 [0; 0; 0];
   mkBc6 false 0 0 [0; 0; 0];
   mkBc6 true 5 8 [5; 6; 5];
   mkBc6 false 0 0 [0; 0; 0];
   mkBc6 false 0 0 [0; 0; 0];
   mkBc6 false 0 0 [0; 0; 0];
   mkBc6 true 5 8 [5; 5; 6];
   mkBc6 false 0 0 [0; 0; 0];
   mkBc6 false 0 0 [0; 0; 0];
   mkBc6 false 0 0 [0; 0; 0];
   mkBc6 false 5 6 [6; 6; 6];
   mkBc6 false 0 0 [0; 0; 0]].

(** src/bcn/bc6.rs lines 357-657: the reads of each mode, in order; an entry
    (c, i, n, s) stands for `ep_c[i] |= bit.read(n) << s` with c = 0, 1, 2 for
    r, g, b. *)
Definition bc6_reads (mode : Z) : list (Z * Z * Z * Z) :=
  match mode with
  | 0 => (* lines 609-629 *)
    [(1, 2, 1, 4); (2, 2, 1, 4); (2, 3, 1, 4); (0, 0, 10, 0); (1, 0, 10, 0); (2, 0, 10, 0);
     (0, 1, 5, 0); (1, 3, 1, 4); (1, 2, 4, 0); (1, 1, 5, 0); (2, 3, 1, 0); (1, 3, 4, 0);
     (2, 1, 5, 0); (2, 3, 1, 1); (2, 2, 4, 0); (0, 2, 5, 0); (2, 3, 1, 2); (0, 3, 5, 0);
     (2, 3, 1, 3)]
  | 1 => (* lines 631-655 *)
    [(1, 2, 1, 5); (1, 3, 1, 4); (1, 3, 1, 5); (0, 0, 7, 0); (2, 3, 1, 0); (2, 3, 1, 1);
     (2, 2, 1, 4); (1, 0, 7, 0); (2, 2, 1, 5); (2, 3, 1, 2); (1, 2, 1, 4); (2, 0, 7, 0);
     (2, 3, 1, 3); (2, 3, 1, 5); (2, 3, 1, 4); (0, 1, 6, 0); (1, 2, 4, 0); (1, 1, 6, 0);
     (1, 3, 4, 0); (2, 1, 6, 0); (2, 2, 4, 0); (0, 2, 6, 0); (0, 3, 6, 0)]
  | 2 => (* lines 358-377 *)
    [(0, 0, 10, 0); (1, 0, 10, 0); (2, 0, 10, 0); (0, 1, 5, 0); (0, 0, 1, 10); (1, 2, 4, 0);
     (1, 1, 4, 0); (1, 0, 1, 10); (2, 3, 1, 0); (1, 3, 4, 0); (2, 1, 4, 0); (2, 0, 1, 10);
     (2, 3, 1, 1); (2, 2, 4, 0); (0, 2, 5, 0); (2, 3, 1, 2); (0, 3, 5, 0); (2, 3, 1, 3)]
  | 3 => (* lines 379-386 *)
    [(0, 0, 10, 0); (1, 0, 10, 0); (2, 0, 10, 0); (0, 1, 10, 0); (1, 1, 10, 0); (2, 1, 10, 0)]
  | 6 => (* lines 388-409 *)
    [(0, 0, 10, 0); (1, 0, 10, 0); (2, 0, 10, 0); (0, 1, 4, 0); (0, 0, 1, 10); (1, 3, 1, 4);
     (1, 2, 4, 0); (1, 1, 5, 0); (1, 0, 1, 10); (1, 3, 4, 0); (2, 1, 4, 0); (2, 0, 1, 10);
     (2, 3, 1, 1); (2, 2, 4, 0); (0, 2, 4, 0); (2, 3, 1, 0); (2, 3, 1, 2); (0, 3, 4, 0);
     (1, 2, 1, 4); (2, 3, 1, 3)]
  | 7 => (* lines 411-421 *)
    [(0, 0, 10, 0); (1, 0, 10, 0); (2, 0, 10, 0); (0, 1, 9, 0); (0, 0, 1, 10); (1, 1, 9, 0);
     (1, 0, 1, 10); (2, 1, 9, 0); (2, 0, 1, 10)]
  | 10 => (* lines 423-444 *)
    [(0, 0, 10, 0); (1, 0, 10, 0); (2, 0, 10, 0); (0, 1, 4, 0); (0, 0, 1, 10); (2, 2, 1, 4);
     (1, 2, 4, 0); (1, 1, 4, 0); (1, 0, 1, 10); (2, 3, 1, 0); (1, 3, 4, 0); (2, 1, 5, 0);
     (2, 0, 1, 10); (2, 2, 4, 0); (0, 2, 4, 0); (2, 3, 1, 1); (2, 3, 1, 2); (0, 3, 4, 0);
     (2, 3, 1, 4); (2, 3, 1, 3)]
  | 11 => (* lines 446-459 *)
    [(0, 0, 10, 0); (1, 0, 10, 0); (2, 0, 10, 0); (0, 1, 8, 0); (0, 0, 1, 11); (0, 0, 1, 10);
     (1, 1, 8, 0); (1, 0, 1, 11); (1, 0, 1, 10); (2, 1, 8, 0); (2, 0, 1, 11); (2, 0, 1, 10)]
  | 14 => (* lines 461-481 *)
    [(0, 0, 9, 0); (2, 2, 1, 4); (1, 0, 9, 0); (1, 2, 1, 4); (2, 0, 9, 0); (2, 3, 1, 4);
     (0, 1, 5, 0); (1, 3, 1, 4); (1, 2, 4, 0); (1, 1, 5, 0); (2, 3, 1, 0); (1, 3, 4, 0);
     (2, 1, 5, 0); (2, 3, 1, 1); (2, 2, 4, 0); (0, 2, 5, 0); (2, 3, 1, 2); (0, 3, 5, 0);
     (2, 3, 1, 3)]
  | 15 => (* lines 483-508 *)
    [(0, 0, 10, 0); (1, 0, 10, 0); (2, 0, 10, 0); (0, 1, 4, 0); (0, 0, 1, 15); (0, 0, 1, 14);
     (0, 0, 1, 13); (0, 0, 1, 12); (0, 0, 1, 11); (0, 0, 1, 10); (1, 1, 4, 0); (1, 0, 1, 15);
     (1, 0, 1, 14); (1, 0, 1, 13); (1, 0, 1, 12); (1, 0, 1, 11); (1, 0, 1, 10); (2, 1, 4, 0);
     (2, 0, 1, 15); (2, 0, 1, 14); (2, 0, 1, 13); (2, 0, 1, 12); (2, 0, 1, 11); (2, 0, 1, 10)]
  | 18 => (* lines 510-530 *)
    [(0, 0, 8, 0); (1, 3, 1, 4); (2, 2, 1, 4); (1, 0, 8, 0); (2, 3, 1, 2); (1, 2, 1, 4);
     (2, 0, 8, 0); (2, 3, 1, 3); (2, 3, 1, 4); (0, 1, 6, 0); (1, 2, 4, 0); (1, 1, 5, 0);
     (2, 3, 1, 0); (1, 3, 4, 0); (2, 1, 5, 0); (2, 3, 1, 1); (2, 2, 4, 0); (0, 2, 6, 0);
     (0, 3, 6, 0)]
  | 22 => (* lines 532-554 *)
    [(0, 0, 8, 0); (2, 3, 1, 0); (2, 2, 1, 4); (1, 0, 8, 0); (1, 2, 1, 5); (1, 2, 1, 4);
     (2, 0, 8, 0); (1, 3, 1, 5); (2, 3, 1, 4); (0, 1, 5, 0); (1, 3, 1, 4); (1, 2, 4, 0);
     (1, 1, 6, 0); (1, 3, 4, 0); (2, 1, 5, 0); (2, 3, 1, 1); (2, 2, 4, 0); (0, 2, 5, 0);
     (2, 3, 1, 2); (0, 3, 5, 0); (2, 3, 1, 3)]
  | 26 => (* lines 556-578 *)
    [(0, 0, 8, 0); (2, 3, 1, 1); (2, 2, 1, 4); (1, 0, 8, 0); (2, 2, 1, 5); (1, 2, 1, 4);
     (2, 0, 8, 0); (2, 3, 1, 5); (2, 3, 1, 4); (0, 1, 5, 0); (1, 3, 1, 4); (1, 2, 4, 0);
     (1, 1, 5, 0); (2, 3, 1, 0); (1, 3, 4, 0); (2, 1, 6, 0); (2, 2, 4, 0); (0, 2, 5, 0);
     (2, 3, 1, 2); (0, 3, 5, 0); (2, 3, 1, 3)]
  | 30 => (* lines 580-604 *)
    [(0, 0, 6, 0); (1, 3, 1, 4); (2, 3, 1, 0); (2, 3, 1, 1); (2, 2, 1, 4); (1, 0, 6, 0);
     (1, 2, 1, 5); (2, 2, 1, 5); (2, 3, 1, 2); (1, 2, 1, 4); (2, 0, 6, 0); (1, 3, 1, 5);
     (2, 3, 1, 3); (2, 3, 1, 5); (2, 3, 1, 4); (0, 1, 6, 0); (1, 2, 4, 0); (1, 1, 6, 0);
     (1, 3, 4, 0); (2, 1, 6, 0); (2, 2, 4, 0); (0, 2, 6, 0); (0, 3, 6, 0)]
  | _ => []
  end.

Section WithBuild.
Context (m : build).

(** src/bcn/bc6.rs lines 275-312: `unquantize`. *)
Definition unquantize (value : Z) (signed : bool) (eb : Z) : res Z :=
  let* k := ua m 64 (eb - 1) in
  let* max_value := ushl m 16 1 k in
  if signed then
    if 16 <=? eb then Ok value else
    let sign := negb (Z.land value 0x8000 =? 0) in
    let value := Z.land value 0x7fff in
    let* unq :=
      if value =? 0 then Ok 0 else
      let* mx := ua m 16 (max_value - 1) in
      if mx <=? value then Ok 0x7fff else
      let* x := ushl m 32 value 15 in
      let* x := ua m 32 (x + 0x4000) in
      let* k := ua m 64 (eb - 1) in
      let* x := ushr m 32 x k in
      Ok (u16 x) in
    if sign then
      let* d := ua m 16 (65535 - unq) in
      ua m 16 (d + 1)
    else Ok unq
  else if 15 <=? eb then Ok value
  else if value =? 0 then Ok 0
  else if value =? max_value then Ok 65535
  else
    let* x := ushl m 32 value 15 in
    let* x := ua m 32 (x + 0x4000) in
    let* k := ua m 64 (eb - 1) in
    let* x := ushr m 32 x k in
    Ok (u16 x).

(** src/bcn/bc6.rs lines 314-321: `finish_unquantize`. *)
Definition finish_unquantize (value : Z) (signed : bool) : res Z :=
  if signed then
    let sign := Z.land value 0x8000 in
    let* x := ua m 32 (Z.land value 0x7fff * 31) in
    let* x := ushr m 32 x 5 in
    Ok (Z.lor (u16 x) sign)
  else
    let* x := ua m 32 (value * 31) in
    let* x := ushr m 32 x 6 in
    Ok (u16 x).

(** src/bcn/bc6.rs lines 323-326: `sign_extend`. *)
Definition sign_extend (value num_bits : Z) : res Z :=
  let* k := ua m 64 (num_bits - 1) in
  let* mask := ushl m 16 1 k in
  Ok (u16 (Z.lxor value mask - mask)).

(** src/bcn/bc6.rs:660-696:
    The arrays `ep_r`, `ep_g`, `ep_b` are kept in one list of three lists;
    `ep_c[i] = f(ep_c[i])`. *)
Definition map_ep (eps : list (list Z)) (c i : Z) (f : Z -> res Z) : res (list (list Z)) :=
  let* a := idx eps c in
  let* v := idx a i in
  let* v := f v in
  let* a := upd a i v in
  upd eps c a.

(** src/bcn/bc6.rs lines 357-657: one `ep_c[i] |= bit.read(n) << s`. *)
Definition bc6_read_one (data : list Z) (r : Z * Z * Z * Z) (st : list (list Z) * Z) : res (list (list Z) * Z) :=
  let '(c, i, n, s) := r in
  let '(eps, pos) := st in
  let* (v, pos) := read m data pos n in
  let* v := ushl m 16 v s in
  let* eps := map_ep eps c i (fun x => Ok (Z.lor x v)) in
  Ok (eps, pos).

(** src/bcn/bc6.rs lines 662-666, 672-674, 684-688: sign extension of component
    [i] of the three channels. *)
Definition bc6_sign_extend (bits : list Z) (i : Z) (eps : list (list Z)) : res (list (list Z)) :=
  for_range 0 3 (fun c eps =>
    let* n := idx bits c in
    map_ep eps c i (fun v => sign_extend v n)) eps.

(** src/bcn/bc6.rs lines 670-690: the closure of the delta loop. *)
Definition bc6_delta (mi : Bc6hModeInfo) (signed : bool) (ii : Z) (eps : list (list Z)) : res (list (list Z)) :=
  let eb := endpoint_bits mi in
  let* eps := if signed || transformed mi then bc6_sign_extend (delta_bits mi) ii eps else Ok eps in
  if transformed mi then
    let* one := ushl m 16 1 eb in
    let* mask := ua m 16 (one - 1) in
    let* eps :=
      for_range 0 3 (fun c eps =>
        let* a := idx eps c in
        let* v0 := idx a 0 in
        map_ep eps c ii (fun v => Ok (Z.land (u16 (v + v0)) mask))) eps in
    if signed then bc6_sign_extend [eb; eb; eb] ii eps else Ok eps
  else Ok eps.

(** src/bcn/bc6.rs lines 731-746: `(ep[s] as u32 * fca + ep[s + 1] as u32 * fcb + 32) >> 6) as u16`. *)
Definition bc6_mix (ep : list Z) (s fca fcb : Z) : res Z :=
  let* e0 := idx ep s in
  let* x := ua m 32 (e0 * fca) in
  let* s1 := ua m 64 (s + 1) in
  let* e1 := idx ep s1 in
  let* y := ua m 32 (e1 * fcb) in
  let* z := ua m 32 (x + y) in
  let* z := ua m 32 (z + 32) in
  let* z := ushr m 32 z 6 in
  Ok (u16 z).
(** src/bcn/bc6.rs:731-747: one channel of a texel *)
Definition bc6_channel (eps : list (list Z)) (c s fca fcb : Z) (signed : bool) : res Z :=
  let* ep := idx eps c in
  let* x := bc6_mix ep s fca fcb in
  let* h := finish_unquantize x signed in
  Ok (f16_to_u8 h).

(** src/bcn/bc6.rs lines 707-748: one texel; state: output and bit position. *)
Definition bc6_texel_body (data : list Z) (mi : Bc6hModeInfo) (signed : bool) (part ib : Z) (eps : list (list Z))
    (factors : list Z) (yy xx : Z) (st : list Z * Z) : res (list Z * Z) :=
  let '(outbuf, pos) := st in
  let* i := ua m 64 (yy * 4) in
  let* i := ua m 64 (i + xx) in
  let* (subset, anchor_i) :=
    if negb (partition_bits6 mi =? 0) then
      let* p := idx S_BPTC_P2 part in
      let* s := ushr m 64 p i in
      let s := Z.land s 1 in
      let* a := if negb (s =? 0) then idx S_BPTC_A2 part else Ok 0 in
      Ok (s, a)
    else Ok (0, 0) in
  let anchor := if i =? anchor_i then 1 else 0 in
  let* num := ua m 64 (ib - anchor) in
  let* (index, pos) := read m data pos num in
  let* fc := idx factors index in
  let* fca := ua m 32 (64 - fc) in
  let* s := ua m 64 (subset * 2) in
  let* rr := bc6_channel eps 0 s fca fc signed in
  let* gg := bc6_channel eps 1 s fca fc signed in
  let* bb := bc6_channel eps 2 s fca fc signed in
  let* outbuf := upd outbuf i (color rr gg bb 255) in
  Ok (outbuf, pos).

(** src/bcn/bc6.rs lines 339-750: `decode_bc6_block`. *)
Definition decode_bc6_block (data outbuf : list Z) (signed : bool) : res (list Z) :=
  let* (mode, pos) := read m data 0 2 in
  let mode := u8 mode in
  let eps := [[0; 0; 0; 0]; [0; 0; 0; 0]; [0; 0; 0; 0]] in
  let* (mode, pos, reserved) :=
    if negb (Z.land mode 2 =? 0) then
      let* (x, pos) := read m data pos 3 in
      let* x := ushl m 16 x 2 in
      let mode := Z.lor mode (u8 x) in
      let* mi := idx S_BC6H_MODE_INFO mode in
      Ok (mode, pos, endpoint_bits mi =? 0)
    else Ok (mode, pos, false) in
  if reserved : bool then copy_into outbuf 0 (repeat 0 16) else
  let* (eps, pos) := for_list (bc6_reads mode) (bc6_read_one data) (eps, pos) in
  let* mi := idx S_BC6H_MODE_INFO mode in
  let eb := endpoint_bits mi in
  let* eps := if signed then bc6_sign_extend [eb; eb; eb] 0 eps else Ok eps in
  let num_subsets := if negb (partition_bits6 mi =? 0) then 2 else 1 in
  let* eps := for_range 1 (num_subsets * 2) (bc6_delta mi signed) eps in
  let* eps :=
    for_range 0 (num_subsets * 2) (fun ii eps =>
      for_range 0 3 (fun c eps => map_ep eps c ii (fun v => unquantize v signed eb)) eps) eps in
  let* (part, pos) := if negb (partition_bits6 mi =? 0) then read m data pos 5 else Ok (0, pos) in
  let ib := if negb (partition_bits6 mi =? 0) then 3 else 4 in
  let* k := ua m 64 (ib - 2) in
  let* factors := idx S_BPTC_FACTORS k in
  let* (outbuf, _) :=
    for_range 0 4 (fun yy st =>
      for_range 0 4 (fun xx st =>
        bc6_texel_body data mi signed part ib eps factors yy xx st) st) (outbuf, pos) in
  Ok outbuf.

(** src/bcn/bc6.rs lines 752-760. *)
Definition decode_bc6_block_signed (data outbuf : list Z) : res (list Z) := decode_bc6_block data outbuf true.
(** src/bcn/bc6.rs:758-760 *)
Definition decode_bc6_block_unsigned (data outbuf : list Z) : res (list Z) := decode_bc6_block data outbuf false.

(** src/bcn.rs lines 27-28. *)
Definition decode_bc6_signed := block_decoder m 4 4 16 decode_bc6_block_signed.
(** src/bcn.rs:28 *)
Definition decode_bc6_unsigned := block_decoder m 4 4 16 decode_bc6_block_unsigned.

(** src/bcn.rs lines 31-42: `decode_bc6`. *)
Definition decode_bc6 (data : list Z) (width height : Z) (image : list Z) (signed : bool) : res (status * list Z) :=
  if signed then decode_bc6_signed data width height image
  else decode_bc6_unsigned data width height image.

End WithBuild.
