(** * Model of src/bitreader.rs *)
From Verif Require Import Base.

Section WithBuild.
Context (m : build).

(** src/bitreader.rs lines 1-6: `getbits_raw`; returns the updated `dst`. *)
Definition getbits_raw (buf : list Z) (bit_offset num_bits : Z) (dst : list Z) : res (list Z) :=
  let bytes_offset := bit_offset / 8 in
  let* s := ua m 64 (bit_offset + num_bits) in
  let bytes_end := div_ceil s 8 in
  let* n := ua m 64 (bytes_end - bytes_offset) in
  let* _ := slice dst 0 n in
  let* src := slice buf bytes_offset bytes_end in
  copy_into dst 0 src.

(** src/bitreader.rs lines 8-17: `getbits`.  `i32::from_le_bytes` and an
    arithmetic shift. *)
Definition getbits (buf : list Z) (bit_offset num_bits : Z) : res Z :=
  let shift := bit_offset mod 8 in
  let* raw := getbits_raw buf bit_offset num_bits [0; 0; 0; 0] in
  let* k := sh_amt m 32 shift in
  let* one := ishl m 32 1 num_bits in
  let* mask := ia m 32 (one - 1) in
  Ok (Z.land (Z.shiftr (swrap 32 (le_bytes raw)) k) mask).

(** src/bitreader.rs:29-37:
    `u64::from_le_bytes(buf[a..a + 8].try_into().unwrap())` *)
Definition word64 (buf : list Z) (a : Z) : res Z :=
  let* s := slice buf a (a + 8) in Ok (le_bytes s).

(** src/bitreader.rs lines 19-39: `getbits64` (`bit` is signed).  The shift
    amounts of the first, second and last branch are isize / u64 / isize
    expressions. *)
Definition getbits64 (buf : list Z) (bit len : Z) : res Z :=
  let* mask :=
    if len =? 64 then Ok 0xffffffffffffffff else
    let* one := ushl m 64 1 len in
    ua m 64 (one - 1) in
  if len =? 0 then Ok 0 else
  if 64 <=? bit then
    let* w := word64 buf 8 in
    let* x := ushr m 64 w (bit - 64) in
    Ok (Z.land x mask)
  else if bit <=? 0 then
    let* w := word64 buf 0 in
    let* x := ushl m 64 w (u64 (- u64 bit)) in
    Ok (Z.land x mask)
  else
    let* e := ua m 64 (bit + len) in
    if e <=? 64 then
      let* w := word64 buf 0 in
      let* x := ushr m 64 w bit in
      Ok (Z.land x mask)
    else
      let* w := word64 buf 0 in
      let* x := ushr m 64 w bit in
      let* w' := word64 buf 8 in
      let* y := ushl m 64 w' (64 - bit) in
      Ok (Z.lor x (Z.land y mask)).

(** src/bitreader.rs lines 41-69: `BitReader`.  The reader is the pair of
    [data] and the bit position; `peek` (lines 59-68). *)
Definition peek (data : list Z) (pos offset num_bits : Z) : res Z :=
  let* bit_pos := ua m 64 (pos + offset) in
  let shift := Z.land bit_pos 7 in
  let* raw := getbits_raw data bit_pos num_bits [0; 0; 0; 0] in
  let* x := ushr m 32 (le_bytes raw) shift in
  let* one := ushl m 16 1 (u16 num_bits) in
  let* mask := ua m 16 (one - 1) in
  Ok (Z.land (u16 x) mask).

(** src/bitreader.rs lines 52-57: `read`: value and new position. *)
Definition read (data : list Z) (pos num_bits : Z) : res (Z * Z) :=
  let* ret := peek data pos 0 num_bits in
  let* pos := ua m 64 (pos + num_bits) in
  Ok (ret, pos).

End WithBuild.
