(** * Model of src/astc.rs
    Values of the Rust arrays are lists of [Z].  i32/u64 arithmetic on numbers
    that are built from a few masked bits (block mode, unquantization, colour
    end points, partition hash seeds) is written without an overflow check:
    the operands are below 2^20, see the ranges proved in ProofAstc*.v;
    everything that depends on positions inside the block (usize subtraction,
    slices, shifts) is checked. *)
From Verif Require Import Base ModelColor ModelBits ModelF16.

(** src/astc.rs lines 16-33: `BIT_REVERSE_TABLE`. *)
Definition BIT_REVERSE_TABLE : list Z :=
  [0; 128; 64; 192; 32; 160; 96; 224; 16; 144; 80; 208; 48; 176; 112; 240; 8; 136; 72; 200; 40;
   168; 104; 232; 24; 152; 88; 216; 56; 184; 120; 248; 4; 132; 68; 196; 36; 164; 100; 228; 20;
   148; 84; 212; 52; 180; 116; 244; 12; 140; 76; 204; 44; 172; 108; 236; 28; 156; 92; 220; 60;
   188; 124; 252; 2; 130; 66; 194; 34; 162; 98; 226; 18; 146; 82; 210; 50; 178; 114; 242; 10;
   138; 74; 202; 42; 170; 106; 234; 26; 154; 90; 218; 58; 186; 122; 250; 6; 134; 70; 198; 38;
   166; 102; 230; 22; 150; 86; 214; 54; 182; 118; 246; 14; 142; 78; 206; 46; 174; 110; 238; 30;
   158; 94; 222; 62; 190; 126; 254; 1; 129; 65; 193; 33; 161; 97; 225; 17; 145; 81; 209; 49;
   177; 113; 241; 9; 137; 73; 201; 41; 169; 105; 233; 25; 153; 89; 217; 57; 185; 121; 249; 5;
   133; 69; 197; 37; 165; 101; 229; 21; 149; 85; 213; 53; 181; 117; 245; 13; 141; 77; 205; 45;
   173; 109; 237; 29; 157; 93; 221; 61; 189; 125; 253; 3; 131; 67; 195; 35; 163; 99; 227; 19;
   147; 83; 211; 51; 179; 115; 243; 11; 139; 75; 203; 43; 171; 107; 235; 27; 155; 91; 219; 59;
   187; 123; 251; 7; 135; 71; 199; 39; 167; 103; 231; 23; 151; 87; 215; 55; 183; 119; 247; 15;
   143; 79; 207; 47; 175; 111; 239; 31; 159; 95; 223; 63; 191; 127; 255].

(** src/astc.rs lines 35-36: `WEIGHT_PREC_TABLE_A`, `WEIGHT_PREC_TABLE_B`. *)
Definition WEIGHT_PREC_TABLE_A : list Z := [0; 0; 0; 3; 0; 5; 3; 0; 0; 0; 5; 3; 0; 5; 3; 0].
(** src/astc.rs:36 *)
Definition WEIGHT_PREC_TABLE_B : list Z := [0; 0; 1; 0; 2; 0; 1; 3; 0; 0; 1; 2; 4; 2; 3; 5].

(** src/astc.rs lines 38-39: `CEM_TABLE_A`, `CEM_TABLE_B`. *)
Definition CEM_TABLE_A : list Z := [0; 3; 5; 0; 3; 5; 0; 3; 5; 0; 3; 5; 0; 3; 5; 0; 3; 0; 0].
(** src/astc.rs:39 *)
Definition CEM_TABLE_B : list Z := [8; 6; 5; 7; 5; 4; 6; 4; 3; 5; 3; 2; 4; 2; 1; 3; 1; 2; 1].

(** src/astc.rs lines 313-314: `MT`, `MQ` of `decode_intseq`. *)
Definition MT : list Z := [0; 2; 4; 5; 7].
(** src/astc.rs:314 *)
Definition MQ : list Z := [0; 3; 5].

(** src/astc.rs lines 315-371: `TRITS_TABLE` of `decode_intseq`. *)
Definition TRITS_TABLE : list (list Z) :=
  [[0; 1; 2; 0; 0; 1; 2; 1; 0; 1; 2; 2; 0; 1; 2; 2; 0; 1; 2; 0; 0; 1; 2; 1; 0; 1; 2; 2; 0; 1; 2;
    0; 0; 1; 2; 0; 0; 1; 2; 1; 0; 1; 2; 2; 0; 1; 2; 2; 0; 1; 2; 0; 0; 1; 2; 1; 0; 1; 2; 2; 0;
    1; 2; 1; 0; 1; 2; 0; 0; 1; 2; 1; 0; 1; 2; 2; 0; 1; 2; 2; 0; 1; 2; 0; 0; 1; 2; 1; 0; 1; 2;
    2; 0; 1; 2; 2; 0; 1; 2; 0; 0; 1; 2; 1; 0; 1; 2; 2; 0; 1; 2; 2; 0; 1; 2; 0; 0; 1; 2; 1; 0;
    1; 2; 2; 0; 1; 2; 2; 0; 1; 2; 0; 0; 1; 2; 1; 0; 1; 2; 2; 0; 1; 2; 2; 0; 1; 2; 0; 0; 1; 2;
    1; 0; 1; 2; 2; 0; 1; 2; 0; 0; 1; 2; 0; 0; 1; 2; 1; 0; 1; 2; 2; 0; 1; 2; 2; 0; 1; 2; 0; 0;
    1; 2; 1; 0; 1; 2; 2; 0; 1; 2; 1; 0; 1; 2; 0; 0; 1; 2; 1; 0; 1; 2; 2; 0; 1; 2; 2; 0; 1; 2;
    0; 0; 1; 2; 1; 0; 1; 2; 2; 0; 1; 2; 2; 0; 1; 2; 0; 0; 1; 2; 1; 0; 1; 2; 2; 0; 1; 2; 2; 0;
    1; 2; 0; 0; 1; 2; 1; 0; 1; 2; 2; 0; 1; 2; 2];
   [0; 0; 0; 0; 1; 1; 1; 0; 2; 2; 2; 0; 2; 2; 2; 0; 0; 0; 0; 1; 1; 1; 1; 1; 2; 2; 2; 1; 0; 0; 0;
    0; 0; 0; 0; 0; 1; 1; 1; 0; 2; 2; 2; 0; 2; 2; 2; 0; 0; 0; 0; 1; 1; 1; 1; 1; 2; 2; 2; 1; 1;
    1; 1; 0; 0; 0; 0; 0; 1; 1; 1; 0; 2; 2; 2; 0; 2; 2; 2; 0; 0; 0; 0; 1; 1; 1; 1; 1; 2; 2; 2;
    1; 2; 2; 2; 0; 0; 0; 0; 0; 1; 1; 1; 0; 2; 2; 2; 0; 2; 2; 2; 0; 0; 0; 0; 1; 1; 1; 1; 1; 2;
    2; 2; 1; 2; 2; 2; 0; 0; 0; 0; 0; 1; 1; 1; 0; 2; 2; 2; 0; 2; 2; 2; 0; 0; 0; 0; 1; 1; 1; 1;
    1; 2; 2; 2; 1; 0; 0; 0; 1; 0; 0; 0; 0; 1; 1; 1; 0; 2; 2; 2; 0; 2; 2; 2; 0; 0; 0; 0; 1; 1;
    1; 1; 1; 2; 2; 2; 1; 1; 1; 1; 1; 0; 0; 0; 0; 1; 1; 1; 0; 2; 2; 2; 0; 2; 2; 2; 0; 0; 0; 0;
    1; 1; 1; 1; 1; 2; 2; 2; 1; 2; 2; 2; 1; 0; 0; 0; 0; 1; 1; 1; 0; 2; 2; 2; 0; 2; 2; 2; 0; 0;
    0; 0; 1; 1; 1; 1; 1; 2; 2; 2; 1; 2; 2; 2; 1];
   [0; 0; 0; 2; 0; 0; 0; 2; 0; 0; 0; 2; 2; 2; 2; 2; 1; 1; 1; 2; 1; 1; 1; 2; 1; 1; 1; 2; 0; 0; 0;
    2; 0; 0; 0; 2; 0; 0; 0; 2; 0; 0; 0; 2; 2; 2; 2; 2; 1; 1; 1; 2; 1; 1; 1; 2; 1; 1; 1; 2; 0;
    0; 0; 2; 0; 0; 0; 2; 0; 0; 0; 2; 0; 0; 0; 2; 2; 2; 2; 2; 1; 1; 1; 2; 1; 1; 1; 2; 1; 1; 1;
    2; 0; 0; 0; 2; 0; 0; 0; 2; 0; 0; 0; 2; 0; 0; 0; 2; 2; 2; 2; 2; 1; 1; 1; 2; 1; 1; 1; 2; 1;
    1; 1; 2; 2; 2; 2; 2; 0; 0; 0; 2; 0; 0; 0; 2; 0; 0; 0; 2; 2; 2; 2; 2; 1; 1; 1; 2; 1; 1; 1;
    2; 1; 1; 1; 2; 1; 1; 1; 2; 0; 0; 0; 2; 0; 0; 0; 2; 0; 0; 0; 2; 2; 2; 2; 2; 1; 1; 1; 2; 1;
    1; 1; 2; 1; 1; 1; 2; 1; 1; 1; 2; 0; 0; 0; 2; 0; 0; 0; 2; 0; 0; 0; 2; 2; 2; 2; 2; 1; 1; 1;
    2; 1; 1; 1; 2; 1; 1; 1; 2; 1; 1; 1; 2; 0; 0; 0; 2; 0; 0; 0; 2; 0; 0; 0; 2; 2; 2; 2; 2; 1;
    1; 1; 2; 1; 1; 1; 2; 1; 1; 1; 2; 2; 2; 2; 2];
   [0; 0; 0; 0; 0; 0; 0; 0; 0; 0; 0; 0; 0; 0; 0; 0; 0; 0; 0; 0; 0; 0; 0; 0; 0; 0; 0; 0; 2; 2; 2;
    2; 1; 1; 1; 1; 1; 1; 1; 1; 1; 1; 1; 1; 1; 1; 1; 1; 1; 1; 1; 1; 1; 1; 1; 1; 1; 1; 1; 1; 2;
    2; 2; 2; 2; 2; 2; 2; 2; 2; 2; 2; 2; 2; 2; 2; 2; 2; 2; 2; 2; 2; 2; 2; 2; 2; 2; 2; 2; 2; 2;
    2; 2; 2; 2; 2; 0; 0; 0; 0; 0; 0; 0; 0; 0; 0; 0; 0; 0; 0; 0; 0; 0; 0; 0; 0; 0; 0; 0; 0; 0;
    0; 0; 0; 2; 2; 2; 2; 0; 0; 0; 0; 0; 0; 0; 0; 0; 0; 0; 0; 0; 0; 0; 0; 0; 0; 0; 0; 0; 0; 0;
    0; 0; 0; 0; 0; 2; 2; 2; 2; 1; 1; 1; 1; 1; 1; 1; 1; 1; 1; 1; 1; 1; 1; 1; 1; 1; 1; 1; 1; 1;
    1; 1; 1; 1; 1; 1; 1; 2; 2; 2; 2; 2; 2; 2; 2; 2; 2; 2; 2; 2; 2; 2; 2; 2; 2; 2; 2; 2; 2; 2;
    2; 2; 2; 2; 2; 2; 2; 2; 2; 2; 2; 2; 2; 1; 1; 1; 1; 1; 1; 1; 1; 1; 1; 1; 1; 1; 1; 1; 1; 1;
    1; 1; 1; 1; 1; 1; 1; 1; 1; 1; 1; 2; 2; 2; 2];
   [0; 0; 0; 0; 0; 0; 0; 0; 0; 0; 0; 0; 0; 0; 0; 0; 0; 0; 0; 0; 0; 0; 0; 0; 0; 0; 0; 0; 2; 2; 2;
    2; 0; 0; 0; 0; 0; 0; 0; 0; 0; 0; 0; 0; 0; 0; 0; 0; 0; 0; 0; 0; 0; 0; 0; 0; 0; 0; 0; 0; 2;
    2; 2; 2; 0; 0; 0; 0; 0; 0; 0; 0; 0; 0; 0; 0; 0; 0; 0; 0; 0; 0; 0; 0; 0; 0; 0; 0; 0; 0; 0;
    0; 2; 2; 2; 2; 2; 2; 2; 2; 2; 2; 2; 2; 2; 2; 2; 2; 2; 2; 2; 2; 2; 2; 2; 2; 2; 2; 2; 2; 2;
    2; 2; 2; 2; 2; 2; 2; 1; 1; 1; 1; 1; 1; 1; 1; 1; 1; 1; 1; 1; 1; 1; 1; 1; 1; 1; 1; 1; 1; 1;
    1; 1; 1; 1; 1; 2; 2; 2; 2; 1; 1; 1; 1; 1; 1; 1; 1; 1; 1; 1; 1; 1; 1; 1; 1; 1; 1; 1; 1; 1;
    1; 1; 1; 1; 1; 1; 1; 2; 2; 2; 2; 1; 1; 1; 1; 1; 1; 1; 1; 1; 1; 1; 1; 1; 1; 1; 1; 1; 1; 1;
    1; 1; 1; 1; 1; 1; 1; 1; 1; 2; 2; 2; 2; 2; 2; 2; 2; 2; 2; 2; 2; 2; 2; 2; 2; 2; 2; 2; 2; 2;
    2; 2; 2; 2; 2; 2; 2; 2; 2; 2; 2; 2; 2; 2; 2]].

(** src/astc.rs lines 372-397: `QUINTS_TABLE` of `decode_intseq`. *)
Definition QUINTS_TABLE : list (list Z) :=
  [[0; 1; 2; 3; 4; 0; 4; 4; 0; 1; 2; 3; 4; 1; 4; 4; 0; 1; 2; 3; 4; 2; 4; 4; 0; 1; 2; 3; 4; 3; 4;
    4; 0; 1; 2; 3; 4; 0; 4; 0; 0; 1; 2; 3; 4; 1; 4; 1; 0; 1; 2; 3; 4; 2; 4; 2; 0; 1; 2; 3; 4;
    3; 4; 3; 0; 1; 2; 3; 4; 0; 2; 3; 0; 1; 2; 3; 4; 1; 2; 3; 0; 1; 2; 3; 4; 2; 2; 3; 0; 1; 2;
    3; 4; 3; 2; 3; 0; 1; 2; 3; 4; 0; 0; 1; 0; 1; 2; 3; 4; 1; 0; 1; 0; 1; 2; 3; 4; 2; 0; 1; 0;
    1; 2; 3; 4; 3; 0; 1];
   [0; 0; 0; 0; 0; 4; 4; 4; 1; 1; 1; 1; 1; 4; 4; 4; 2; 2; 2; 2; 2; 4; 4; 4; 3; 3; 3; 3; 3; 4; 4;
    4; 0; 0; 0; 0; 0; 4; 0; 4; 1; 1; 1; 1; 1; 4; 1; 4; 2; 2; 2; 2; 2; 4; 2; 4; 3; 3; 3; 3; 3;
    4; 3; 4; 0; 0; 0; 0; 0; 4; 0; 0; 1; 1; 1; 1; 1; 4; 1; 1; 2; 2; 2; 2; 2; 4; 2; 2; 3; 3; 3;
    3; 3; 4; 3; 3; 0; 0; 0; 0; 0; 4; 0; 0; 1; 1; 1; 1; 1; 4; 1; 1; 2; 2; 2; 2; 2; 4; 2; 2; 3;
    3; 3; 3; 3; 4; 3; 3];
   [0; 0; 0; 0; 0; 0; 0; 4; 0; 0; 0; 0; 0; 0; 1; 4; 0; 0; 0; 0; 0; 0; 2; 4; 0; 0; 0; 0; 0; 0; 3;
    4; 1; 1; 1; 1; 1; 1; 4; 4; 1; 1; 1; 1; 1; 1; 4; 4; 1; 1; 1; 1; 1; 1; 4; 4; 1; 1; 1; 1; 1;
    1; 4; 4; 2; 2; 2; 2; 2; 2; 4; 4; 2; 2; 2; 2; 2; 2; 4; 4; 2; 2; 2; 2; 2; 2; 4; 4; 2; 2; 2;
    2; 2; 2; 4; 4; 3; 3; 3; 3; 3; 3; 4; 4; 3; 3; 3; 3; 3; 3; 4; 4; 3; 3; 3; 3; 3; 3; 4; 4; 3;
    3; 3; 3; 3; 3; 4; 4]].

(** src/astc.rs lines 64-66: `u8ptr_to_u16` (little-endian pair at the front). *)
Definition u8ptr_to_u16 (ptr : list Z) : res Z :=
  let* a := idx ptr 0 in
  let* b := idx ptr 1 in
  Ok (le_bytes [a; b]).

(** src/astc.rs:120-127, :164-171, :208-215, :1116, :1151, :1359:
    `x.clamp(lo, hi)` on integers (lo <= hi). *)
Definition clampz (lo hi x : Z) : Z := if x <? lo then lo else if hi <? x then hi else x.

(** src/astc.rs:78-84, :536-976, :1066-1365:
    `if c { a } else { b }` on an integer condition `x & mask != 0`. *)
Definition bit_set (x mask : Z) : bool := negb (Z.land x mask =? 0).

(** src/astc.rs:536-976, :1002-1149, :1391-1438, :1507-1542:
    `x << k` on `i32` for a literal amount k below 32. *)
Definition shl32 (x k : Z) : Z := swrap 32 (Z.shiftl x k).
(** src/astc.rs:51-58, :404, :462, :1503-1513:
    `x << k` on `u64` for a literal amount k below 64. *)
Definition shl64 (x k : Z) : Z := u64 (Z.shiftl x k).

Section WithBuild.
Context (m : build).

(** src/astc.rs lines 78-84: `bit_transfer_signed_alt`; the updated slice. *)
Definition bit_transfer_signed_alt (v : list Z) (a b : Z) : res (list Z) :=
  let* vb := idx v b in
  let* va := idx v a in
  let* v := upd v b (Z.lor (Z.shiftr vb 1) (Z.land va 0x80)) in
  let* va := idx v a in
  let* v := upd v a (Z.land (Z.shiftr va 1) 0x3f) in
  let* va := idx v a in
  if bit_set va 0x20 then let* x := ia m 32 (va - 0x40) in upd v a x else Ok v.

(** src/astc.rs lines 87-106 and 175-194: `set_endpoint`, `set_endpoint_hdr`
    (same body).  All eight components are overwritten, so the new end point
    row is returned. *)
Definition set_endpoint (r1 g1 b1 a1 r2 g2 b2 a2 : Z) : list Z :=
  [r1; g1; b1; a1; r2; g2; b2; a2].
(** src/astc.rs lines 109-128: `set_endpoint_clamp`. *)
Definition set_endpoint_clamp (r1 g1 b1 a1 r2 g2 b2 a2 : Z) : list Z :=
  map (clampz 0 255) [r1; g1; b1; a1; r2; g2; b2; a2].
(** src/astc.rs lines 131-150: `set_endpoint_blue`. *)
Definition set_endpoint_blue (r1 g1 b1 a1 r2 g2 b2 a2 : Z) : res (list Z) :=
  let* x1 := ia m 32 (r1 + b1) in
  let* y1 := ia m 32 (g1 + b1) in
  let* x2 := ia m 32 (r2 + b2) in
  let* y2 := ia m 32 (g2 + b2) in
  Ok [Z.shiftr x1 1; Z.shiftr y1 1; b1; a1; Z.shiftr x2 1; Z.shiftr y2 1; b2; a2].
(** src/astc.rs lines 153-172: `set_endpoint_blue_clamp`. *)
Definition set_endpoint_blue_clamp (r1 g1 b1 a1 r2 g2 b2 a2 : Z) : res (list Z) :=
  let* x1 := ia m 32 (r1 + b1) in
  let* y1 := ia m 32 (g1 + b1) in
  let* x2 := ia m 32 (r2 + b2) in
  let* y2 := ia m 32 (g2 + b2) in
  Ok (map (clampz 0 255)
        [Z.shiftr x1 1; Z.shiftr y1 1; b1; a1; Z.shiftr x2 1; Z.shiftr y2 1; b2; a2]).
(** src/astc.rs lines 197-216: `set_endpoint_hdr_clamp`. *)
Definition set_endpoint_hdr_clamp (r1 g1 b1 a1 r2 g2 b2 a2 : Z) : list Z :=
  map (clampz 0 0xfff) [r1; g1; b1; a1; r2; g2; b2; a2].

(** src/astc.rs lines 42-48: `bit_reverse_u8`.  `overflowing_shr(s)` returns
    the value shifted by s modulo 8 and whether s exceeds 7. *)
Definition bit_reverse_u8 (c bits : Z) : res Z :=
  let* r := idx BIT_REVERSE_TABLE c in
  let* s := ua m 32 (8 - bits) in
  if 7 <? s then Ok 0 else Ok (Z.shiftr r s).

(** src/astc.rs lines 51-61: `bit_reverse_u64`. *)
Definition bit_reverse_u64 (d bits : Z) : res Z :=
  let* b0 := idx BIT_REVERSE_TABLE (Z.land d 0xff) in
  let* b1 := idx BIT_REVERSE_TABLE (Z.land (Z.shiftr d 8) 0xff) in
  let* b2 := idx BIT_REVERSE_TABLE (Z.land (Z.shiftr d 16) 0xff) in
  let* b3 := idx BIT_REVERSE_TABLE (Z.land (Z.shiftr d 24) 0xff) in
  let* b4 := idx BIT_REVERSE_TABLE (Z.land (Z.shiftr d 32) 0xff) in
  let* b5 := idx BIT_REVERSE_TABLE (Z.land (Z.shiftr d 40) 0xff) in
  let* b6 := idx BIT_REVERSE_TABLE (Z.land (Z.shiftr d 48) 0xff) in
  let* b7 := idx BIT_REVERSE_TABLE (Z.land (Z.shiftr d 56) 0xff) in
  let ret := Z.lor (Z.lor (Z.lor (Z.lor (Z.lor (Z.lor (Z.lor (Z.shiftl b0 56) (Z.shiftl b1 48))
    (Z.shiftl b2 40)) (Z.shiftl b3 32)) (Z.shiftl b4 24)) (Z.shiftl b5 16)) (Z.shiftl b6 8)) b7 in
  let* s := ua m 64 (64 - bits) in
  ushr m 64 ret s.

(** src/astc.rs lines 221-224: `select_color`. *)
Definition select_color (v0 v1 weight : Z) : res Z :=
  let e0 := Z.lor (shl32 v0 8) v0 in
  let e1 := Z.lor (shl32 v1 8) v1 in
  let* w0 := ia m 32 (64 - weight) in
  let* a := ia m 32 (e0 * w0) in
  let* b := ia m 32 (e1 * weight) in
  let* s := ia m 32 (a + b) in
  let* s := ia m 32 (s + 32) in
  let* s := ia m 32 (Z.shiftr s 6 * 255) in
  let* s := ia m 32 (s + 32768) in
  Ok (u8 (Z.quot s 65536)).

(** src/astc.rs lines 227-243: `select_color_hdr`. *)
Definition select_color_hdr (v0 v1 weight : Z) : res Z :=
  let* w0 := ia m 32 (64 - weight) in
  let* a := ia m 32 (shl32 v0 4 * w0) in
  let* b := ia m 32 (shl32 v1 4 * weight) in
  let* s := ia m 32 (a + b) in
  let* s := ia m 32 (s + 32) in
  let c := u16 (Z.shiftr s 6) in
  let m0 := Z.land c 0x7ff in
  let* mm :=
    if m0 <? 512 then ua m 16 (m0 * 3)
    else if m0 <? 1536 then
      let* x := ua m 16 (4 * m0) in ua m 16 (x - 512)
    else
      let* x := ua m 16 (5 * m0) in ua m 16 (x - 2048) in
  let f := fp16_ieee_to_fp32_value (Z.lor (Z.land (Z.shiftr c 1) 0x7c00) (Z.shiftr mm 3)) in
  match f with
  | SpecFloat.S754_nan | SpecFloat.S754_infinity _ => Ok 255
  | _ =>
      let* x := floor_f32 m (f32_mul f f32_255) in
      Ok (clampz 0 255 (f32_as (- 2 ^ 31) (2 ^ 31 - 1) x))
  end.

(** src/astc.rs lines 251-255: `f16ptr_to_u8` on the slice starting at [o]. *)
Definition f16ptr_to_u8 (buf : list Z) (o : Z) : res Z :=
  let* ptr := slice_from buf o in
  let* a := idx ptr 0 in
  let* b := idx ptr 1 in
  astc_f16_to_u8 m (le_bytes [a; b]).

(** src/astc.rs lines 416-420 (= 446-450): the eight trit bits of a packed
    block [d] with [b] extra bits per value. *)
Definition trit_index (d b : Z) : res Z :=
  let* x0 := ushr m 64 d b in
  let* x1 := ushr m 64 d (b * 2) in
  let* x2 := ushr m 64 d (b * 3) in
  let* x3 := ushr m 64 d (b * 4) in
  let* x4 := ushr m 64 d (b * 5) in
  Ok (Z.lor (Z.lor (Z.lor (Z.lor (Z.land x0 3) (Z.land x1 0xc)) (Z.land x2 0x10))
        (Z.land x3 0x60)) (Z.land x4 0x80)).
(** src/astc.rs line 478 (= 499): the seven quint bits of a packed block. *)
Definition quint_index (d b : Z) : res Z :=
  let* x0 := ushr m 64 d b in
  let* x1 := ushr m 64 d (b * 2) in
  let* x2 := ushr m 64 d (b * 3) in
  Ok (Z.lor (Z.lor (Z.land x0 7) (Z.land x1 0x18)) (Z.land x2 0x60)).

(** src/astc.rs lines 411-459 and 470-508: the loop over the packed blocks, for
    [k] values per block (5 trits or 3 quints) with [ibits] packed bits
    ([index] extracts them, [offs] are the positions of the values,
    [table] the digits).  The four copies in the source (trits/quints,
    forward/reverse) differ only in these. *)
Definition packed_loop (buf : list Z) (offset b count : Z) (reverse : bool) (k ibits : Z)
    (index : Z -> Z -> res Z) (offs : list Z) (table : list (list Z)) (out : list (Z * Z))
  : res (list (Z * Z)) :=
  let* one := ushl m 64 1 b in
  let* mask := ua m 64 (one - 1) in
  let block_count := div_ceil count k in
  let last_block_count := (count + (k - 1)) mod k + 1 in
  let block_size := ibits + k * b in
  let last_block_size := div_ceil (block_size * last_block_count) k in
  let* (out, _, _) :=
    for_range 0 block_count (fun i '(out, n, p) =>
      let now_size := if i <? block_count - 1 then block_size else last_block_size in
      let* d :=
        if reverse then
          let* g := getbits64 m buf (p - now_size) now_size in
          bit_reverse_u64 g now_size
        else getbits64 m buf p now_size in
      let* x := index d b in
      let* (out, n) :=
        for_range 0 k (fun j '(out, n) =>
          if n <? count then
            let* o := idx offs j in
            let* s := ushr m 64 d (o + b * j) in
            let* row := idx table j in
            let* t := idx row x in
            let* out := upd out n (Z.land s mask, t) in
            Ok (out, n + 1)
          else Ok (out, n)) (out, n) in
      Ok (out, n, if reverse then p - block_size else p + block_size)) (out, 0, offset) in
  Ok out.

(** src/astc.rs lines 303-534: `decode_intseq`.  A sequence entry
    `IntSeqData { bits, nonbits }` is a pair. *)
Definition decode_intseq (buf : list Z) (offset a b count : Z) (reverse : bool)
    (out : list (Z * Z)) : res (list (Z * Z)) :=
  if count =? 0 then Ok out else
  if a =? 3 then packed_loop buf offset b count reverse 5 8 trit_index MT TRITS_TABLE out
  else if a =? 5 then packed_loop buf offset b count reverse 3 7 quint_index MQ QUINTS_TABLE out
  else
    let p0 := if reverse then offset - b else offset in
    let* (out, _) :=
      for_range 0 count (fun n '(out, p) =>
        let* g := getbits m buf (u64 p) b in
        let* v := if reverse then bit_reverse_u8 (u8 g) (u8 b) else Ok (u64 g) in
        let* out := upd out n (v, 0) in
        Ok (out, if reverse then p - b else p + b)) (out, p0) in
    Ok out.

(** src/astc.rs lines 257-273: the fields of `struct BlockData` that
    `decode_block_params` fills in. *)
Record BlockParams := mkParams {
  bp_width : Z;
  bp_height : Z;
  bp_part_num : Z;
  bp_dual_plane : bool;
  bp_plane_selector : Z;
  bp_weight_range : Z;
  bp_weight_num : Z;
  bp_cem : list Z;
  bp_cem_range : Z;
  bp_endpoint_value_num : Z
}.

(** src/astc.rs lines 537-588: weight grid of the block: dual plane flag,
    weight range, width and height. *)
Definition block_grid (buf : list Z) : res (bool * Z * Z * Z) :=
  let* b1 := idx buf 1 in
  let* b0 := idx buf 0 in
  let dual := bit_set b1 4 in
  let wr := Z.lor (Z.land (Z.shiftr b0 4) 1) (Z.land (u8 (Z.shiftl b1 2)) 8) in
  let* w16 := u8ptr_to_u16 buf in
  let a := Z.land (Z.shiftr b0 5) 3 in
  let bb := Z.land (Z.shiftr w16 7) 3 in
  if bit_set b0 3 then
    let wr := Z.lor wr (Z.land (u8 (Z.shiftl b0 1)) 6) in
    match Z.land b0 0xc with
    | 0 => Ok (dual, wr, bb + 4, a + 2)
    | 4 => Ok (dual, wr, bb + 8, a + 2)
    | 8 => Ok (dual, wr, a + 2, bb + 8)
    | 12 =>
        if bit_set b1 1 then Ok (dual, wr, Z.land (Z.shiftr b0 7) 1 + 2, a + 2)
        else Ok (dual, wr, a + 2, Z.land (Z.shiftr b0 7) 1 + 6)
    | _ => Ok (dual, wr, 0, 0)
    end
  else
    let wr := Z.lor wr (Z.land (Z.shiftr b0 1) 6) in
    match Z.land w16 0x180 with
    | 0 => Ok (dual, wr, 12, a + 2)
    | 0x80 => Ok (dual, wr, a + 2, 12)
    | 0x100 => Ok (false, Z.land wr 7, a + 6, Z.land (Z.shiftr b1 1) 3 + 6)
    | 0x180 => Ok (dual, wr, if bit_set b0 0x20 then 10 else 6, if bit_set b0 0x20 then 6 else 10)
    | _ => Ok (dual, wr, 0, 0)
    end.

(** src/astc.rs lines 600-610: number of weight bits; (A, B) are the entries of
    the weight precision tables. *)
Definition weight_bits_of (a b weight_num : Z) : Z :=
  if a =? 3 then weight_num * b + (weight_num * 8 + 4) / 5
  else if a =? 5 then weight_num * b + (weight_num * 7 + 2) / 3
  else weight_num * b.

(** src/astc.rs lines 670-683: number of end point bits for entry i of the
    colour tables. *)
Definition endpoint_bits_of (a b n : Z) : Z :=
  if a =? 3 then n * b + div_ceil (n * 8) 5
  else if a =? 5 then n * b + div_ceil (n * 7) 3
  else n * b.

(** src/astc.rs lines 668-688: the loop choosing `cem_range` (0 if nothing fits). *)
Fixpoint find_cem_range (i : Z) (ta tb : list Z) (n remain : Z) : Z :=
  match ta, tb with
  | a :: ta', b :: tb' =>
      if endpoint_bits_of a b n <=? remain then i else find_cem_range (i + 1) ta' tb' n remain
  | _, _ => 0
  end.

(** src/astc.rs lines 612-647: colour end point modes: `cem_base`, `cem`
    and `config_bits`. *)
Definition block_cem (buf : list Z) (part_num wb : Z) : res (Z * list Z * Z) :=
  let cem0 := [0; 0; 0; 0] in
  if part_num =? 1 then
    let* s := slice_from buf 1 in
    let* h := u8ptr_to_u16 s in
    let* cem := upd cem0 0 (Z.land (Z.shiftr h 5) 0xf) in
    Ok (0, cem, 17)
  else
    let* s := slice_from buf 2 in
    let* h := u8ptr_to_u16 s in
    let cem_base := Z.land (Z.shiftr h 7) 3 in
    let* b3 := idx buf 3 in
    if cem_base =? 0 then
      let c := Z.land (Z.shiftr b3 1) 0xf in
      let* cem := for_range 0 part_num (fun i cem => upd cem i c) cem0 in
      Ok (cem_base, cem, 29)
    else
      let* cem := for_range 0 part_num (fun i cem =>
        upd cem i (Z.shiftl (Z.land (Z.shiftr b3 (i + 1)) 1 + cem_base - 1) 2)) cem0 in
      let or_cem (cem : list Z) (i x : Z) : res (list Z) :=
        let* c := idx cem i in upd cem i (Z.lor c x) in
      let* cem :=
        match part_num with
        | 2 =>
            let* cem := or_cem cem 0 (Z.land (Z.shiftr b3 3) 3) in
            let* o := ua m 64 (126 - wb) in
            let* g := getbits m buf o 2 in
            or_cem cem 1 g
        | 3 =>
            let* cem := or_cem cem 0 (Z.land (Z.shiftr b3 4) 1) in
            let* o := ua m 64 (122 - wb) in
            let* g := getbits m buf o 2 in
            let* cem := or_cem cem 0 (Z.land g 2) in
            let* o := ua m 64 (124 - wb) in
            let* g := getbits m buf o 2 in
            let* cem := or_cem cem 1 g in
            let* o := ua m 64 (126 - wb) in
            let* g := getbits m buf o 2 in
            or_cem cem 2 g
        | 4 =>
            for_range 0 4 (fun i cem =>
              let* o := ua m 64 (120 + i * 2 - wb) in
              let* g := getbits m buf o 2 in
              or_cem cem i g) cem
        | _ => Ok cem
        end in
      Ok (cem_base, cem, 25 + part_num * 3).

(** src/astc.rs lines 536-689: `decode_block_params`. *)
Definition decode_block_params (buf : list Z) : res BlockParams :=
  let* (dual, wr, width, height) := block_grid buf in
  let* b1 := idx buf 1 in
  let part_num := Z.land (Z.shiftr b1 3) 3 + 1 in
  let weight_num := if dual then width * height * 2 else width * height in
  let* ta := idx WEIGHT_PREC_TABLE_A wr in
  let* tb := idx WEIGHT_PREC_TABLE_B wr in
  let wb := weight_bits_of ta tb weight_num in
  let* (cem_base, cem, config_bits) := block_cem buf part_num wb in
  let* (config_bits, plane) :=
    if dual then
      let* o :=
        if negb (cem_base =? 0) then
          let* x := ua m 64 (130 - wb) in ua m 64 (x - part_num * 3)
        else ua m 64 (126 - wb) in
      let* g := getbits m buf o 2 in
      Ok (config_bits + 2, g)
    else Ok (config_bits, 0) in
  let* r := ua m 64 (128 - config_bits) in
  let* remain := ua m 64 (r - wb) in
  let* evn := for_range 0 part_num (fun i n =>
    let* c := idx cem i in Ok (n + (Z.land (Z.shiftr c 1) 6 + 2))) 0 in
  let cem_range := find_cem_range 0 CEM_TABLE_A CEM_TABLE_B evn remain in
  Ok (mkParams width height part_num dual plane wr weight_num cem cem_range evn).

(** src/astc.rs lines 691-817: `decode_endpoints_hdr7`.  The
    three arms of the last match compute the same differences. *)
Definition decode_endpoints_hdr7 (v : list Z) : res (list Z) :=
  let* v0 := idx v 0 in
  let* v1 := idx v 1 in
  let* v2 := idx v 2 in
  let* v3 := idx v 3 in
  let modeval := Z.lor (Z.lor (Z.land (Z.shiftr v2 4) 0x8) (Z.land (Z.shiftr v1 5) 0x4)) (Z.shiftr v0 6) in
  let '(major_component, mode) :=
    if negb (Z.land modeval 0xc =? 0xc) then (Z.shiftr modeval 2, Z.land modeval 3)
    else if negb (modeval =? 0xf) then (Z.land modeval 3, 4)
    else (0, 5) in
  let c0 := Z.land v0 0x3f in
  let c1 := Z.land v1 0x1f in
  let c2 := Z.land v2 0x1f in
  let c3 := Z.land v3 0x1f in
  let '(c0, c1, c2, c3) :=
    match mode with
    | 0 =>
        let c3 := Z.lor c3 (Z.land v3 0x60) in
        let c0 := Z.lor c0 (Z.land (Z.shiftr v3 1) 0x40) in
        let c0 := Z.lor c0 (Z.land (shl32 v2 1) 0x80) in
        let c0 := Z.lor c0 (Z.land (shl32 v1 3) 0x300) in
        let c0 := Z.lor c0 (Z.land (shl32 v2 5) 0x400) in
        (shl32 c0 1, shl32 c1 1, shl32 c2 1, shl32 c3 1)
    | 1 =>
        let c1 := Z.lor c1 (Z.land v1 0x20) in
        let c2 := Z.lor c2 (Z.land v2 0x20) in
        let c0 := Z.lor c0 (Z.land (Z.shiftr v3 1) 0x40) in
        let c0 := Z.lor c0 (Z.land (shl32 v2 1) 0x80) in
        let c0 := Z.lor c0 (Z.land (shl32 v1 2) 0x100) in
        let c0 := Z.lor c0 (Z.land (shl32 v3 4) 0x600) in
        (shl32 c0 1, shl32 c1 1, shl32 c2 1, shl32 c3 1)
    | 2 =>
        let c3 := Z.lor c3 (Z.land v3 0xe0) in
        let c0 := Z.lor c0 (Z.land (shl32 v2 1) 0xc0) in
        let c0 := Z.lor c0 (Z.land (shl32 v1 3) 0x300) in
        (shl32 c0 2, shl32 c1 2, shl32 c2 2, shl32 c3 2)
    | 3 =>
        let c1 := Z.lor c1 (Z.land v1 0x20) in
        let c2 := Z.lor c2 (Z.land v2 0x20) in
        let c3 := Z.lor c3 (Z.land v3 0x60) in
        let c0 := Z.lor c0 (Z.land (Z.shiftr v3 1) 0x40) in
        let c0 := Z.lor c0 (Z.land (shl32 v2 1) 0x80) in
        let c0 := Z.lor c0 (Z.land (shl32 v1 2) 0x100) in
        (shl32 c0 3, shl32 c1 3, shl32 c2 3, shl32 c3 3)
    | 4 =>
        let c1 := Z.lor c1 (Z.land v1 0x60) in
        let c2 := Z.lor c2 (Z.land v2 0x60) in
        let c3 := Z.lor c3 (Z.land v3 0x20) in
        let c0 := Z.lor c0 (Z.land (Z.shiftr v3 1) 0x40) in
        let c0 := Z.lor c0 (Z.land (shl32 v3 1) 0x80) in
        (shl32 c0 4, shl32 c1 4, shl32 c2 4, shl32 c3 4)
    | 5 =>
        let c1 := Z.lor c1 (Z.land v1 0x60) in
        let c2 := Z.lor c2 (Z.land v2 0x60) in
        let c3 := Z.lor c3 (Z.land v3 0x60) in
        let c0 := Z.lor c0 (Z.land (Z.shiftr v3 1) 0x40) in
        (shl32 c0 5, shl32 c1 5, shl32 c2 5, shl32 c3 5)
    | _ => (c0, c1, c2, c3)
    end in
  let* (c1, c2) :=
    if negb (mode =? 5) then
      let* x := ia m 32 (c0 - c1) in
      let* y := ia m 32 (c0 - c2) in
      Ok (x, y)
    else Ok (c1, c2) in
  let* d0 := ia m 32 (c0 - c3) in
  let* d1 := ia m 32 (c1 - c3) in
  let* d2 := ia m 32 (c2 - c3) in
  match major_component with
  | 1 => Ok (set_endpoint_hdr_clamp d1 d0 d2 0x780 c1 c0 c2 0x780)
  | 2 => Ok (set_endpoint_hdr_clamp d2 d1 d0 0x780 c2 c1 c0 0x780)
  | _ => Ok (set_endpoint_hdr_clamp d0 d1 d2 0x780 c0 c1 c2 0x780)
  end.

(** src/astc.rs lines 843-873: the signed delta field of `decode_endpoints_hdr11`
    ([x] is v[4] or v[5]). *)
Definition hdr11_delta (mode x : Z) : Z :=
  match mode with
  | 0 | 2 => let d := Z.land x 0x7f in if bit_set d 0x40 then Z.lor d 0xff80 else d
  | 1 | 3 | 5 | 7 => let d := Z.land x 0x3f in if bit_set d 0x20 then Z.lor d 0xffc0 else d
  | _ => let d := Z.land x 0x1f in if bit_set d 0x10 then Z.lor d 0xffe0 else d
  end.

(** src/astc.rs lines 819-978: `decode_endpoints_hdr11`.  The three arms of
    the last match compute the same differences. *)
Definition decode_endpoints_hdr11 (v : list Z) (alpha1 alpha2 : Z) : res (list Z) :=
  let* v0 := idx v 0 in
  let* v1 := idx v 1 in
  let* v2 := idx v 2 in
  let* v3 := idx v 3 in
  let* v4 := idx v 4 in
  let* v5 := idx v 5 in
  let major_component := Z.lor (Z.shiftr v4 7) (Z.land (Z.shiftr v5 6) 2) in
  if major_component =? 3 then
    Ok (set_endpoint (shl32 v0 4) (shl32 v2 4) (Z.land (shl32 v4 5) 0xfe0) alpha1
          (shl32 v1 4) (shl32 v3 4) (Z.land (shl32 v5 5) 0xfe0) alpha2)
  else
  let mode := Z.lor (Z.lor (Z.shiftr v1 7) (Z.land (Z.shiftr v2 6) 2)) (Z.land (Z.shiftr v3 5) 4) in
  let va := Z.lor v0 (Z.land (shl32 v1 2) 0x100) in
  let vb0 := Z.land v2 0x3f in
  let vb1 := Z.land v3 0x3f in
  let vc := Z.land v1 0x3f in
  let vd0 := hdr11_delta mode v4 in
  let vd1 := hdr11_delta mode v5 in
  let '(va, vb0, vb1, vc) :=
    match mode with
    | 0 => (va, Z.lor vb0 (Z.land v2 0x40), Z.lor vb1 (Z.land v3 0x40), vc)
    | 1 =>
        (va, Z.lor (Z.lor vb0 (Z.land v2 0x40)) (Z.land (shl32 v4 1) 0x80),
         Z.lor (Z.lor vb1 (Z.land v3 0x40)) (Z.land (shl32 v5 1) 0x80), vc)
    | 2 => (Z.lor va (Z.land (shl32 v2 3) 0x200), vb0, vb1, Z.lor vc (Z.land v3 0x40))
    | 3 =>
        (Z.lor va (Z.land (shl32 v4 3) 0x200), Z.lor vb0 (Z.land v2 0x40),
         Z.lor vb1 (Z.land v3 0x40), Z.lor vc (Z.land v5 0x40))
    | 4 =>
        (Z.lor (Z.lor va (Z.land (shl32 v4 4) 0x200)) (Z.land (shl32 v5 5) 0x400),
         Z.lor (Z.lor vb0 (Z.land v2 0x40)) (Z.land (shl32 v4 1) 0x80),
         Z.lor (Z.lor vb1 (Z.land v3 0x40)) (Z.land (shl32 v5 1) 0x80), vc)
    | 5 =>
        (Z.lor (Z.lor va (Z.land (shl32 v2 3) 0x200)) (Z.land (shl32 v3 4) 0x400), vb0, vb1,
         Z.lor (Z.lor vc (Z.land v5 0x40)) (Z.land (shl32 v4 1) 0x80))
    | 6 =>
        (Z.lor (Z.lor (Z.lor va (Z.land (shl32 v4 4) 0x200)) (Z.land (shl32 v5 5) 0x400))
           (Z.land (shl32 v4 5) 0x800),
         Z.lor vb0 (Z.land v2 0x40), Z.lor vb1 (Z.land v3 0x40), Z.lor vc (Z.land v5 0x40))
    | 7 =>
        (Z.lor (Z.lor (Z.lor va (Z.land (shl32 v2 3) 0x200)) (Z.land (shl32 v3 4) 0x400))
           (Z.land (shl32 v4 5) 0x800), vb0, vb1, Z.lor vc (Z.land v5 0x40))
    | _ => (va, vb0, vb1, vc)
    end in
  let shamt := Z.lxor (Z.shiftr mode 1) 3 in
  let* va := ishl m 32 va shamt in
  let* vb0 := ishl m 32 vb0 shamt in
  let* vb1 := ishl m 32 vb1 shamt in
  let* vc := ishl m 32 vc shamt in
  let* mult := ishl m 32 1 shamt in
  let* vd0 := ia m 32 (vd0 * mult) in
  let* vd1 := ia m 32 (vd1 * mult) in
  let* e0 := ia m 32 (va - vb0) in
  let* e1 := ia m 32 (va - vb1) in
  let* d0 := ia m 32 (e0 - vc) in
  let* d0 := ia m 32 (d0 - vd0) in
  let* d1 := ia m 32 (e1 - vc) in
  let* d1 := ia m 32 (d1 - vd1) in
  let* c := ia m 32 (va - vc) in
  match major_component with
  | 1 => Ok (set_endpoint_hdr_clamp d0 c d1 alpha1 e0 va e1 alpha2)
  | 2 => Ok (set_endpoint_hdr_clamp d1 d0 c alpha1 e1 e0 va alpha2)
  | _ => Ok (set_endpoint_hdr_clamp c d0 d1 alpha1 va e0 e1 alpha2)
  end.

(** src/astc.rs lines 981-982: `TRITS_TABLE`, `QUINTS_TABLE` of `decode_endpoints`. *)
Definition EP_TRITS_TABLE : list Z := [0; 204; 93; 44; 22; 11; 5].
(** src/astc.rs:982 *)
Definition EP_QUINTS_TABLE : list Z := [0; 113; 54; 26; 13; 6].

(** src/astc.rs lines 1002-1023: the addend `b` of the trit case. *)
Definition ep_trit_b (n x : Z) : res Z :=
  match n with
  | 1 => Ok 0
  | 2 => ua m 64 (0x116 * x)
  | 3 => Ok (Z.lor (Z.lor (shl64 x 7) (shl64 x 2)) x)
  | 4 => Ok (Z.lor (shl64 x 6) x)
  | 5 => Ok (Z.lor (shl64 x 5) (Z.shiftr x 2))
  | 6 => Ok (Z.lor (shl64 x 4) (Z.shiftr x 4))
  | _ => Ok 0
  end.
(** src/astc.rs lines 1033-1051: the addend `b` of the quint case. *)
Definition ep_quint_b (n x : Z) : res Z :=
  match n with
  | 1 => Ok 0
  | 2 => ua m 64 (0x10c * x)
  | 3 => Ok (Z.lor (Z.lor (shl64 x 7) (shl64 x 1)) (Z.shiftr x 1))
  | 4 => Ok (Z.lor (shl64 x 6) (Z.shiftr x 1))
  | 5 => Ok (Z.lor (shl64 x 5) (Z.shiftr x 3))
  | _ => Ok 0
  end.

(** src/astc.rs lines 996-1099: the value `ev[i]` for a sequence entry, with
    (a, n) the entries of CEM_TABLE_A and CEM_TABLE_B. *)
Definition unquant_endpoint (a n : Z) (s : Z * Z) : res Z :=
  let '(bits, nonbits) := s in
  if a =? 3 then
    let* c := idx EP_TRITS_TABLE n in
    let aa := Z.land bits 1 * 0x1ff in
    let x := Z.shiftr bits 1 in
    let* b := ep_trit_b n x in
    let* y := ua m 64 (nonbits * c) in
    let* y := ua m 64 (y + b) in
    Ok (swrap 32 (Z.lor (Z.land aa 0x80) (Z.shiftr (Z.lxor y aa) 2)))
  else if a =? 5 then
    let* c := idx EP_QUINTS_TABLE n in
    let aa := Z.land bits 1 * 0x1ff in
    let x := Z.shiftr bits 1 in
    let* b := ep_quint_b n x in
    let* y := ua m 64 (nonbits * c) in
    let* y := ua m 64 (y + b) in
    Ok (swrap 32 (Z.lor (Z.land aa 0x80) (Z.shiftr (Z.lxor y aa) 2)))
  else
    let* y :=
      match n with
      | 1 => ua m 64 (bits * 0xff)
      | 2 => ua m 64 (bits * 0x55)
      | 3 => Ok (Z.lor (Z.lor (shl64 bits 5) (shl64 bits 2)) (Z.shiftr bits 1))
      | 4 => Ok (Z.lor (shl64 bits 4) bits)
      | 5 => Ok (Z.lor (shl64 bits 3) (Z.shiftr bits 2))
      | 6 => Ok (Z.lor (shl64 bits 2) (Z.shiftr bits 4))
      | 7 => Ok (Z.lor (shl64 bits 1) (Z.shiftr bits 6))
      | 8 => Ok bits
      | _ => Ok 0
      end in
    Ok (swrap 32 y).

(** src/astc.rs lines 1104-1366: the end point row of one partition with mode
    [cem]; [v] is the slice of unquantized values starting at the partition's
    first one. *)
Definition decode_cem (cem : Z) (v : list Z) : res (list Z) :=
  match cem with
  | 0 =>
      let* v0 := idx v 0 in
      let* v1 := idx v 1 in
      Ok (set_endpoint v0 v0 v0 255 v1 v1 v1 255)
  | 1 =>
      let* v0 := idx v 0 in
      let* v1 := idx v 1 in
      let l0 := Z.lor (Z.shiftr v0 2) (Z.land v1 0xc0) in
      let* x := ia m 32 (l0 + Z.land v1 0x3f) in
      let l1 := clampz 0 255 x in
      Ok (set_endpoint l0 l0 l0 255 l1 l1 l1 255)
  | 2 =>
      let* v0 := idx v 0 in
      let* v1 := idx v 1 in
      let* (y0, y1) :=
        if v0 <=? v1 then Ok (shl32 v0 4, shl32 v1 4)
        else
          let* x := ia m 32 (shl32 v1 4 + 8) in
          let* y := ia m 32 (shl32 v0 4 - 8) in
          Ok (x, y) in
      Ok (set_endpoint y0 y0 y0 0x780 y1 y1 y1 0x780)
  | 3 =>
      let* v0 := idx v 0 in
      let* v1 := idx v 1 in
      let '(y0, d) :=
        if bit_set v0 0x80 then
          (Z.lor (shl32 (Z.land v1 0xe0) 4) (shl32 (Z.land v0 0x7f) 2), shl32 (Z.land v1 0x1f) 2)
        else
          (Z.lor (shl32 (Z.land v1 0xf0) 4) (shl32 (Z.land v0 0x7f) 1), shl32 (Z.land v1 0x0f) 1) in
      let* x := ia m 32 (y0 + d) in
      let y1 := clampz 0 0xfff x in
      Ok (set_endpoint y0 y0 y0 0x780 y1 y1 y1 0x780)
  | 4 =>
      let* v0 := idx v 0 in
      let* v1 := idx v 1 in
      let* v2 := idx v 2 in
      let* v3 := idx v 3 in
      Ok (set_endpoint v0 v0 v0 v2 v1 v1 v1 v3)
  | 5 =>
      let* v := bit_transfer_signed_alt v 1 0 in
      let* v := bit_transfer_signed_alt v 3 2 in
      let* v0 := idx v 0 in
      let* v1 := idx v 1 in
      let* v2 := idx v 2 in
      let* v3 := idx v 3 in
      let* v1 := ia m 32 (v1 + v0) in
      let* x := ia m 32 (v2 + v3) in
      Ok (set_endpoint_clamp v0 v0 v0 v2 v1 v1 v1 x)
  | 6 =>
      let* v0 := idx v 0 in
      let* v1 := idx v 1 in
      let* v2 := idx v 2 in
      let* v3 := idx v 3 in
      let* x := ia m 32 (v0 * v3) in
      let* y := ia m 32 (v1 * v3) in
      let* z := ia m 32 (v2 * v3) in
      Ok (set_endpoint (Z.shiftr x 8) (Z.shiftr y 8) (Z.shiftr z 8) 255 v0 v1 v2 255)
  | 7 => decode_endpoints_hdr7 v
  | 8 =>
      let* v0 := idx v 0 in
      let* v1 := idx v 1 in
      let* v2 := idx v 2 in
      let* v3 := idx v 3 in
      let* v4 := idx v 4 in
      let* v5 := idx v 5 in
      let* x := ia m 32 (v0 + v2) in
      let* x := ia m 32 (x + v4) in
      let* y := ia m 32 (v1 + v3) in
      let* y := ia m 32 (y + v5) in
      if x <=? y then Ok (set_endpoint v0 v2 v4 255 v1 v3 v5 255)
      else set_endpoint_blue v1 v3 v5 255 v0 v2 v4 255
  | 9 =>
      let* v := bit_transfer_signed_alt v 1 0 in
      let* v := bit_transfer_signed_alt v 3 2 in
      let* v := bit_transfer_signed_alt v 5 4 in
      let* v0 := idx v 0 in
      let* v1 := idx v 1 in
      let* v2 := idx v 2 in
      let* v3 := idx v 3 in
      let* v4 := idx v 4 in
      let* v5 := idx v 5 in
      let* x := ia m 32 (v1 + v3) in
      let* x := ia m 32 (x + v5) in
      let* r := ia m 32 (v0 + v1) in
      let* g := ia m 32 (v2 + v3) in
      let* b := ia m 32 (v4 + v5) in
      if 0 <=? x then Ok (set_endpoint_clamp v0 v2 v4 255 r g b 255)
      else set_endpoint_blue_clamp r g b 255 v0 v2 v4 255
  | 10 =>
      let* v0 := idx v 0 in
      let* v1 := idx v 1 in
      let* v2 := idx v 2 in
      let* v3 := idx v 3 in
      let* v4 := idx v 4 in
      let* v5 := idx v 5 in
      let* x := ia m 32 (v0 * v3) in
      let* y := ia m 32 (v1 * v3) in
      let* z := ia m 32 (v2 * v3) in
      Ok (set_endpoint (Z.shiftr x 8) (Z.shiftr y 8) (Z.shiftr z 8) v4 v0 v1 v2 v5)
  | 11 => decode_endpoints_hdr11 v 0x780 0x780
  | 12 =>
      let* v0 := idx v 0 in
      let* v1 := idx v 1 in
      let* v2 := idx v 2 in
      let* v3 := idx v 3 in
      let* v4 := idx v 4 in
      let* v5 := idx v 5 in
      let* v6 := idx v 6 in
      let* v7 := idx v 7 in
      let* x := ia m 32 (v0 + v2) in
      let* x := ia m 32 (x + v4) in
      let* y := ia m 32 (v1 + v3) in
      let* y := ia m 32 (y + v5) in
      if x <=? y then Ok (set_endpoint v0 v2 v4 v6 v1 v3 v5 v7)
      else set_endpoint_blue v1 v3 v5 v7 v0 v2 v4 v6
  | 13 =>
      let* v := bit_transfer_signed_alt v 1 0 in
      let* v := bit_transfer_signed_alt v 3 2 in
      let* v := bit_transfer_signed_alt v 5 4 in
      let* v := bit_transfer_signed_alt v 7 6 in
      let* v0 := idx v 0 in
      let* v1 := idx v 1 in
      let* v2 := idx v 2 in
      let* v3 := idx v 3 in
      let* v4 := idx v 4 in
      let* v5 := idx v 5 in
      let* v6 := idx v 6 in
      let* v7 := idx v 7 in
      let* x := ia m 32 (v1 + v3) in
      let* x := ia m 32 (x + v5) in
      let* r := ia m 32 (v0 + v1) in
      let* g := ia m 32 (v2 + v3) in
      let* b := ia m 32 (v4 + v5) in
      let* a := ia m 32 (v6 + v7) in
      if 0 <=? x then Ok (set_endpoint_clamp v0 v2 v4 v6 r g b a)
      else set_endpoint_blue_clamp r g b a v0 v2 v4 v6
  | 14 =>
      let* v6 := idx v 6 in
      let* v7 := idx v 7 in
      decode_endpoints_hdr11 v v6 v7
  | 15 =>
      let* v6 := idx v 6 in
      let* v7 := idx v 7 in
      let mode := Z.lor (Z.land (Z.shiftr v6 7) 1) (Z.land (Z.shiftr v7 6) 2) in
      let v6 := Z.land v6 0x7f in
      let v7 := Z.land v7 0x7f in
      if mode =? 3 then decode_endpoints_hdr11 v (shl32 v6 5) (shl32 v7 5)
      else
        let* k := ia m 32 (mode + 1) in
        let* x := ishl m 32 v7 k in
        let v6 := Z.lor v6 (Z.land x 0x780) in
        let* lo := ushr m 32 0x3f mode in
        let* sg := ushr m 32 0x20 mode in
        let* v7 := ia m 32 (Z.lxor (Z.land v7 lo) sg - sg) in
        let* k := ia m 32 (4 - mode) in
        let* v6 := ishl m 32 v6 k in
        let* v7 := ishl m 32 v7 k in
        let* x := ia m 32 (v6 + v7) in
        decode_endpoints_hdr11 v v6 (clampz 0 0xfff x)
  | _ => Panic
  end.

(** src/astc.rs lines 980-1369: `decode_endpoints`; the rows `endpoints`.  The
    in-place changes of v by one partition are not seen by the next, which
    works on the slice behind the values it used. *)
Definition decode_endpoints (buf : list Z) (d : BlockParams) : res (list (list Z)) :=
  let* ca := idx CEM_TABLE_A (bp_cem_range d) in
  let* cb := idx CEM_TABLE_B (bp_cem_range d) in
  let* seq := decode_intseq buf (if bp_part_num d =? 1 then 17 else 29) ca cb
                (bp_endpoint_value_num d) false (repeat (0, 0) 32) in
  let* ev := for_range 0 (bp_endpoint_value_num d) (fun i ev =>
    let* s := idx seq i in
    let* e := unquant_endpoint ca cb s in
    upd ev i e) (repeat 0 32) in
  let* (eps, _) := for_range 0 (bp_part_num d) (fun p '(eps, v) =>
    let* c := idx (bp_cem d) p in
    let* row := decode_cem c v in
    let* eps := upd eps p row in
    let* v := slice_from v ((c / 4 + 1) * 2) in
    Ok (eps, v)) (repeat (repeat 0 8) 4, ev) in
  Ok eps.

(** src/astc.rs lines 1385-1468: the value of a weight sequence entry, with
    (a, n) the entries of the weight precision tables. *)
Definition unquant_weight (a n : Z) (s : Z * Z) : res Z :=
  let '(bits, nonbits) := s in
  if a =? 0 then
    let* w :=
      match n with
      | 1 => Ok (if negb (bits =? 0) then 63 else 0)
      | 2 => Ok (swrap 32 (Z.lor (Z.lor (shl64 bits 4) (shl64 bits 2)) bits))
      | 3 => Ok (swrap 32 (Z.lor (shl64 bits 3) bits))
      | 4 => Ok (swrap 32 (Z.lor (shl64 bits 2) (Z.shiftr bits 2)))
      | 5 => Ok (swrap 32 (Z.lor (shl64 bits 1) (Z.shiftr bits 4)))
      | _ => Panic
      end in
    if 32 <? w then ia m 32 (w + 1) else Ok w
  else if n =? 0 then
    let* x := ua m 64 (nonbits * (if a =? 3 then 32 else 16)) in
    Ok (swrap 32 x)
  else
    let* w :=
      if a =? 3 then
        match n with
        | 1 => let* x := ua m 64 (nonbits * 50) in Ok (swrap 32 x)
        | 2 =>
            let* x := ua m 64 (nonbits * 23) in
            if bit_set bits 2 then ia m 32 (swrap 32 x + 0x45) else Ok (swrap 32 x)
        | 3 =>
            let* x := ua m 64 (nonbits * 11) in
            let* x := ua m 64 (x + Z.land (Z.lor (shl64 bits 4) (Z.shiftr bits 1)) 0x63) in
            Ok (swrap 32 x)
        | _ => Panic
        end
      else if a =? 5 then
        match n with
        | 1 => let* x := ua m 64 (nonbits * 28) in Ok (swrap 32 x)
        | 2 =>
            let* x := ua m 64 (nonbits * 13) in
            if bit_set bits 2 then ia m 32 (swrap 32 x + 0x42) else Ok (swrap 32 x)
        | _ => Panic
        end
      else Ok 0 in
    let aa := Z.land bits 1 * 0x7f in
    let w := swrap 32 (Z.lor (Z.land aa 0x20) (Z.shiftr (Z.lxor (u64 w) aa) 2)) in
    if 32 <? w then ia m 32 (w + 1) else Ok w.

(** src/astc.rs lines 1371-1468: first half of `decode_weights`: the 128
    entries of `wv`. *)
Definition weight_values (buf : list Z) (d : BlockParams) : res (list Z) :=
  let* wa := idx WEIGHT_PREC_TABLE_A (bp_weight_range d) in
  let* wb := idx WEIGHT_PREC_TABLE_B (bp_weight_range d) in
  let* seq := decode_intseq buf 128 wa wb (bp_weight_num d) true (repeat (0, 0) 128) in
  for_range 0 (bp_weight_num d) (fun i wv =>
    let* s := idx seq i in
    let* w := unquant_weight wa wb s in
    upd wv i w) (repeat 0 128).

(** src/astc.rs lines 1470-1500: second half of `decode_weights`: bilinear
    infill of the weight grid to the texels. *)
Definition infill_weights (bw bh width height : Z) (dual : bool) (wv : list Z) : res (list (list Z)) :=
  let* bw1 := ua m 64 (bw - 1) in
  let* ds := if bw1 =? 0 then Panic else Ok ((1024 + bw / 2) / bw1) in
  let* bh1 := ua m 64 (bh - 1) in
  let* dt := if bh1 =? 0 then Panic else Ok ((1024 + bh / 2) / bh1) in
  let pn := if dual then 2 else 1 in
  let* (weights, _) :=
    for_range 0 bh (fun t st =>
      for_range 0 bw (fun s '(weights, i) =>
        let* w1 := ua m 64 (width - 1) in
        let* x := ua m 64 (ds * s) in
        let* x := ua m 64 (x * w1) in
        let* x := ua m 64 (x + 32) in
        let gs := Z.shiftr x 6 in
        let* h1 := ua m 64 (height - 1) in
        let* y := ua m 64 (dt * t) in
        let* y := ua m 64 (y * h1) in
        let* y := ua m 64 (y + 32) in
        let gt := Z.shiftr y 6 in
        let fs := Z.land gs 0xf in
        let ft := Z.land gt 0xf in
        let* r := ua m 64 (Z.shiftr gt 4 * width) in
        let* v := ua m 64 (Z.shiftr gs 4 + r) in
        let w11 := Z.shiftr (fs * ft + 8) 4 in
        let w10 := ft - w11 in
        let w01 := fs - w11 in
        let w00 := 16 - fs - ft + w11 in
        let* weights :=
          for_range 0 pn (fun p weights =>
            let* p00 := idx wv (v * pn + p) in
            let* p01 := idx wv ((v + 1) * pn + p) in
            let* p10 := idx wv ((v + width) * pn + p) in
            let* p11 := idx wv ((v + width + 1) * pn + p) in
            let* row := idx weights i in
            let* x00 := ia m 32 (p00 * w00) in
            let* x01 := ia m 32 (p01 * w01) in
            let* x10 := ia m 32 (p10 * w10) in
            let* x11 := ia m 32 (p11 * w11) in
            let* x := ia m 32 (x00 + x01) in
            let* x := ia m 32 (x + x10) in
            let* x := ia m 32 (x + x11) in
            let* x := ia m 32 (x + 8) in
            let* row := upd row p (Z.shiftr x 4) in
            upd weights i row) weights in
        Ok (weights, i + 1)) st) (repeat [0; 0] 144, 0) in
  Ok weights.

(** src/astc.rs lines 1371-1501: `decode_weights`; the array `weights`. *)
Definition decode_weights (buf : list Z) (bw bh : Z) (d : BlockParams) : res (list (list Z)) :=
  let* wv := weight_values buf d in
  infill_weights bw bh (bp_width d) (bp_height d) (bp_dual_plane d) wv.

(** src/astc.rs lines 1509-1519: the hash of the seed. *)
Definition partition_hash (seed : Z) : Z :=
  let rnum := u32 seed in
  let rnum := Z.lxor rnum (Z.shiftr rnum 15) in
  let rnum := u32 (rnum - u32 (Z.shiftl rnum 17)) in
  let rnum := u32 (rnum + u32 (Z.shiftl rnum 7)) in
  let rnum := u32 (rnum + u32 (Z.shiftl rnum 4)) in
  let rnum := Z.lxor rnum (Z.shiftr rnum 5) in
  let rnum := u32 (rnum + u32 (Z.shiftl rnum 16)) in
  let rnum := Z.lxor rnum (Z.shiftr rnum 7) in
  let rnum := Z.lxor rnum (Z.shiftr rnum 3) in
  let rnum := Z.lxor rnum (u32 (Z.shiftl rnum 6)) in
  Z.lxor rnum (Z.shiftr rnum 17).

(** src/astc.rs lines 1521-1535: the array `seeds`. *)
Definition partition_seeds (seed rnum part_num : Z) : list Z :=
  let sh0 := if bit_set seed 2 then 4 else 5 in
  let sh1 := if part_num =? 3 then 6 else 5 in
  map (fun i =>
    let v := Z.land (Z.shiftr rnum (i * 4)) 0xF in
    Z.shiftr (v * v) (if bit_set seed 1 then (if i mod 2 =? 0 then sh0 else sh1)
                      else (if i mod 2 =? 0 then sh1 else sh0))) (zrange 0 8).

(** src/astc.rs lines 1543-1564 (= 1571-1592): the partition of the texel with
    (scaled) coordinates x, y. *)
Definition partition_of (seeds : list Z) (rnum part_num x y : Z) : res Z :=
  let term i s :=
    let* a := idx seeds i in
    let* b := idx seeds (i + 1) in
    let* c := ia m 32 (a * swrap 32 x) in
    let* d := ia m 32 (b * swrap 32 y) in
    let* e := ia m 32 (c + d) in
    let* e := ia m 32 (e + swrap 32 (Z.shiftr rnum s)) in
    Ok (Z.land e 0x3f) in
  let* a := term 0 14 in
  let* b := term 2 10 in
  let* c := if part_num <? 3 then Ok 0 else term 4 6 in
  let* d := if part_num <? 4 then Ok 0 else term 6 2 in
  Ok (if (b <=? a) && (c <=? a) && (d <=? a) then 0
      else if (c <=? b) && (d <=? b) then 1
      else if d <=? c then 2 else 3).

(** src/astc.rs lines 1503-1599: `select_partition`; the array `partition`.
    The loop for small blocks differs in the doubled coordinates only. *)
Definition select_partition (buf : list Z) (bw bh part_num : Z) : res (list Z) :=
  let* area := ua m 64 (bw * bh) in
  let small_block := area <? 31 in
  let* b4 := slice buf 0 4 in
  let seed := Z.lor (Z.land (Z.shiftr (swrap 32 (le_bytes b4)) 13) 0x3ff) (Z.shiftl (part_num - 1) 10) in
  let rnum := partition_hash seed in
  let seeds := partition_seeds seed rnum part_num in
  let k := if small_block then 1 else 0 in
  let* (partition, _) :=
    for_range 0 bh (fun t st =>
      for_range 0 bw (fun s '(partition, i) =>
        let* p := partition_of seeds rnum part_num (Z.shiftl s k) (Z.shiftl t k) in
        let* partition := upd partition i p in
        Ok (partition, i + 1)) st) (repeat 0 144, 0) in
  Ok partition.

(** src/astc.rs lines 1602-1637: `FUNC_TABLE_C`, `FUNC_TABLE_A` (true for
    `select_color_hdr`). *)
Definition FUNC_TABLE_C : list bool :=
  [false; false; true; true; false; false; false; true;
   false; false; false; true; false; false; true; true].
(** src/astc.rs:1620-1637 *)
Definition FUNC_TABLE_A : list bool :=
  [false; false; true; true; false; false; false; true;
   false; false; false; true; false; false; false; true].

(** src/astc.rs:1644-1663:
    One call through a function table. *)
Definition pick_color (tab : list bool) (cem : Z) (v0 v1 weight : Z) : res Z :=
  let* hdr := idx tab cem in
  if hdr : bool then select_color_hdr v0 v1 weight else select_color v0 v1 weight.

(** src/astc.rs lines 1601-1741: `applicate_color`.  The four copies of the
    loop differ in whether `partition[i]` is used (otherwise 0) and in the
    plane selectors (all 0 without dual plane). *)
Definition applicate_color (bw bh : Z) (d : BlockParams) (endpoints weights : list (list Z))
    (partition : list Z) (outbuf : list Z) : res (list Z) :=
  let* ps := if bp_dual_plane d then upd [0; 0; 0; 0] (bp_plane_selector d) 1 else Ok [0; 0; 0; 0] in
  let* area := ua m 64 (bw * bh) in
  for_range 0 area (fun i outbuf =>
    let* p := if 1 <? bp_part_num d then idx partition i else Ok 0 in
    let* cem := idx (bp_cem d) p in
    let channel (tab : list bool) (c : Z) : res Z :=
      let* ep := idx endpoints p in
      let* e0 := idx ep c in
      let* e1 := idx ep (c + 4) in
      let* w := idx weights i in
      let* k := idx ps c in
      let* w := idx w k in
      pick_color tab cem e0 e1 w in
    let* r := channel FUNC_TABLE_C 0 in
    let* g := channel FUNC_TABLE_C 1 in
    let* b := channel FUNC_TABLE_C 2 in
    let* a := channel FUNC_TABLE_A 3 in
    upd outbuf i (color r g b a)) outbuf.

(** src/astc.rs:1756, :1759:
    `outbuf[0..n].fill(c)` *)
Definition fill_front (outbuf : list Z) (n c : Z) : res (list Z) :=
  let* _ := slice outbuf 0 n in
  copy_into outbuf 0 (repeat c (Z.to_nat n)).

(** src/astc.rs lines 1744-1772: `decode_astc_block`. *)
Definition decode_astc_block (buf : list Z) (bw bh : Z) (outbuf : list Z) : res (list Z) :=
  let* b0 := idx buf 0 in
  let* b1 := idx buf 1 in
  if (b0 =? 0xfc) && (Z.land b1 1 =? 1) then
    let* c :=
      if bit_set b1 2 then
        let* r := f16ptr_to_u8 buf 8 in
        let* g := f16ptr_to_u8 buf 10 in
        let* b := f16ptr_to_u8 buf 12 in
        let* a := f16ptr_to_u8 buf 14 in
        Ok (color r g b a)
      else
        let* r := idx buf 9 in
        let* g := idx buf 11 in
        let* b := idx buf 13 in
        let* a := idx buf 15 in
        Ok (color r g b a) in
    let* n := ua m 64 (bw * bh) in
    fill_front outbuf n c
  else if ((Z.land b0 0xc3 =? 0xc0) && (Z.land b1 1 =? 1)) || (Z.land b0 0xf =? 0) then
    let* n := ua m 64 (bw * bh) in
    fill_front outbuf n (color 255 0 255 255)
  else
    let* d := decode_block_params buf in
    let* endpoints := decode_endpoints buf d in
    let* weights := decode_weights buf bw bh d in
    let* partition :=
      if 1 <? bp_part_num d then select_partition buf bw bh (bp_part_num d)
      else Ok (repeat 0 144) in
    applicate_color bw bh d endpoints weights partition outbuf.

(** src/astc.rs lines 1774-1819: `decode_astc`.  `div_ceil` panics when the
    block dimension is zero. *)
Definition decode_astc (data : list Z) (width height bw bh : Z) (image : list Z)
  : res (status * list Z) :=
  if (bw =? 0) || (bh =? 0) then Panic else
  let num_blocks_x := div_ceil width bw in
  let num_blocks_y := div_ceil height bh in
  let buffer := repeat 0 144 in
  let* nb := ua m 64 (num_blocks_x * num_blocks_y) in
  let* need := ua m 64 (nb * 16) in
  if zlen data <? need then Ok (Failed "Not enough data to decode image!", image) else
  let* expected_image_size := ua m 64 (width * height) in
  if zlen image <? expected_image_size then Ok (Failed "Image buffer is too small!", image) else
  let* area := ua m 64 (bw * bh) in
  if 144 <? area then Ok (Failed "Block size is too big!", image) else
  let* (_, image, _) :=
    for_range 0 num_blocks_y (fun by_ st =>
      for_range 0 num_blocks_x (fun bx '(buffer, image, data_offset) =>
        let* d := slice_from data data_offset in
        let* buffer := decode_astc_block d bw bh buffer in
        let* image := copy_block_buffer m bx by_ width height bw bh buffer image in
        let* data_offset := ua m 64 (data_offset + 16) in
        Ok (buffer, image, data_offset)) st) (buffer, image, 0) in
  Ok (Done, image).

(** src/astc.rs lines 1837-1850: the footprints for which `astc_decode_func!`
    (lines 1821-1834) generates `decode_astc_x_y`. *)
Definition astc_footprints : list (Z * Z) :=
  [(4, 4); (5, 4); (5, 5); (6, 5); (6, 6); (8, 5); (8, 6); (8, 8);
   (10, 5); (10, 6); (10, 8); (10, 10); (12, 10); (12, 12)].
(** src/astc.rs lines 1821-1834: the generated functions. *)
Definition decode_astc_sized (x y : Z) (data : list Z) (width height : Z) (image : list Z)
  : res (status * list Z) := decode_astc data width height x y image.

End WithBuild.
