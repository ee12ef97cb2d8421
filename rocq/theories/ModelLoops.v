(** * The `while` and `loop` statements of the source, one round each

    The decoders of the model are total functions; a loop whose number of
    rounds depends on the data carries a bound there.  Here every such loop is
    given as the source has it: a body that is repeated without any bound.
    A body returns [inl] of the next state, or [inr] of the result on leaving
    the loop.  The counting loops `while n < count { ..; n += 1 }`
    (src/astc.rs:514-521, :523-530, src/crunch/crn_symbol_codec.rs:144-147)
    and `while i < len { ..; i += k }` (src/unitycrunch/crn_unpacker.rs:357-379,
    :406-453, :477-509) are one body, [count_body]. *)
From Verif Require Import Base ModelBits ModelCrn.

Section WithBuild.
Context (m : build).

(** src/bcn/bc7.rs:136-138; state: position of the reader, `mode` *)
Definition bc7_mode_body (data : list Z) (st : Z * Z) : res (Z * Z + Z * Z) :=
  let '(pos, mode) := st in
  let* (b, pos) := read m data pos 1 in
  if (b =? 0) && (mode <? 8) then
    let* mode := ua m 64 (mode + 1) in Ok (inl (pos, mode))
  else Ok (inr (mode, pos)).

(** src/pvrtc.rs:69-73; state: `offset`, `shift`, `mask` *)
Definition morton_body (x y min_dim : Z) (st : Z * Z * Z) : res (Z * Z * Z + Z * Z) :=
  let '(offset, shift, mask) := st in
  if mask <? min_dim then
    let* xs := ushl m 64 (Z.land x mask) 1 in
    let* d := ushl m 64 (Z.lor (Z.land y mask) xs) shift in
    let* mask := ushl m 64 mask 1 in
    let* shift := ua m 64 (shift + 1) in
    Ok (inl (Z.lor offset d, shift, mask))
  else Ok (inr (offset, shift)).

(** src/crunch/crn_symbol_codec.rs:255-268 *)
Definition get_bits_body (num_bits : Z) (c : codec) : res (codec + codec) :=
  if c_bit_count c <? num_bits then
    let* b := idx (c_buf c) (c_pos c) in
    let* count := ia m 32 (c_bit_count c + 8) in
    if BIT_BUF_SIZE <? count then Err ""
    else
      let* s := ushl m 32 b (BIT_BUF_SIZE - count) in
      Ok (inl (mkCodec (c_buf c) (c_pos c + 1) (c_end c) (Z.lor (c_bit_buf c) s) count))
  else Ok (inr c).

(** src/crunch/crn_symbol_codec.rs:82-151; state: the code sizes, `ofs`, the
    codec.  The `while` nested in it is part of [receive_step]. *)
Definition receive_body (dm : model) (total_used_syms : Z) (st : list Z * Z * codec)
    : res (list Z * Z * codec + list Z * codec) :=
  let '(sizes, ofs, c) := st in
  if ofs <? total_used_syms then
    let* st := receive_step m dm total_used_syms st in Ok (inl st)
  else Ok (inr (sizes, c)).

(** src/crunch/crn_symbol_codec.rs:226-231; state: `len` *)
Definition code_length_body (max_codes : list Z) (k : Z) (len : Z) : res (Z + Z) :=
  let* i := ua m 32 (len - 1) in
  let* mc := idx max_codes i in
  if k <=? mc then Ok (inr len)
  else let* len := ua m 32 (len + 1) in Ok (inl len).

(** src/crunch/crn_static_huffman_data_model.rs:166-172; state: `i`, which is
    also the result *)
Definition last_used_body (num_codes : list Z) (i : Z) : res (Z + Z) :=
  if 1 <=? i then
    let* n := idx num_codes i in
    if negb (n =? 0) then Ok (inr i)
    else let* i := ua m 32 (i - 1) in Ok (inl i)
  else Ok (inr i).

(** src/crunch/crn_utils.rs:14-17; state: `v`, `l` *)
Definition total_bits_body (st : Z * Z) : res (Z * Z + Z) :=
  let '(v, l) := st in
  if 0 <? v then let* l := ua m 32 (l + 1) in Ok (inl (Z.shiftr v 1, l))
  else Ok (inr l).

(** `while n < count { .. n += k }` for a body [f] acting on the rest of the
    state: src/astc.rs:514, :523 and src/crunch/crn_symbol_codec.rs:144 with
    [k] = 1, src/unitycrunch/crn_unpacker.rs:357 with 3 (three
    increments), :406 and :477 with 6 *)
Definition count_body {S} (k count : Z) (f : Z -> S -> res S) (st : Z * S) : res (Z * S + S) :=
  let '(n, s) := st in
  if n <? count then
    let* s := f n s in
    let* n := ua m 64 (n + k) in Ok (inl (n, s))
  else Ok (inr s).
End WithBuild.
