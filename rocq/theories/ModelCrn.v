(** * Model of the crunch container: header, Huffman models, bit reader.
    Files: src/crnlib.rs, src/crunch/crn_decomp.rs, src/crunch/crn_utils.rs,
    src/crunch/crn_static_huffman_data_model.rs, src/crunch/crn_symbol_codec.rs.

    Conventions of this file:
    - a `bool` result `false` and the result `Err(false)` are both [Err ""];
      a `true` result is [Ok] of the state the call leaves in `self`;
    - the header keeps the value of each packed integer, not its bytes. *)
From Verif Require Import Base BaseLemmas.

(** src/crunch/crn_consts.rs:2-67 *)
Definition CRNHEADER_MIN_SIZE : Z := 62.
(** src/crunch/crn_consts.rs:4 *)
Definition CRNSIG_VALUE : Z := Z.lor (Z.shiftl 72 8) 120.
(** src/crunch/crn_consts.rs:6 *)
Definition MAX_EXPECTED_CODE_SIZE : Z := 16.
(** src/crunch/crn_consts.rs:8 *)
Definition MAX_SUPPORTED_SYMS : Z := 8192.
(** src/crunch/crn_consts.rs:10 *)
Definition MAX_TABLE_BITS : Z := 11.
(** src/crunch/crn_consts.rs:14 *)
Definition BIT_BUF_SIZE : Z := 32.
(** src/crunch/crn_consts.rs:16 *)
Definition CRNMAX_LEVELS : Z := 16.
(** src/crunch/crn_consts.rs:23 *)
Definition MAX_CODELENGTH_CODES : Z := 21.
(** src/crunch/crn_consts.rs:25 *)
Definition SMALL_ZERO_RUN_CODE : Z := 17.
(** src/crunch/crn_consts.rs:26 *)
Definition LARGE_ZERO_RUN_CODE : Z := 18.
(** src/crunch/crn_consts.rs:27 *)
Definition SMALL_REPEAT_CODE : Z := 19.
(** src/crunch/crn_consts.rs:28 *)
Definition LARGE_REPEAT_CODE : Z := 20.
(** src/crunch/crn_consts.rs:30 *)
Definition MIN_SMALL_ZERO_RUN_SIZE : Z := 3.
(** src/crunch/crn_consts.rs:32 *)
Definition MIN_LARGE_ZERO_RUN_SIZE : Z := 11.
(** src/crunch/crn_consts.rs:35 *)
Definition SMALL_MIN_NON_ZERO_RUN_SIZE : Z := 3.
(** src/crunch/crn_consts.rs:37 *)
Definition LARGE_MIN_NON_ZERO_RUN_SIZE : Z := 7.
(** src/crunch/crn_consts.rs:40 *)
Definition SMALL_ZERO_RUN_EXTRA_BITS : Z := 3.
(** src/crunch/crn_consts.rs:41 *)
Definition LARGE_ZERO_RUN_EXTRA_BITS : Z := 7.
(** src/crunch/crn_consts.rs:42 *)
Definition SMALL_NON_ZERO_RUN_EXTRA_BITS : Z := 2.
(** src/crunch/crn_consts.rs:43 *)
Definition LARGE_NON_ZERO_RUN_EXTRA_BITS : Z := 6.
(** src/crunch/crn_consts.rs:45-67 *)
Definition MOST_PROBABLE_CODELENGTH_CODES : list Z :=
  [17; 18; 19; 20; 0; 8; 7; 9; 6; 10; 5; 11; 4; 12; 3; 13; 2; 14; 1; 15; 16].

(** src/crunch/crn_decomp.rs:120 *)
Definition HEADER_MIN_SIZE : Z := 74.

(** src/crunch.rs:24-26, src/crunch/crn_unpacker.rs:440-443, :540-542 and the other
    `match self.codec.decode(..)` of :505-1116:
    Replaces any [Err] by [Err msg]: `match e { Ok(x) => x, Err(_) => return Err(msg) }`
    and `if !e { return Err(msg) }`. *)
Definition or_err {A} (msg : string) (e : res A) : res A :=
  match e with Err _ => Err msg | _ => e end.

(** src/crunch/crn_decomp.rs:50-58 *)
Definition cast_to_uint (buf : list Z) : res Z :=
  match buf with
  | [b0] => Ok b0
  | [b0; b1] => Ok (be_bytes [b0; b1])
  | [b0; b1; b2] => Ok (Z.lor (Z.shiftl b0 16) (be_bytes [b1; b2]))
  | [b0; b1; b2; b3] => Ok (be_bytes [b0; b1; b2; b3])
  | _ => Panic
  end.

(** `x.assign_from_buffer(&p_data[ofs..])` for a packed integer of [n] bytes,
    src/crunch/crn_decomp.rs:46-48, followed by its value, :50-58. *)
Definition packed (n : Z) (p_data : list Z) (ofs : Z) : res Z :=
  let* other := slice_from p_data ofs in
  let* buf := slice other 0 n in
  cast_to_uint buf.

(** src/crunch/crn_decomp.rs:69-73 *)
Record palette := mkPalette { p_ofs : Z; p_size : Z; p_num : Z }.

(** src/crunch/crn_decomp.rs:76-80 *)
Definition packed_palette (p_data : list Z) (ofs : Z) : res palette :=
  let* other := slice_from p_data ofs in
  let* o := packed 3 other 0 in
  let* s := packed 3 other 3 in
  let* n := packed 2 other 6 in
  Ok (mkPalette o s n).

(** src/crunch/crn_decomp.rs:85-116 *)
Record header := mkHeader {
  h_sig : Z; h_header_size : Z; h_header_crc16 : Z; h_data_size : Z; h_data_crc16 : Z;
  h_width : Z; h_height : Z; h_levels : Z; h_faces : Z; h_format : Z; h_flags : Z;
  h_reserved : Z; h_userdata0 : Z; h_userdata1 : Z;
  h_color_endpoints : palette; h_color_selectors : palette;
  h_alpha_endpoints : palette; h_alpha_selectors : palette;
  h_tables_size : Z; h_tables_ofs : Z; h_level_ofs : list Z }.

(** src/crunch/crn_decomp.rs:122-161 *)
Definition crnd_get_header (p_data : list Z) (data_size : Z) : res header :=
  if data_size <? HEADER_MIN_SIZE then Err ""
  else
    let* sig := packed 2 p_data 0 in
    let* header_size := packed 2 p_data 2 in
    let* header_crc16 := packed 2 p_data 4 in
    let* size := packed 4 p_data 6 in
    let* data_crc16 := packed 2 p_data 10 in
    let* width := packed 2 p_data 12 in
    let* height := packed 2 p_data 14 in
    let* levels := packed 1 p_data 16 in
    let* faces := packed 1 p_data 17 in
    let* format := packed 1 p_data 18 in
    let* flags := packed 2 p_data 19 in
    let* reserved := packed 4 p_data 21 in
    let* userdata0 := packed 4 p_data 25 in
    let* userdata1 := packed 4 p_data 29 in
    let* color_endpoints := packed_palette p_data 33 in
    let* color_selectors := packed_palette p_data 41 in
    let* alpha_endpoints := packed_palette p_data 49 in
    let* alpha_selectors := packed_palette p_data 57 in
    let* tables_size := packed 2 p_data 65 in
    let* tables_ofs := packed 3 p_data 67 in
    let* level_ofs := for_range 0 levels (fun i acc =>
        let* v := packed 4 p_data (70 + i * 4) in Ok (acc ++ [v])) [] in
    if negb (u16 sig =? CRNSIG_VALUE) then Err ""
    else if (header_size <? HEADER_MIN_SIZE) || (data_size <? size) then Err ""
    else Ok (mkHeader sig header_size header_crc16 size data_crc16 width height levels faces
               format flags reserved userdata0 userdata1 color_endpoints color_selectors
               alpha_endpoints alpha_selectors tables_size tables_ofs level_ofs).

(** src/crnlib.rs:44-54; the format is its `repr(u32)` value. *)
Record texture_info := mkInfo {
  i_width : Z; i_height : Z; i_levels : Z; i_faces : Z; i_bytes_per_block : Z;
  i_userdata0 : Z; i_userdata1 : Z; i_format : Z }.

(** `CrnFormat` values, src/crnlib.rs:8-40 *)
Definition FmtDxt1 := 0.
(** src/crnlib.rs:16 *)
Definition FmtDxt3 := 1.
(** src/crnlib.rs:18 *)
Definition FmtDxt5 := 2.
(** src/crnlib.rs:21 *)
Definition FmtDxt5CcxY := 3.
(** src/crnlib.rs:22 *)
Definition FmtDxt5XGxR := 4.
(** src/crnlib.rs:23 *)
Definition FmtDxt5XGbr := 5.
(** src/crnlib.rs:24 *)
Definition FmtDxt5Agbr := 6.
(** src/crnlib.rs:27 *)
Definition FmtDxnXy := 7.
(** src/crnlib.rs:28 *)
Definition FmtDxnYx := 8.
(** src/crnlib.rs:31 *)
Definition FmtDxt5a := 9.
(** src/crnlib.rs:33 *)
Definition FmtEtc1 := 10.
(** src/crnlib.rs:34 *)
Definition FmtEtc2 := 11.
(** src/crnlib.rs:35 *)
Definition FmtEtc2a := 12.
(** src/crnlib.rs:36 *)
Definition FmtEtc1s := 13.
(** src/crnlib.rs:37 *)
Definition FmtEtc2as := 14.
(** src/crnlib.rs:39 *)
Definition FmtTotal := 15.
(** src/crnlib.rs:9 *)
Definition FmtInvalid := 4294967295.

(** The `match` of src/crnlib.rs:89-118: 0..15 name a format, anything else
    is `Invalid`. *)
Definition format_of (f : Z) : Z := if (0 <=? f) && (f <=? 15) then f else FmtInvalid.

(** src/crnlib.rs:71-139 (the `struct_size` test at :76-78 always passes) *)
Definition crnd_get_texture_info (p_data : list Z) (data_size : Z) : res texture_info :=
  if data_size <? HEADER_MIN_SIZE then Err ""
  else
    let* h := crnd_get_header p_data data_size in
    let f := h_format h in
    if format_of f =? FmtInvalid then Err ""
    else
      let bpb := if (f =? FmtDxt1) || (f =? FmtDxt5a) || (f =? FmtEtc1) || (f =? FmtEtc2)
                    || (f =? FmtEtc1s) then 8 else 16 in
      Ok (mkInfo (h_width h) (h_height h) (h_levels h) (h_faces h) bpb
            (h_userdata0 h) (h_userdata1 h) (format_of f)).

(** src/crunch/crn_utils.rs:2-8 (`ilog2` of a positive number) *)
Definition ceil_log2i (v : Z) : Z :=
  let l := Z.log2 v in
  if negb (l =? 32) && (Z.shiftl 1 l <? v) then l + 1 else l.

(** src/crunch/crn_utils.rs:12-19, the loop in closed form. *)
Definition total_bits (v : Z) : Z := if 0 <? v then Z.log2 v + 1 else 0.

(** src/crunch/crn_static_huffman_data_model.rs:7-26.  Fields never read by
    the decoder (num_syms, total_used_syms, table_shift, min/max_code_size and
    the `cur_*_size` counters) are left out; the `Vec`s carry their own
    length. *)
Record tables := mkTables {
  t_table_bits : Z; t_table_max_code : Z; t_decode_start_code_size : Z;
  t_max_codes : list Z; t_val_ptrs : list Z; t_lookup : list Z; t_sorted : list Z }.

(** src/crunch/crn_static_huffman_data_model.rs:6-7:
    `DecoderTables::default()` *)
Definition default_tables : tables :=
  mkTables 0 0 0 (repeat 0 17) (repeat 0 17) [] [].

(** src/crunch/crn_static_huffman_data_model.rs:210-214 *)
Record model := mkModel { m_total_syms : Z; m_code_sizes : list Z; m_tables : tables }.

(** src/crunch/crn_static_huffman_data_model.rs:209-210:
    `StaticHuffmanDataModel::default()` *)
Definition default_model : model := mkModel 0 [] default_tables.

(** src/crunch/crn_static_huffman_data_model.rs:166-172, :176-181:
    First element of [l] satisfying [p] (a `for` loop with `break`). *)
Fixpoint first_with (p : Z -> res bool) (l : list Z) : res (option Z) :=
  match l with
  | [] => Ok None
  | a :: l' => let* b := p a in if (b : bool) then Ok (Some a) else first_with p l'
  end.

(** src/crunch/crn_symbol_codec.rs:6-13.  The slice `p_decode_buf_next` is
    the suffix of [c_buf] starting at [c_pos]; the raw pointer
    `p_decode_buf_end` is the address of element [c_end].  All pointers
    compared belong to the same slice, so that their order is the order of
    the positions. *)
Record codec := mkCodec {
  c_buf : list Z; c_pos : Z; c_end : Z; c_bit_buf : Z; c_bit_count : Z }.

Section WithBuild.
Context (m : build).

(** src/crunch/crn_utils.rs:22-26 *)
Definition limit (x n : Z) : res Z :=
  let* v := ia m 32 (swrap 32 x - swrap 32 n) in
  let msk := Z.shiftr v 31 in
  Ok (u32 (Z.lor (Z.land (swrap 32 x) msk) (Z.land v (Z.lnot msk)))).

(** src/crunch/crn_static_huffman_data_model.rs:36-42 *)
Definition count_codes (num_syms : Z) (p_codesizes : list Z) : res (list Z) :=
  for_list (firstn (Z.to_nat num_syms) p_codesizes) (fun c num_codes =>
    if c =? 0 then Ok num_codes
    else
      let* n := idx num_codes c in
      let* n' := ua m 32 (n + 1) in
      upd num_codes c n') (repeat 0 17).

(** State of the loop at src/crunch/crn_static_huffman_data_model.rs:50-71:
    max_codes, val_ptrs, min_codes, sorted_positions, cur_code,
    total_used_syms, max_code_size, min_code_size. *)
Record lens := mkLens {
  l_max_codes : list Z; l_val_ptrs : list Z; l_min_codes : list Z; l_sorted_positions : list Z;
  l_cur_code : Z; l_total_used : Z; l_max_size : Z; l_min_size : Z }.

(** src/crunch/crn_static_huffman_data_model.rs:51-70, one iteration *)
Definition length_step (num_codes : list Z) (i : Z) (s : lens) : res lens :=
  let* n := idx num_codes i in
  let* s' :=
    if n =? 0 then
      let* mc := upd (l_max_codes s) (i - 1) 0 in
      Ok (mkLens mc (l_val_ptrs s) (l_min_codes s) (l_sorted_positions s)
            (l_cur_code s) (l_total_used s) (l_max_size s) (l_min_size s))
    else
      let* mins := upd (l_min_codes s) (i - 1) (l_cur_code s) in
      let* top0 := ua m 32 (l_cur_code s + n) in
      let* top := ua m 32 (top0 - 1) in
      let* a := ushl m 32 top (16 - i) in
      let* b0 := ushl m 32 1 (16 - i) in
      let* b := ua m 32 (b0 - 1) in
      let* mc1 := ua m 32 (1 + Z.lor a b) in
      let* mc := upd (l_max_codes s) (i - 1) mc1 in
      let* vp := upd (l_val_ptrs s) (i - 1) (swrap 32 (l_total_used s)) in
      let* sp := upd (l_sorted_positions s) i (l_total_used s) in
      let* cur := ua m 32 (l_cur_code s + n) in
      let* used := ua m 32 (l_total_used s + n) in
      Ok (mkLens mc vp mins sp cur used (Z.max (l_max_size s) i) (Z.min (l_min_size s) i)) in
  let* cur := ushl m 32 (l_cur_code s') 1 in
  Ok (mkLens (l_max_codes s') (l_val_ptrs s') (l_min_codes s') (l_sorted_positions s')
        cur (l_total_used s') (l_max_size s') (l_min_size s')).

(** src/crunch/crn_static_huffman_data_model.rs:30, :44-71 (from default tables) *)
Definition length_loop (num_codes : list Z) : res lens :=
  for_range 1 17 (length_step num_codes)
    (mkLens (repeat 0 17) (repeat 0 17) (repeat 0 16) (repeat 0 17) 0 0 0 (2 ^ 32 - 1)).

(** src/crunch/crn_static_huffman_data_model.rs:77, :79:
    `x.is_power_of_two()`, `x.next_power_of_two()` for x > 0 *)
Definition is_pow2 (x : Z) : bool := 2 ^ Z.log2 x =? x.
(** src/crunch/crn_static_huffman_data_model.rs:79 *)
Definition next_pow2 (x : Z) : Z := 2 ^ Z.log2_up x.

(** src/crunch/crn_static_huffman_data_model.rs:73-83: the initial
    `sorted_symbol_order` (from default tables, whose size counter is 0) *)
Definition fresh_sorted (num_syms total_used : Z) : list Z :=
  if 0 <? total_used then
    repeat 0 (Z.to_nat (if is_pow2 total_used then total_used
                        else Z.min num_syms (next_pow2 total_used)))
  else [].

(** src/crunch/crn_static_huffman_data_model.rs:88-107 *)
Definition sort_symbols (num_syms : Z) (p_codesizes num_codes : list Z) (total_used : Z)
    (sorted_positions sorted : list Z) : res (list Z * list Z) :=
  for_range 0 (Z.min (zlen p_codesizes) num_syms) (fun i st =>
    let '(sorted_positions, sorted) := st in
    let* c := idx p_codesizes i in
    if c =? 0 then Ok (sorted_positions, sorted)
    else
      let* n := idx num_codes c in
      if n =? 0 then Err ""
      else
        let* sorted_pos := idx sorted_positions c in
        let* next := ua m 32 (sorted_pos + 1) in
        let* sorted_positions := upd sorted_positions c next in
        if total_used <=? sorted_pos then Err ""
        else
          let* sorted := upd sorted sorted_pos (u16 i) in
          Ok (sorted_positions, sorted)) (sorted_positions, sorted).

(** src/crunch/crn_static_huffman_data_model.rs:197-206 *)
Definition get_unshifted_max_code (max_codes : list Z) (len : Z) : res Z :=
  if negb ((1 <=? len) && (len <=? MAX_EXPECTED_CODE_SIZE)) then Err ""
  else
    let* k := idx max_codes (len - 1) in
    if k =? 0 then Ok (2 ^ 32 - 1)
    else ushr m 32 (k - 1) (16 - len).

(** src/crunch/crn_static_huffman_data_model.rs:114-154 *)
Definition fill_lookup (table_bits : Z) (p_codesizes num_codes max_codes val_ptrs min_codes sorted : list Z)
    : res (list Z) :=
  for_range 1 (table_bits + 1) (fun codesize lookup =>
    let* n := idx num_codes codesize in
    if n =? 0 then Ok lookup
    else
      let fillsize := table_bits - codesize in
      let* fillnum := ushl m 32 1 fillsize in
      let* min_code := idx min_codes (codesize - 1) in
      let* max_code := get_unshifted_max_code max_codes codesize in
      let* vp := idx val_ptrs (codesize - 1) in
      let val_ptr := u32 vp in
      for_range min_code (max_code + 1) (fun code lookup =>
        let* s0 := ua m 32 (val_ptr + code) in
        let* s := ua m 32 (s0 - min_code) in
        let* sym_index := idx sorted s in
        let* cs := idx p_codesizes sym_index in
        if negb (cs =? codesize) then Err ""
        else
          for_range 0 fillnum (fun j lookup =>
            let* base := ushl m 32 code fillsize in
            let* t := ua m 32 (j + base) in
            let* size := ushl m 32 1 table_bits in
            if size <=? t then Err ""
            else
              let* hi := ushl m 32 codesize 16 in
              upd lookup t (Z.lor sym_index hi)) lookup) lookup)
    (repeat 0 (Z.to_nat (2 ^ table_bits))).

(** src/crunch/crn_static_huffman_data_model.rs:156-158 *)
Definition adjust_val_ptrs (val_ptrs min_codes : list Z) : res (list Z) :=
  for_range 0 16 (fun i val_ptrs =>
    let* v := idx val_ptrs i in
    let* c := idx min_codes i in
    let* v' := ia m 32 (v - swrap 32 c) in
    upd val_ptrs i v') val_ptrs.

(** src/crunch/crn_static_huffman_data_model.rs:160-183: table_max_code and
    decode_start_code_size *)
Definition start_code (table_bits min_size max_size : Z) (num_codes max_codes : list Z) : res (Z * Z) :=
  if table_bits =? 0 then Ok (0, u8 min_size)
  else
    let* found := first_with (fun i => let* n := idx num_codes i in Ok (negb (n =? 0)))
                    (rev (zrange 1 (table_bits + 1))) in
    match found with
    | None => Ok (0, u8 min_size)
    | Some i =>
        let* tmc := idx max_codes (i - 1) in
        let* later := first_with (fun j => let* n := idx num_codes j in Ok (negb (n =? 0)))
                        (zrange (table_bits + 1) (max_size + 1)) in
        Ok (tmc, match later with Some j => j | None => table_bits + 1 end)
    end.

(** src/crunch/crn_static_huffman_data_model.rs:29-194, on default tables:
    every model of the decoder is received exactly once after its creation. *)
Definition tables_init (num_syms : Z) (p_codesizes : list Z) (table_bits0 : Z) : res tables :=
  if (num_syms =? 0) || (MAX_TABLE_BITS <? table_bits0) then Err ""
  else
    let* num_codes := count_codes num_syms p_codesizes in
    let* s := length_loop num_codes in
    let* (_, sorted) := sort_symbols num_syms p_codesizes num_codes (l_total_used s)
                          (l_sorted_positions s) (fresh_sorted num_syms (l_total_used s)) in
    let table_bits := if table_bits0 <=? u8 (l_min_size s) then 0 else table_bits0 in
    let* lookup := if table_bits =? 0 then Ok []
                   else fill_lookup table_bits p_codesizes num_codes (l_max_codes s)
                          (l_val_ptrs s) (l_min_codes s) sorted in
    let* val_ptrs := adjust_val_ptrs (l_val_ptrs s) (l_min_codes s) in
    let* (tmc, start) := start_code table_bits (l_min_size s) (l_max_size s) num_codes (l_max_codes s) in
    let* max_codes := upd (l_max_codes s) 16 (2 ^ 32 - 1) in
    let* val_ptrs := upd val_ptrs 16 1048575 in
    Ok (mkTables table_bits tmc start max_codes val_ptrs lookup sorted).

(** src/crunch/crn_static_huffman_data_model.rs:245-251 *)
Definition compute_decoder_table_bits (total_syms : Z) : Z :=
  if 16 <? total_syms then Z.min (1 + ceil_log2i total_syms) MAX_TABLE_BITS else 0.

(** src/crunch/crn_static_huffman_data_model.rs:253-262, on a model that only
    has its code sizes set *)
Definition prepare_decoder_tables (code_sizes : list Z) : res model :=
  let total := zlen code_sizes in
  if negb ((1 <=? total) && (total <=? MAX_SUPPORTED_SYMS)) then Err ""
  else
    let* t := tables_init total code_sizes (compute_decoder_table_bits total) in
    Ok (mkModel total code_sizes t).

(** src/crunch/crn_symbol_codec.rs:29-39 with :246-249 *)
Definition start_decoding (p_buf : list Z) (buf_size : Z) : res codec :=
  if buf_size =? 0 then Err ""
  else
    let* _ := idx p_buf (buf_size - 1) in
    Ok (mkCodec p_buf 0 (buf_size - 1) 0 0).

(** The loop of src/crunch/crn_symbol_codec.rs:255-268.  The comparison of the
    byte read, taken as an address, with the end pointer always succeeds (an
    address below 256 is never inside a slice), so that the position always
    advances.  [fuel] bounds the number of rounds; 5 suffice for any
    non-negative bit count. *)
Fixpoint get_bits_loop (fuel : nat) (num_bits : Z) (c : codec) : res codec :=
  if c_bit_count c <? num_bits then
    match fuel with
    | O => Panic
    | S fuel' =>
        let* b := idx (c_buf c) (c_pos c) in
        let count := c_bit_count c + 8 in
        if BIT_BUF_SIZE <? count then Err ""
        else
          let* s := ushl m 32 b (BIT_BUF_SIZE - count) in
          get_bits_loop fuel' num_bits
            (mkCodec (c_buf c) (c_pos c + 1) (c_end c) (Z.lor (c_bit_buf c) s) count)
    end
  else Ok c.

(** src/crunch/crn_symbol_codec.rs:251-273 *)
Definition get_bits (num_bits : Z) (c : codec) : res (Z * codec) :=
  if 32 <? num_bits then Err ""
  else
    let* c := get_bits_loop 5 num_bits c in
    let* result := ushr m 32 (c_bit_buf c) (BIT_BUF_SIZE - num_bits) in
    let* rest := ushl m 32 (c_bit_buf c) num_bits in
    Ok (result, mkCodec (c_buf c) (c_pos c) (c_end c) rest (c_bit_count c - num_bits)).

(** src/crunch/crn_symbol_codec.rs:155-172 *)
Definition decode_bits (num_bits : Z) (c : codec) : res (Z * codec) :=
  if num_bits =? 0 then Ok (0, c)
  else if 16 <? num_bits then
    let* (a, c) := get_bits (num_bits - 16) c in
    let* (b, c) := get_bits 16 c in
    let* hi := ushl m 32 a 16 in
    Ok (Z.lor hi b, c)
  else get_bits num_bits c.

(** One byte read by `decode` at position [pos],
    src/crunch/crn_symbol_codec.rs:181-186 (also :187-192, :199-206): the last
    byte of the buffer is not skipped, past it zeros are delivered. *)
Definition peek_byte (c : codec) (pos : Z) : res (Z * Z) :=
  let* b := idx (c_buf c) pos in
  if pos <=? c_end c then Ok (b, if pos <? c_end c then pos + 1 else pos)
  else Ok (0, pos).

(** src/crunch/crn_symbol_codec.rs:176-210 *)
Definition refill (c : codec) : res codec :=
  if c_bit_count c <? 24 then
    if c_bit_count c <? 16 then
      let* (c0, p) := peek_byte c (c_pos c) in
      let* (c1, p) := peek_byte c p in
      let count := c_bit_count c + 16 in
      let* s := ushl m 32 (Z.lor (Z.shiftl c0 8) c1) (32 - count) in
      Ok (mkCodec (c_buf c) p (c_end c) (Z.lor (c_bit_buf c) s) count)
    else
      let* (b, p) := peek_byte c (c_pos c) in
      let count := c_bit_count c + 8 in
      let* s := ushl m 32 b (32 - count) in
      Ok (mkCodec (c_buf c) p (c_end c) (Z.lor (c_bit_buf c) s) count)
  else Ok c.

(** src/crunch/crn_symbol_codec.rs:226-231: [l] is `max_codes` from index
    `len - 1` on. *)
Fixpoint code_length (k : Z) (l : list Z) (len : Z) : res Z :=
  match l with
  | [] => Panic
  | mc :: l' => if k <=? mc then Ok len else code_length k l' (len + 1)
  end.

(** src/crunch/crn_symbol_codec.rs:211-238: symbol and length of the code at
    the head of [bit_buf] *)
Definition lookup_symbol (md : model) (bit_buf : Z) : res (Z * Z) :=
  let t := m_tables md in
  let k := Z.shiftr bit_buf 16 + 1 in
  if k <=? t_table_max_code t then
    let* i := ushr m 32 bit_buf (32 - t_table_bits t) in
    let* e := idx (t_lookup t) i in
    if e =? 2 ^ 32 - 1 then Err ""
    else
      let sym := Z.land e 65535 in
      let len := Z.shiftr e 16 in
      let* cs := idx (m_code_sizes md) sym in
      if negb (cs =? len) then Err "" else Ok (sym, len)
  else
    let* from := ua m 32 (t_decode_start_code_size t - 1) in
    let* l := slice_from (t_max_codes t) from in
    let* len := code_length k l (t_decode_start_code_size t) in
    let* vp := idx (t_val_ptrs t) (len - 1) in
    let* code := ushr m 32 bit_buf (32 - len) in
    let* val_ptr := ia m 32 (vp + swrap 32 code) in
    if m_total_syms md <=? u32 val_ptr then Err ""
    else
      let* sym := idx (t_sorted t) (u64 val_ptr) in
      Ok (sym, len).

(** src/crunch/crn_symbol_codec.rs:174-242 *)
Definition decode (md : model) (c : codec) : res (Z * codec) :=
  let* c := refill c in
  let* (sym, len) := lookup_symbol md (c_bit_buf c) in
  let* rest := ushl m 32 (c_bit_buf c) len in
  Ok (sym, mkCodec (c_buf c) (c_pos c) (c_end c) rest (c_bit_count c - len)).

(** src/crunch/crn_symbol_codec.rs:64-75: the code sizes of the code-length
    model *)
Definition codelength_sizes (num : Z) (c : codec) : res (list Z * codec) :=
  for_list (firstn (Z.to_nat num) MOST_PROBABLE_CODELENGTH_CODES) (fun code st =>
    let '(sizes, c) := st in
    let* (s, c) := decode_bits 3 c in
    let* sizes := upd sizes code (u8 s) in
    Ok (sizes, c)) (repeat 0 (Z.to_nat MAX_CODELENGTH_CODES), c).

(** src/crunch/crn_symbol_codec.rs:83-150, one iteration of the loop: new
    code sizes, offset and codec *)
Definition receive_step (dm : model) (total_used_syms : Z) (st : list Z * Z * codec)
    : res (list Z * Z * codec) :=
  let '(sizes, ofs, c) := st in
  let num_remaining := total_used_syms - ofs in
  let* (code, c) := decode dm c in
  if code <=? 16 then
    let* sizes := upd sizes ofs (u8 code) in
    Ok (sizes, ofs + 1, c)
  else if code =? SMALL_ZERO_RUN_CODE then
    let* (s, c) := decode_bits SMALL_ZERO_RUN_EXTRA_BITS c in
    let len := s + MIN_SMALL_ZERO_RUN_SIZE in
    if num_remaining <? len then Err "" else Ok (sizes, ofs + len, c)
  else if code =? LARGE_ZERO_RUN_CODE then
    let* (s, c) := decode_bits LARGE_ZERO_RUN_EXTRA_BITS c in
    let len := s + MIN_LARGE_ZERO_RUN_SIZE in
    if num_remaining <? len then Err "" else Ok (sizes, ofs + len, c)
  else if (code =? SMALL_REPEAT_CODE) || (code =? LARGE_REPEAT_CODE) then
    let* (len, c) :=
      if code =? SMALL_REPEAT_CODE then
        let* (s, c) := decode_bits SMALL_NON_ZERO_RUN_EXTRA_BITS c in
        Ok (s + SMALL_MIN_NON_ZERO_RUN_SIZE, c)
      else
        let* (s, c) := decode_bits LARGE_NON_ZERO_RUN_EXTRA_BITS c in
        Ok (s + LARGE_MIN_NON_ZERO_RUN_SIZE, c) in
    if (ofs =? 0) || (num_remaining <? len) then Err ""
    else
      let* prev := idx sizes (ofs - 1) in
      if prev =? 0 then Err ""
      else
        let* sizes := for_range ofs (ofs + len) (fun i sizes => upd sizes i (u8 prev)) sizes in
        Ok (sizes, ofs + len, c)
  else Err "".

(** src/crunch/crn_symbol_codec.rs:81-151.  Every iteration moves the offset
    by at least one, so that [fuel] = total_used_syms suffices. *)
Fixpoint receive_loop (fuel : nat) (dm : model) (total_used_syms : Z) (st : list Z * Z * codec)
    : res (list Z * codec) :=
  let '(sizes, ofs, c) := st in
  if ofs <? total_used_syms then
    match fuel with
    | O => Panic
    | S fuel' => let* st := receive_step dm total_used_syms st in
                 receive_loop fuel' dm total_used_syms st
    end
  else Ok (sizes, c).

(** src/crunch/crn_symbol_codec.rs:41-153, called on a default model *)
Definition receive_model (c : codec) : res (model * codec) :=
  let* (total_used_syms, c) := decode_bits (total_bits MAX_SUPPORTED_SYMS) c in
  let* (num, c) := decode_bits 5 c in
  if (num <? 1) || (MAX_CODELENGTH_CODES <? num) then Err ""
  else
    let* (dm_sizes, c) := codelength_sizes num c in
    let* dm := prepare_decoder_tables dm_sizes in
    let* (sizes, c) := receive_loop (Z.to_nat total_used_syms) dm total_used_syms
                         (repeat 0 (Z.to_nat total_used_syms), 0, c) in
    let* md := prepare_decoder_tables sizes in
    Ok (md, c).

End WithBuild.
