(** * Model of the crunch unpacker and image decoder.
    Files: src/crunch/crn_unpacker.rs, src/crunch/crn_decomp.rs:191-221,
    src/crunch.rs. *)
From Verif Require Import Base BaseLemmas ModelColor ModelBc ModelCrn.

(** src/crunch/crn_consts.rs:93, :95 *)
Definition DXT1_FROM_LINEAR : list Z := [0; 2; 3; 1].
(** src/crunch/crn_consts.rs:95 *)
Definition DXT5_FROM_LINEAR : list Z := [0; 2; 3; 4; 5; 6; 7; 1].

(** src/crunch/crn_consts.rs:106-147 *)
Definition CRND_CHUNK_ENCODING_TILES : list (list Z) :=
  [[0; 0; 0; 0]; [0; 0; 1; 1]; [0; 1; 0; 1]; [0; 0; 1; 2];
   [1; 2; 0; 0]; [0; 1; 0; 2]; [1; 0; 2; 0]; [0; 1; 2; 3]].

(** src/crunch/crn_consts.rs:149 *)
Definition CRND_CHUNK_ENCODING_NUM_TILES : list Z := [1; 2; 2; 3; 3; 3; 3; 4].

(** src/crunch/crn_unpacker.rs:10-26 and src/unitycrunch/crn_unpacker.rs:18-33
    after `init` (the codec is restarted before every use; [u_first_dm] is
    `chunk_encoding_dm` respectively `reference_encoding_dm`). *)
Record unpacker := mkUnpacker {
  u_data : list Z; u_data_size : Z; u_header : header;
  u_first_dm : model;
  u_endpoint_dm0 : model; u_endpoint_dm1 : model;
  u_selector_dm0 : model; u_selector_dm1 : model;
  u_color_endpoints : list Z; u_color_selectors : list Z;
  u_alpha_endpoints : list Z; u_alpha_selectors : list Z }.

Section WithBuild.
Context (m : build).

(** src/crunch/crn_unpacker.rs:64-114 (src/unitycrunch/crn_unpacker.rs:71-121
    is the same): the models
    (first, endpoint delta 0, selector delta 0, endpoint delta 1, selector
    delta 1) *)
Definition init_tables (p_data : list Z) (h : header) : res (model * model * model * model * model) :=
  let* src := slice_from p_data (h_tables_ofs h) in
  let* c := start_decoding src (h_tables_size h) in
  let* (first, c) := receive_model m c in
  if (p_num (h_color_endpoints h) =? 0) && (p_num (h_alpha_endpoints h) =? 0) then Err ""
  else
    let* (e0, s0, c) :=
      if negb (p_num (h_color_endpoints h) =? 0) then
        let* (e, c) := receive_model m c in
        let* (s, c) := receive_model m c in
        Ok (e, s, c)
      else Ok (default_model, default_model, c) in
    let* (e1, s1) :=
      if negb (p_num (h_alpha_endpoints h) =? 0) then
        let* (e, c) := receive_model m c in
        let* (s, c) := receive_model m c in
        Ok (e, s)
      else Ok (default_model, default_model) in
    Ok (first, e0, s0, e1, s1).

(** src/crunch/crn_unpacker.rs:163-184: one colour end point pair.  State: the
    six components, the palette so far and the codec.  The sums stay below
    2^32 because a decoded symbol is a u16.  The palette has room for every
    entry (:138), so that entries are appended. *)
Definition color_endpoint_step (dm0 dm1 : model) (st : Z * Z * Z * Z * Z * Z * list Z * codec)
    : res (Z * Z * Z * Z * Z * Z * list Z * codec) :=
  let '(a, b, c, d, e, f, pal, cd) := st in
  let* (da, cd) := decode m dm0 cd in
  let a := Z.land (a + da) 31 in
  let* (db, cd) := decode m dm1 cd in
  let b := Z.land (b + db) 63 in
  let* (dc, cd) := decode m dm0 cd in
  let c := Z.land (c + dc) 31 in
  let* (dd, cd) := decode m dm0 cd in
  let d := Z.land (d + dd) 31 in
  let* (de, cd) := decode m dm1 cd in
  let e := Z.land (e + de) 63 in
  let* (df, cd) := decode m dm0 cd in
  let f := Z.land (f + df) 31 in
  let v := Z.lor (Z.lor (Z.lor (Z.lor (Z.lor c (Z.shiftl b 5)) (Z.shiftl a 11)) (Z.shiftl f 16))
             (Z.shiftl e 21)) (Z.shiftl d 27) in
  Ok (a, b, c, d, e, f, pal ++ [v], cd).

(** src/crunch/crn_unpacker.rs:136-187 *)
Definition decode_color_endpoints (p_data : list Z) (h : header) : res (list Z) :=
  let num := p_num (h_color_endpoints h) in
  let* src := slice_from p_data (p_ofs (h_color_endpoints h)) in
  let* c := start_decoding src (p_size (h_color_endpoints h)) in
  let* (dm0, c) := receive_model m c in
  let* (dm1, c) := receive_model m c in
  let* (_, pal, _) := for_range 0 num (fun _ st => color_endpoint_step dm0 dm1 st)
                        (0, 0, 0, 0, 0, 0, [], c) in
  Ok pal.

(** src/crunch/crn_unpacker.rs:205-217 (maximum value 3) and :324-336 (maximum
    value 7): the tables `delta0` and `delta1` *)
Definition delta_tables (mx : Z) : res (list Z * list Z) :=
  let n := (2 * mx + 1) * (2 * mx + 1) in
  let* (_, _, d0, d1) :=
    for_range 0 n (fun i st =>
      let '(l, mm, d0, d1) := st in
      let* d0 := upd d0 i l in
      let* d1 := upd d1 i mm in
      let l := l + 1 in
      if mx <? l then Ok (- mx, mm + 1, d0, d1) else Ok (l, mm, d0, d1))
      (- mx, - mx, repeat 0 (Z.to_nat n), repeat 0 (Z.to_nat n)) in
  Ok (d0, d1).

(** src/crunch/crn_unpacker.rs:223-230 and :343-350: the sixteen running
    selectors of one palette entry *)
Definition selector_step (mask : Z) (dm : model) (delta0 delta1 : list Z) (st : list Z * codec)
    : res (list Z * codec) :=
  for_range 0 8 (fun j st =>
    let '(cur, cd) := st in
    let* (sym, cd) := decode m dm cd in
    let* d0 := idx delta0 sym in
    let* v0 := idx cur (j * 2) in
    let* cur := upd cur (j * 2) (Z.land (d0 + v0) mask) in
    let* d1 := idx delta1 sym in
    let* v1 := idx cur (j * 2 + 1) in
    let* cur := upd cur (j * 2 + 1) (Z.land (d1 + v1) mask) in
    Ok (cur, cd)) st.

(** src/crunch/crn_unpacker.rs:232-247 *)
Definition pack_color_selector (cur : list Z) : res Z :=
  for_range 0 16 (fun k acc =>
    let* v := idx cur k in
    let* s := idx DXT1_FROM_LINEAR v in
    Ok (Z.lor acc (Z.shiftl s (2 * k)))) 0.

(** src/crunch/crn_unpacker.rs:188-271 *)
Definition decode_color_selectors (p_data : list Z) (h : header) : res (list Z) :=
  let num := p_num (h_color_selectors h) in
  let* src := slice_from p_data (p_ofs (h_color_selectors h)) in
  let* c := start_decoding src (p_size (h_color_selectors h)) in
  let* (dm, c) := receive_model m c in
  let* (delta0, delta1) := delta_tables 3 in
  let* (_, pal, _) :=
    for_range 0 num (fun _ st =>
      let '(cur, pal, cd) := st in
      let* (cur, cd) := selector_step 3 dm delta0 delta1 (cur, cd) in
      let* v := pack_color_selector cur in
      Ok (cur, pal ++ [v], cd)) (repeat 0 16, [], c) in
  Ok pal.

(** src/crunch/crn_unpacker.rs:272-306 *)
Definition decode_alpha_endpoints (p_data : list Z) (h : header) : res (list Z) :=
  let num := p_num (h_alpha_endpoints h) in
  let* src := slice_from p_data (p_ofs (h_alpha_endpoints h)) in
  let* c := start_decoding src (p_size (h_alpha_endpoints h)) in
  let* (dm, c) := receive_model m c in
  let* (_, _, pal, _) :=
    for_range 0 num (fun _ st =>
      let '(a, b, pal, cd) := st in
      let* (sa, cd) := decode m dm cd in
      let* (sb, cd) := decode m dm cd in
      let a := Z.land (sa + a) 255 in
      let b := Z.land (sb + b) 255 in
      Ok (a, b, pal ++ [u16 (Z.lor a (Z.shiftl b 8))], cd)) (0, 0, [], c) in
  Ok pal.

(** src/crunch/crn_unpacker.rs:351-370: the three words of an alpha selector *)
Definition pack_alpha_selector (cur : list Z) : res (list Z) :=
  let at_ k := let* v := idx cur k in idx DXT5_FROM_LINEAR v in
  let* s0 := at_ 0 in let* s1 := at_ 1 in let* s2 := at_ 2 in let* s3 := at_ 3 in
  let* s4 := at_ 4 in let* s5 := at_ 5 in let* s6 := at_ 6 in let* s7 := at_ 7 in
  let* s8 := at_ 8 in let* s9 := at_ 9 in let* s10 := at_ 10 in let* s11 := at_ 11 in
  let* s12 := at_ 12 in let* s13 := at_ 13 in let* s14 := at_ 14 in let* s15 := at_ 15 in
  Ok [u16 (Z.lor (Z.lor (Z.lor (Z.lor (Z.lor s0 (Z.shiftl s1 3)) (Z.shiftl s2 6)) (Z.shiftl s3 9))
             (Z.shiftl s4 12)) (Z.shiftl s5 15));
      u16 (Z.lor (Z.lor (Z.lor (Z.lor (Z.lor (Z.shiftr s5 1) (Z.shiftl s6 2)) (Z.shiftl s7 5))
             (Z.shiftl s8 8)) (Z.shiftl s9 11)) (Z.shiftl s10 14));
      u16 (Z.lor (Z.lor (Z.lor (Z.lor (Z.lor (Z.shiftr s10 2) (Z.shiftl s11 1)) (Z.shiftl s12 4))
             (Z.shiftl s13 7)) (Z.shiftl s14 10)) (Z.shiftl s15 13))].

(** src/crunch/crn_unpacker.rs:307-375 *)
Definition decode_alpha_selectors (p_data : list Z) (h : header) : res (list Z) :=
  let num := p_num (h_alpha_selectors h) in
  let* src := slice_from p_data (p_ofs (h_alpha_selectors h)) in
  let* c := start_decoding src (p_size (h_alpha_selectors h)) in
  let* (dm, c) := receive_model m c in
  let* (delta0, delta1) := delta_tables 7 in
  let* (_, pal, _) :=
    for_range 0 num (fun _ st =>
      let '(cur, pal, cd) := st in
      let* (cur, cd) := selector_step 7 dm delta0 delta1 (cur, cd) in
      let* v := pack_alpha_selector cur in
      Ok (cur, pal ++ v, cd)) (repeat 0 16, [], c) in
  Ok pal.

(** src/crunch/crn_unpacker.rs:49-63 with :115-135 *)
Definition unpacker_init (p_data : list Z) (data_size : Z) : res unpacker :=
  let* h := crnd_get_header p_data data_size in
  let* (first, e0, s0, e1, s1) := init_tables p_data h in
  let* (ce, cs) :=
    if negb (p_num (h_color_endpoints h) =? 0) then
      let* ce := decode_color_endpoints p_data h in
      let* cs := decode_color_selectors p_data h in
      Ok (ce, cs)
    else Ok ([], []) in
  let* (ae, al) :=
    if negb (p_num (h_alpha_endpoints h) =? 0) then
      let* ae := decode_alpha_endpoints p_data h in
      let* al := decode_alpha_selectors p_data h in
      Ok (ae, al)
    else Ok ([], []) in
  Ok (mkUnpacker p_data data_size h first e0 e1 s0 s1 ce cs ae al).

(** src/crunch/crn_decomp.rs:191-200 *)
Definition crnd_unpack_begin (p_data : list Z) (data_size : Z) : res unpacker :=
  if data_size <? CRNHEADER_MIN_SIZE then Err "Data size is below the minimum allowed."
  else or_err "Failed to initialize Crunch decompressor." (unpacker_init p_data data_size).

(** `WRITE_TO_INT_BUFFER!`, src/macros.rs:55-67 *)
Definition write_int (buf : list Z) (index v : Z) : res (list Z) :=
  let* t := ua m 64 (index * 4) in
  let* buf := upd buf t (u8 v) in
  let* buf := upd buf (t + 1) (u8 (Z.shiftr v 8)) in
  let* buf := upd buf (t + 2) (u8 (Z.shiftr v 16)) in
  upd buf (t + 3) (u8 (Z.shiftr v 24)).

(** `prev += delta; limit(&mut prev, num)` with a decoded delta, e.g.
    src/crunch/crn_unpacker.rs:551-556 *)
Definition next_index (msg : string) (dm : model) (num : Z) (prev : Z) (cd : codec) : res (Z * codec) :=
  let* (delta, cd) := or_err msg (decode m dm cd) in
  let* sum := ua m 32 (prev + delta) in
  let* prev := limit m sum num in
  Ok (prev, cd).

(** src/crunch/crn_unpacker.rs:539-549 (also :709-721, :866-878, :987-999): the
    encoding of the next chunk, the remaining bits and the codec *)
Definition next_encoding (msg : string) (u : unpacker) (bits : Z) (cd : codec) : res (Z * Z * codec) :=
  let* (bits, cd) :=
    if bits =? 1 then
      let* (s, cd) := or_err msg (decode m (u_first_dm u) cd) in
      Ok (Z.lor s 512, cd)
    else Ok (bits, cd) in
  Ok (Z.land bits 7, Z.shiftr bits 3, cd).

(** The end points of the tiles of one chunk, e.g.
    src/crunch/crn_unpacker.rs:550-558: end points, running index, codec *)
Definition tile_endpoints (msg : string) (dm : model) (pal : list Z) (num_tiles prev : Z) (cd : codec)
    : res (list Z * Z * codec) :=
  for_range 0 num_tiles (fun i st =>
    let '(eps, prev, cd) := st in
    let* (prev, cd) := next_index msg dm (zlen pal) prev cd in
    let* v := idx pal prev in
    let* eps := upd eps i v in
    Ok (eps, prev, cd)) (repeat 0 4, prev, cd).

(** The loops over faces, chunk rows and chunks shared by the four unpackers,
    e.g. src/crunch/crn_unpacker.rs:522-668: [body x skip_right_col
    skip_bottom_row block_dst state].  `block_dst` ends a row running right to
    left below the row start, as an unused wrapped value. *)
Definition chunk_loops {S} (bytes_per_block row_pitch blocks_x blocks_y chunks_x chunks_y num_faces : Z)
    (body : bool -> bool -> Z -> S -> res S) (st : S) : res S :=
  let* (_, st) :=
    for_range 0 num_faces (fun _ st =>
      for_range 0 chunks_y (fun y st =>
        let '(row_dst, st) := st in
        let odd := Z.land y 1 =? 1 in
        let* block_dst :=
          if (odd : bool) then
            let* k := ia m 32 (swrap 32 chunks_x - 1) in
            let* k := ia m 32 (k * bytes_per_block) in
            let* k := ia m 32 (k * 2) in
            ua m 64 (row_dst + u64 k)
          else Ok row_dst in
        let block_delta := if odd then - bytes_per_block * 2 else bytes_per_block * 2 in
        let skip_bottom_row := (y =? chunks_y - 1) && (Z.land blocks_y 1 =? 1) in
        let xs := zrange 0 (swrap 32 chunks_x) in
        let* (_, st) :=
          for_list (if odd then rev xs else xs) (fun x st =>
            let '(block_dst, st) := st in
            let skip_right_col := (Z.land blocks_x 1 =? 1) && (x =? swrap 32 chunks_x - 1) in
            let* st := body skip_right_col skip_bottom_row block_dst st in
            let* next := ia m 32 (swrap 32 block_dst + block_delta) in
            Ok (u64 next, st)) (block_dst, st) in
        let* step := ua m 32 (row_pitch * 2) in
        let* row_dst := ua m 64 (row_dst + step) in
        Ok (row_dst, st)) st) (0, st) in
  Ok st.

(** src/crunch/crn_unpacker.rs:505-669:
    State of `unpack_dxt1`: chunk bits, colour end point index, colour
    selector index, codec, destination. *)
Definition dxt1_state : Type := Z * Z * Z * codec * list Z.

(** src/crunch/crn_unpacker.rs:565-581 and the three repetitions :582-598,
    :599-615, :616-632: one block of a full chunk *)
Definition dxt1_full_block (u : unpacker) (eps tiles : list Z) (k pd : Z) (st : Z * codec * list Z)
    : res (Z * codec * list Z) :=
  let '(ps, cd, dst) := st in
  let* t := idx tiles k in
  let* e := idx eps t in
  let* dst := write_int dst pd e in
  let* (ps, cd) := next_index "Failed to decord DXT1 Texture" (u_selector_dm0 u)
                     (zlen (u_color_selectors u)) ps cd in
  let* s := idx (u_color_selectors u) ps in
  let* dst := write_int dst (pd + 1) s in
  Ok (ps, cd, dst).

(** src/crunch/crn_unpacker.rs:638-660: one block of a chunk on the border *)
Definition dxt1_part_block (u : unpacker) (eps tiles : list Z) (visible : bool) (k pd : Z) (st : Z * codec * list Z)
    : res (Z * codec * list Z) :=
  let '(ps, cd, dst) := st in
  let* (ps, cd) := next_index "Failed to decord DXT1 Texture" (u_selector_dm0 u)
                     (zlen (u_color_selectors u)) ps cd in
  if visible then
    let* t := idx tiles k in
    let* e := idx eps t in
    let* dst := write_int dst pd e in
    let* s := idx (u_color_selectors u) ps in
    let* dst := write_int dst (pd + 1) s in
    Ok (ps, cd, dst)
  else Ok (ps, cd, dst).

(** src/crunch/crn_unpacker.rs:538-663, one chunk *)
Definition dxt1_chunk (u : unpacker) (row_pitch : Z) (skip_right skip_bottom : bool) (block_dst : Z)
    (st : dxt1_state) : res dxt1_state :=
  let '(bits, pe, ps, cd, dst) := st in
  let* (e, bits, cd) := next_encoding "Failed to decord DXT1 Texture" u bits cd in
  let* num_tiles := idx CRND_CHUNK_ENCODING_NUM_TILES e in
  let* (eps, pe, cd) := tile_endpoints "Failed to decord DXT1 Texture" (u_endpoint_dm0 u)
                          (u_color_endpoints u) num_tiles pe cd in
  let* tiles := idx CRND_CHUNK_ENCODING_TILES e in
  let pd := Z.shiftr block_dst 2 in
  let dwords := Z.shiftr row_pitch 2 in
  if negb skip_bottom && negb skip_right then
    let* st := dxt1_full_block u eps tiles 0 pd (ps, cd, dst) in
    let* st := dxt1_full_block u eps tiles 1 (pd + 2) st in
    let* st := dxt1_full_block u eps tiles 2 (pd + dwords) st in
    let* (ps, cd, dst) := dxt1_full_block u eps tiles 3 (pd + 2 + dwords) st in
    Ok (bits, pe, ps, cd, dst)
  else
    let* (ps, cd, dst) :=
      for_range 0 2 (fun by_ st =>
        let* row := ua m 32 (row_pitch * by_) in
        let* pd := ua m 64 (block_dst + row) in
        let pd := Z.shiftr pd 2 in
        for_range 0 2 (fun bx st =>
          dxt1_part_block u eps tiles
            (negb ((negb (bx =? 0) && skip_right) || (negb (by_ =? 0) && skip_bottom)))
            (bx + by_ * 2) (pd + 2 * bx) st) st) (ps, cd, dst) in
    Ok (bits, pe, ps, cd, dst).

(** src/crunch/crn_unpacker.rs:505-670 *)
Definition unpack_dxt1 (u : unpacker) (cd : codec) (dst : list Z)
    (row_pitch blocks_x blocks_y chunks_x chunks_y : Z) : res (list Z) :=
  let* (_, dst) := chunk_loops 8 row_pitch blocks_x blocks_y chunks_x chunks_y (h_faces (u_header u))
                     (dxt1_chunk u row_pitch) (1, 0, 0, cd, dst) in
  Ok dst.

(** The two loops over the blocks of a chunk of `unpack_dxt5`, `unpack_dxt5a`
    and `unpack_dxn`, e.g. src/crunch/crn_unpacker.rs:745-825: [blk] handles one
    block given its tile number and destination in words. *)
Definition chunk_blocks {S} (bytes_per_block row_pitch block_dst : Z) (skip_right skip_bottom : bool)
    (blk : bool -> Z -> Z -> S -> res S) (st : S) : res S :=
  let* (_, st) :=
    for_range 0 2 (fun by_ st =>
      let* (pd, st) :=
        for_range 0 2 (fun bx st =>
          let '(pd, st) := st in
          let visible := negb ((negb (bx =? 0) && skip_right) || (negb (by_ =? 0) && skip_bottom)) in
          let* st := blk visible (bx + by_ * 2) pd st in
          Ok (pd + Z.shiftr bytes_per_block 2, st)) st in
      let pd := u64 (Z.shiftl pd 2) in
      let* off := ia m 32 (- bytes_per_block * 2 + swrap 32 row_pitch) in
      let* pd := ia m 32 (swrap 32 pd + off) in
      Ok (Z.shiftr (u64 pd) 2, st)) (Z.shiftr block_dst 2, st) in
  Ok st.

(** The three words of alpha selector [i], e.g.
    src/crunch/crn_unpacker.rs:763-764 *)
Definition alpha_words (u : unpacker) (i : Z) : res (Z * Z * Z) :=
  let* k := ua m 32 (i * 3) in
  let* p := slice_from (u_alpha_selectors u) k in
  let* w0 := idx p 0 in
  let* w1 := idx p 1 in
  let* w2 := idx p 2 in
  Ok (w0, w1, w2).

(** src/crunch/crn_unpacker.rs:794-805 (also :922-933, :1075-1098): an alpha
    block from its end points and selector *)
Definition write_alpha (u : unpacker) (dst : list Z) (pd e : Z) (w : Z * Z * Z) : res (list Z) :=
  let '(w0, w1, w2) := w in
  let* dst := write_int dst pd (Z.lor e (Z.shiftl w0 16)) in
  write_int dst (pd + 1) (Z.lor w1 (Z.shiftl w2 16)).

(** src/crunch/crn_unpacker.rs:749-818, one block; state: colour selector
    index, alpha selector index, codec, destination *)
Definition dxt5_block (u : unpacker) (ceps aeps tiles : list Z) (visible : bool) (k pd : Z)
    (st : Z * Z * codec * list Z) : res (Z * Z * codec * list Z) :=
  let '(cs, al, cd, dst) := st in
  let msg := "Failed to decord DXT5 Texture"%string in
  let* (al, cd) := next_index msg (u_selector_dm1 u) (p_num (h_alpha_selectors (u_header u))) al cd in
  let* (cs, cd) := next_index msg (u_selector_dm0 u) (zlen (u_color_selectors u)) cs cd in
  if visible then
    let* t := idx tiles k in
    let* w := alpha_words u al in
    let* ae := idx aeps t in
    let* dst := write_alpha u dst pd ae w in
    let* ce := idx ceps t in
    let* dst := write_int dst (pd + 2) ce in
    let* s := idx (u_color_selectors u) cs in
    let* dst := write_int dst (pd + 3) s in
    Ok (cs, al, cd, dst)
  else Ok (cs, al, cd, dst).

(** src/crunch/crn_unpacker.rs:671-831:
    State of `unpack_dxt5`: chunk bits, colour end point, colour selector,
    alpha end point, alpha selector index, codec, destination. *)
Definition dxt5_state : Type := Z * Z * Z * Z * Z * codec * list Z.

(** src/crunch/crn_unpacker.rs:707-825, one chunk *)
Definition dxt5_chunk (u : unpacker) (row_pitch : Z) (skip_right skip_bottom : bool) (block_dst : Z)
    (st : dxt5_state) : res dxt5_state :=
  let '(bits, ce, cs, ae, al, cd, dst) := st in
  let msg := "Failed to decord DXT5 Texture"%string in
  let* (e, bits, cd) := next_encoding msg u bits cd in
  let* num_tiles := idx CRND_CHUNK_ENCODING_NUM_TILES e in
  let* tiles := idx CRND_CHUNK_ENCODING_TILES e in
  let* (aeps, ae, cd) := tile_endpoints msg (u_endpoint_dm1 u) (u_alpha_endpoints u) num_tiles ae cd in
  let* (ceps, ce, cd) := tile_endpoints msg (u_endpoint_dm0 u) (u_color_endpoints u) num_tiles ce cd in
  let* (cs, al, cd, dst) := chunk_blocks 16 row_pitch block_dst skip_right skip_bottom
                              (dxt5_block u ceps aeps tiles) (cs, al, cd, dst) in
  Ok (bits, ce, cs, ae, al, cd, dst).

(** src/crunch/crn_unpacker.rs:671-832 *)
Definition unpack_dxt5 (u : unpacker) (cd : codec) (dst : list Z)
    (row_pitch blocks_x blocks_y chunks_x chunks_y : Z) : res (list Z) :=
  let* (_, dst) := chunk_loops 16 row_pitch blocks_x blocks_y chunks_x chunks_y (h_faces (u_header u))
                     (dxt5_chunk u row_pitch) (1, 0, 0, 0, 0, cd, dst) in
  Ok dst.

(** src/crunch/crn_unpacker.rs:894-936, one block *)
Definition dxt5a_block (u : unpacker) (aeps tiles : list Z) (visible : bool) (k pd : Z)
    (st : Z * codec * list Z) : res (Z * codec * list Z) :=
  let '(al, cd, dst) := st in
  let* (al, cd) := next_index "Failed to decord DXT5A Texture" (u_selector_dm1 u)
                     (p_num (h_alpha_selectors (u_header u))) al cd in
  if visible then
    let* t := idx tiles k in
    let* w := alpha_words u al in
    let* ae := idx aeps t in
    let* dst := write_alpha u dst pd ae w in
    Ok (al, cd, dst)
  else Ok (al, cd, dst).

(** src/crunch/crn_unpacker.rs:865-943, one chunk; state: chunk bits, alpha end
    point index, alpha selector index, codec, destination *)
Definition dxt5a_chunk (u : unpacker) (row_pitch : Z) (skip_right skip_bottom : bool) (block_dst : Z)
    (st : Z * Z * Z * codec * list Z) : res (Z * Z * Z * codec * list Z) :=
  let '(bits, ae, al, cd, dst) := st in
  let msg := "Failed to decord DXT5A Texture"%string in
  let* (e, bits, cd) := next_encoding msg u bits cd in
  let* num_tiles := idx CRND_CHUNK_ENCODING_NUM_TILES e in
  let* tiles := idx CRND_CHUNK_ENCODING_TILES e in
  let* (aeps, ae, cd) := tile_endpoints msg (u_endpoint_dm1 u) (u_alpha_endpoints u) num_tiles ae cd in
  let* (al, cd, dst) := chunk_blocks 8 row_pitch block_dst skip_right skip_bottom
                          (dxt5a_block u aeps tiles) (al, cd, dst) in
  Ok (bits, ae, al, cd, dst).

(** src/crunch/crn_unpacker.rs:833-950 *)
Definition unpack_dxt5a (u : unpacker) (cd : codec) (dst : list Z)
    (row_pitch blocks_x blocks_y chunks_x chunks_y : Z) : res (list Z) :=
  let* (_, dst) := chunk_loops 8 row_pitch blocks_x blocks_y chunks_x chunks_y (h_faces (u_header u))
                     (dxt5a_chunk u row_pitch) (1, 0, 0, cd, dst) in
  Ok dst.

(** src/crunch/crn_unpacker.rs:1025-1101, one block *)
Definition dxn_block (u : unpacker) (eps0 eps1 tiles : list Z) (visible : bool) (k pd : Z)
    (st : Z * Z * codec * list Z) : res (Z * Z * codec * list Z) :=
  let '(s0, s1, cd, dst) := st in
  let msg := "Failed to decord DXN Texture"%string in
  let num := p_num (h_alpha_selectors (u_header u)) in
  let* (s0, cd) := next_index msg (u_selector_dm1 u) num s0 cd in
  let* (s1, cd) := next_index msg (u_selector_dm1 u) num s1 cd in
  if visible then
    let* t := idx tiles k in
    let* w0 := alpha_words u s0 in
    let* w1 := alpha_words u s1 in
    let* e0 := idx eps0 t in
    let* dst := write_alpha u dst pd e0 w0 in
    let* e1 := idx eps1 t in
    let* dst := write_alpha u dst (pd + 2) e1 w1 in
    Ok (s0, s1, cd, dst)
  else Ok (s0, s1, cd, dst).

(** src/crunch/crn_unpacker.rs:985-1108, one chunk; state: chunk bits, alpha0
    end point, alpha0 selector, alpha1 end point, alpha1 selector index, codec,
    destination *)
Definition dxn_chunk (u : unpacker) (row_pitch : Z) (skip_right skip_bottom : bool) (block_dst : Z)
    (st : dxt5_state) : res dxt5_state :=
  let '(bits, e0, s0, e1, s1, cd, dst) := st in
  let msg := "Failed to decord DXN Texture"%string in
  let* (e, bits, cd) := next_encoding msg u bits cd in
  let* num_tiles := idx CRND_CHUNK_ENCODING_NUM_TILES e in
  let* tiles := idx CRND_CHUNK_ENCODING_TILES e in
  let* (eps0, e0, cd) := tile_endpoints msg (u_endpoint_dm1 u) (u_alpha_endpoints u) num_tiles e0 cd in
  let* (eps1, e1, cd) := tile_endpoints msg (u_endpoint_dm1 u) (u_alpha_endpoints u) num_tiles e1 cd in
  let* (s0, s1, cd, dst) := chunk_blocks 16 row_pitch block_dst skip_right skip_bottom
                              (dxn_block u eps0 eps1 tiles) (s0, s1, cd, dst) in
  Ok (bits, e0, s0, e1, s1, cd, dst).

(** src/crunch/crn_unpacker.rs:951-1115 *)
Definition unpack_dxn (u : unpacker) (cd : codec) (dst : list Z)
    (row_pitch blocks_x blocks_y chunks_x chunks_y : Z) : res (list Z) :=
  let* (_, dst) := chunk_loops 16 row_pitch blocks_x blocks_y chunks_x chunks_y (h_faces (u_header u))
                     (dxn_chunk u row_pitch) (1, 0, 0, 0, 0, cd, dst) in
  Ok dst.

(** src/crunch/crn_unpacker.rs:409-504 *)
Definition unpack_level_2 (u : unpacker) (p_src : list Z) (src_size dst_size row_pitch level : Z)
    : res (list Z) :=
  let h := u_header u in
  let width := Z.max (Z.shiftr (h_width h) level) 1 in
  let height := Z.max (Z.shiftr (h_height h) level) 1 in
  let blocks_x := Z.shiftr (width + 3) 2 in
  let blocks_y := Z.shiftr (height + 3) 2 in
  let f := h_format h in
  let block_size := if (f =? FmtDxt1) || (f =? FmtDxt5a) then 8 else 16 in
  let minimal := block_size * blocks_x in
  let* row_pitch :=
    if row_pitch =? 0 then Ok minimal
    else if (row_pitch <? minimal) || negb (Z.land row_pitch 3 =? 0)
    then Err "Crunch Row size is below the minimum allowed."
    else Ok row_pitch in
  let ret := repeat 0 (Z.to_nat (dst_size * h_faces h)) in
  let* need := ua m 32 (row_pitch * blocks_y) in
  if dst_size <? need then
    Err "Destination buffer size is smaller than what expected to decompress."
  else
    let chunks_x := Z.shiftr (blocks_x + 1) 1 in
    let chunks_y := Z.shiftr (blocks_y + 1) 1 in
    let* cd := or_err "Failed to initialize the decoding process." (start_decoding p_src src_size) in
    if f =? FmtDxt1 then unpack_dxt1 u cd ret row_pitch blocks_x blocks_y chunks_x chunks_y
    else if (f =? FmtDxt5) || (f =? FmtDxt5CcxY) || (f =? FmtDxt5XGbr) || (f =? FmtDxt5Agbr)
            || (f =? FmtDxt5XGxR)
    then unpack_dxt5 u cd ret row_pitch blocks_x blocks_y chunks_x chunks_y
    else if f =? FmtDxt5a then unpack_dxt5a u cd ret row_pitch blocks_x blocks_y chunks_x chunks_y
    else if (f =? FmtDxnXy) || (f =? FmtDxnYx)
    then unpack_dxn u cd ret row_pitch blocks_x blocks_y chunks_x chunks_y
    else Err "Invalid format for unpacking.".

(** src/crunch/crn_unpacker.rs:376-408: where the data of level [level] is,
    and its size *)
Definition level_source (u : unpacker) (level : Z) : res (list Z * Z) :=
  let h := u_header u in
  let* cur := idx (h_level_ofs h) level in
  let* next := if level + 1 <? h_levels h then idx (h_level_ofs h) (level + 1)
               else Ok (u_data_size u) in
  if next <=? cur then Err "Level offset mismatch."
  else
    let* src := slice_from (u_data u) cur in
    Ok (src, next - cur).

(** src/crunch/crn_unpacker.rs:376-408 *)
Definition crnd_unpack_level (u : unpacker) (dst_size row_pitch level : Z) : res (list Z) :=
  if (dst_size <? 8) || (CRNMAX_LEVELS <=? level) then Err "Destination buffer size is too small."
  else
    let* (src, size) := level_source u level in
    unpack_level_2 u src size dst_size row_pitch level.

(** src/crunch/crn_decomp.rs:202-217 *)
Definition crn_format_bits_per_texel (f : Z) : res Z :=
  if (f =? FmtDxt1) || (f =? FmtDxt5a) || (f =? FmtEtc1) then Ok 4
  else if (f =? FmtDxt3) || (f =? FmtDxt5) || (f =? FmtDxnXy) || (f =? FmtDxnYx) || (f =? FmtDxt5CcxY)
          || (f =? FmtDxt5XGxR) || (f =? FmtDxt5XGbr) || (f =? FmtDxt5Agbr) then Ok 8
  else Err "Texture format is not supported.".

(** src/crunch/crn_decomp.rs:219-221 *)
Definition crn_bytes_per_dxt_block (f : Z) : res Z :=
  let* b := crn_format_bits_per_texel f in Ok (Z.shiftr (Z.shiftl b 4) 3).

(** src/crunch.rs:18-42: format and data of level [level] *)
Definition crunch_unpack_level (data : list Z) (data_size level : Z) : res (Z * list Z) :=
  let* info := or_err "Invalid crunch texture encoding." (crnd_get_texture_info data data_size) in
  let* u := crnd_unpack_begin data data_size in
  let width := Z.max 1 (Z.shiftr (i_width info) level) in
  let height := Z.max 1 (Z.shiftr (i_height info) level) in
  let blocks_x := Z.max 1 (Z.shiftr (width + 3) 2) in
  let blocks_y := Z.max 1 (Z.shiftr (height + 3) 2) in
  let* bpb := crn_bytes_per_dxt_block (i_format info) in
  let* row_pitch := ua m 32 (blocks_x * bpb) in
  let* total := ua m 32 (row_pitch * blocks_y) in
  let* out := crnd_unpack_level u total row_pitch level in
  Ok (i_format info, out).

(** src/crunch.rs:51, the `?`:
    An early `Err` of the unpacker leaves the image untouched. *)
Definition with_level (e : res (Z * list Z)) (image : list Z)
    (k : Z -> list Z -> res (status * list Z)) : res (status * list Z) :=
  match e with
  | Ok (f, dxt) => k f dxt
  | Err msg => Ok (Failed msg, image)
  | Panic => Panic
  end.

(** src/crunch.rs:44-68 *)
Definition decode_crunch (data : list Z) (width height : Z) (image : list Z) : res (status * list Z) :=
  with_level (crunch_unpack_level data (u32 (zlen data)) 0) image (fun f dxt =>
    if f =? FmtDxt1 then decode_bc1 m dxt width height image
    else if (f =? FmtDxt5) || (f =? FmtDxt5CcxY) || (f =? FmtDxt5XGbr) || (f =? FmtDxt5Agbr)
            || (f =? FmtDxt5XGxR)
    then decode_bc3 m dxt width height image
    else if f =? FmtDxt5a then decode_bc4 m dxt width height image
    else if (f =? FmtDxnXy) || (f =? FmtDxnYx) then decode_bc5 m dxt width height image
    else Ok (Failed "Invalid crunch format.", image)).

End WithBuild.
