(** * Model of the Unity variant of the crunch unpacker.
    Files: src/unitycrunch/crn_unpacker.rs, src/unitycrunch/crn_decomp.rs,
    src/unitycrunch.rs. *)
From Verif Require Import Base BaseLemmas ModelColor ModelBc ModelEtc ModelCrn ModelCrunch.

(** src/unitycrunch/crn_unpacker.rs:154-159 (also :229-234) *)
Definition has_etc_color_blocks (f : Z) : bool :=
  (f =? FmtEtc1) || (f =? FmtEtc2) || (f =? FmtEtc2a) || (f =? FmtEtc1s) || (f =? FmtEtc2as).

(** src/unitycrunch/crn_unpacker.rs:161-163 (also :236-238) *)
Definition has_subblocks (f : Z) : bool := (f =? FmtEtc1) || (f =? FmtEtc2) || (f =? FmtEtc2a).

(** src/unitycrunch/crn_unpacker.rs:9-16 *)
Record elem := mkElem { b_ref : Z; b_color : Z; b_alpha0 : Z; b_alpha1 : Z }.

(** src/unitycrunch/crn_unpacker.rs:9:
    `BlockBufferElement::default()` *)
Definition default_elem : elem := mkElem 0 0 0 0.

(** src/unitycrunch/crn_unpacker.rs:12:
    Assignments to one field of an element. *)
Definition set_ref (b : elem) (v : Z) : elem := mkElem v (b_color b) (b_alpha0 b) (b_alpha1 b).
(** src/unitycrunch/crn_unpacker.rs:13 *)
Definition set_color (b : elem) (v : Z) : elem := mkElem (b_ref b) v (b_alpha0 b) (b_alpha1 b).
(** src/unitycrunch/crn_unpacker.rs:14 *)
Definition set_alpha0 (b : elem) (v : Z) : elem := mkElem (b_ref b) (b_color b) v (b_alpha1 b).
(** src/unitycrunch/crn_unpacker.rs:15 *)
Definition set_alpha1 (b : elem) (v : Z) : elem := mkElem (b_ref b) (b_color b) (b_alpha0 b) v.

Section WithBuild.
Context (m : build).

(** src/unitycrunch/crn_unpacker.rs:190-206: one ETC end point; state: the
    running value, the palette so far, the codec *)
Definition unity_etc_endpoint_step (subblocks : bool) (dm : model) (st : Z * list Z * codec)
    : res (Z * list Z * codec) :=
  let '(a, pal, cd) := st in
  let* (a, cd) :=
    for_list [0; 8; 16; 24] (fun b st =>
      let '(a, cd) := st in
      let* (s, cd) := decode m dm cd in
      let* s := ushl m 32 s b in
      let* a := ua m 32 (a + s) in
      Ok (a, cd)) (a, cd) in
  let a := Z.land a 0x1F1F1F1F in
  let v := if subblocks then a
           else Z.lor (Z.lor (Z.lor (u32 (Z.shiftl (Z.land a 0x07000000) 5))
                                    (u32 (Z.shiftl (Z.land a 0x07000000) 2)))
                             0x02000000)
                      (u32 (Z.shiftl (Z.land a 0x001F1F1F) 3)) in
  Ok (a, pal ++ [v], cd).

(** src/unitycrunch/crn_unpacker.rs:152-227.  Without ETC blocks the loop body
    (:208-222) is the one of the plain unpacker. *)
Definition unity_color_endpoints (p_data : list Z) (h : header) : res (list Z) :=
  let num := p_num (h_color_endpoints h) in
  let* src := slice_from p_data (p_ofs (h_color_endpoints h)) in
  let* c := start_decoding src (p_size (h_color_endpoints h)) in
  let* (dm0, c) := receive_model m c in
  if has_etc_color_blocks (h_format h) then
    let* (_, pal, _) := for_range 0 num
        (fun _ st => unity_etc_endpoint_step (has_subblocks (h_format h)) dm0 st) (0, [], c) in
    Ok pal
  else
    let* (dm1, c) := receive_model m c in
    let* (_, pal, _) := for_range 0 num (fun _ st => color_endpoint_step m dm0 dm1 st)
                          (0, 0, 0, 0, 0, 0, [], c) in
    Ok pal.

(** src/unitycrunch/crn_unpacker.rs:264-269 *)
Definition unity_selector_bits (dm : model) (st : Z * codec) : res (Z * codec) :=
  for_list [0; 4; 8; 12; 16; 20; 24; 28] (fun j st =>
    let '(s, cd) := st in
    let* (x, cd) := decode m dm cd in
    let* x := ushl m 32 x j in
    Ok (Z.lxor s x, cd)) st.

(** src/unitycrunch/crn_unpacker.rs:276-278 (also :280-285): the bits of one
    texel of an ETC selector *)
Definition etc_selector_bits (sel : Z) (t : Z) : res Z :=
  ushl m 32 (Z.lor (Z.land (Z.shiftr sel 1) 1) (Z.shiftl (Z.land sel 1) 16)) (Z.land t 15).

(** src/unitycrunch/crn_unpacker.rs:271-290 *)
Definition etc_selectors (subblocks : bool) (i s : Z) (pal : list Z) : res (list Z) :=
  let selector := Z.lor (Z.land (2 ^ 32 - 1 - s) 0xAAAAAAAA)
                        (Z.land (2 ^ 32 - 1 - Z.lxor s (Z.shiftr s 1)) 0x55555555) in
  let* (_, pal) :=
    for_range 0 4 (fun h st =>
      let* (t, pal) :=
        for_range 0 4 (fun w st =>
          let '(t, pal) := st in
          let* pal :=
            if subblocks then
              let* b := etc_selector_bits (Z.shiftr selector (Z.lor (Z.shiftl w 3) (Z.shiftl h 1))) t in
              let* old := idx pal (Z.shiftl i 1) in
              upd pal (Z.shiftl i 1) (Z.lor old b)
            else Ok pal in
          let* b := etc_selector_bits (Z.shiftr selector (Z.lor (Z.shiftl h 3) (Z.shiftl w 1))) t in
          let k := if subblocks then Z.lor (Z.shiftl i 1) 1 else i in
          let* old := idx pal k in
          let* pal := upd pal k (Z.lor old b) in
          Ok (t + 4, pal)) st in
      Ok (t - 15, pal)) (8, pal) in
  Ok pal.

(** src/unitycrunch/crn_unpacker.rs:228-297 *)
Definition unity_color_selectors (p_data : list Z) (h : header) : res (list Z) :=
  let num := p_num (h_color_selectors h) in
  let* src := slice_from p_data (p_ofs (h_color_selectors h)) in
  let* c := start_decoding src (p_size (h_color_selectors h)) in
  let* (dm, c) := receive_model m c in
  let sub := has_subblocks (h_format h) in
  let size := if sub then Z.shiftl num 1 else num in
  let* (_, pal, _) :=
    for_range 0 num (fun i st =>
      let '(s, pal, cd) := st in
      let* (s, cd) := unity_selector_bits dm (s, cd) in
      let* pal :=
        if has_etc_color_blocks (h_format h) then etc_selectors sub i s pal
        else
          upd pal i (Z.lor (Z.land (Z.lxor s (u32 (Z.shiftl s 1))) 0xAAAAAAAA)
                           (Z.land (Z.shiftr s 1) 0x55555555)) in
      Ok (s, pal, cd)) (0, repeat 0 (Z.to_nat size), c) in
  Ok pal.

(** src/unitycrunch/crn_unpacker.rs:350-353 *)
Definition dxt5_from_linear : res (list Z) :=
  for_range 0 64 (fun i acc =>
    let* lo := idx DXT5_FROM_LINEAR (Z.land i 7) in
    let* hi := idx DXT5_FROM_LINEAR (Z.shiftr i 3) in
    upd acc i (Z.lor lo (u8 (Z.shiftl hi 3)))) (repeat 0 64).

(** src/unitycrunch/crn_unpacker.rs:360-366 (also :367-373): 24 bits of an
    alpha selector; state: the running linear value, the codec *)
Definition unity_alpha_half (table : list Z) (dm : model) (st : Z * codec) : res (Z * Z * codec) :=
  let '(lin, cd) := st in
  for_list [0; 6; 12; 18] (fun j st =>
    let '(lin, s, cd) := st in
    let* (x, cd) := decode m dm cd in
    let* x := ushl m 32 x j in
    let lin := Z.lxor lin x in
    let* v := idx table (Z.land (Z.shiftr lin j) 0x3F) in
    Ok (lin, Z.lor s (Z.shiftl v j), cd)) (lin, 0, cd).

(** src/unitycrunch/crn_unpacker.rs:333-383; the palette has three words per
    entry (:346-349), so that they are appended. *)
Definition unity_alpha_selectors (p_data : list Z) (h : header) : res (list Z) :=
  let num := p_num (h_alpha_selectors h) in
  let* src := slice_from p_data (p_ofs (h_alpha_selectors h)) in
  let* c := start_decoding src (p_size (h_alpha_selectors h)) in
  let* (dm, c) := receive_model m c in
  let* table := dxt5_from_linear in
  let* (_, _, pal, _) :=
    for_range 0 num (fun _ st =>
      let '(l0, l1, pal, cd) := st in
      let* (l0, s0, cd) := unity_alpha_half table dm (l0, cd) in
      let* (l1, s1, cd) := unity_alpha_half table dm (l1, cd) in
      Ok (l0, l1, pal ++ [u16 s0; u16 (Z.lor (Z.shiftr s0 16) (u32 (Z.shiftl s1 8))); u16 (Z.shiftr s1 8)],
          cd)) (0, 0, [], c) in
  Ok pal.

(** `WRITE_OR_U8_INTO_U16_BUFFER!`, src/macros.rs:69-79 *)
Definition write_or_u8 (buf : list Z) (index v : Z) : res (list Z) :=
  let t := Z.shiftr index 1 in
  let* old := idx buf t in
  let hi := u8 (Z.shiftr old 8) in
  let lo := u8 old in
  if negb (Z.land index 1 =? 1)
  then upd buf t (Z.lor (u16 (Z.shiftl hi 8)) (Z.lor lo (u16 v)))
  else upd buf t (Z.lor (u16 (Z.shiftl (Z.lor hi (u16 v)) 8)) lo).

(** src/unitycrunch/crn_unpacker.rs:423-436 (also :438-451, :494-507): the
    three bits [s] ending at bit [d], the bytes starting at [base] *)
Definition write_or_bits (buf : list Z) (base d s : Z) : res (list Z) :=
  let byte_offset := Z.shiftr d 3 in
  let bit_offset := Z.land d 7 in
  let* hi := ushl m 16 s (8 - bit_offset) in
  let* buf := write_or_u8 buf (base + byte_offset) (Z.land hi 255) in
  if bit_offset <? 3 then write_or_u8 buf (base + byte_offset - 1) (Z.shiftr s bit_offset)
  else Ok buf.

(** src/unitycrunch/crn_unpacker.rs:409-421 (also :480-492): the next 3-bit
    selector; state: the running values, the current group, the codec *)
Definition etc_alpha_value (dm : model) (p : Z) (st : list Z * Z * codec) : res (Z * (list Z * Z * codec)) :=
  let '(lin, group, cd) := st in
  let* (lin, group, cd) :=
    if Z.land p 1 =? 1 then Ok (lin, Z.shiftr group 3, cd)
    else
      let* (x, cd) := decode m dm cd in
      let* old := idx lin (Z.shiftr p 1) in
      let v := Z.lxor old (u8 x) in
      let* lin := upd lin (Z.shiftr p 1) v in
      Ok (lin, v, cd) in
  let s := Z.land group 7 in
  Ok (if s <=? 3 then 3 - s else s, (lin, group, cd)).

(** src/unitycrunch/crn_unpacker.rs:384-457 *)
Definition unity_alpha_selectors_etc (p_data : list Z) (h : header) : res (list Z) :=
  let num := p_num (h_alpha_selectors h) in
  let* src := slice_from p_data (p_ofs (h_alpha_selectors h)) in
  let* c := start_decoding src (p_size (h_alpha_selectors h)) in
  let* (dm, c) := receive_model m c in
  let* (_, pal, _) :=
    for_range 0 num (fun i st =>
      let '(lin, pal, cd) := st in
      let* (lin, _, pal, cd) :=
        for_range 0 16 (fun p st =>
          let '(lin, group, pal, cd) := st in
          let* (s, (lin, group, cd)) := etc_alpha_value dm p (lin, group, cd) in
          let d := 3 * (p + 1) in
          let* pal := write_or_bits pal (12 * i) d s in
          let d := d + 9 * (Z.land p 3 - Z.shiftr p 2) in
          let* pal := write_or_bits pal (12 * i + 6) d s in
          Ok (lin, group, pal, cd)) (lin, 0, pal, cd) in
      Ok (lin, pal, cd)) (repeat 0 8, repeat 0 (Z.to_nat (num * 6 + 1)), c) in
  Ok pal.

(** src/unitycrunch/crn_unpacker.rs:458-512 *)
Definition unity_alpha_selectors_etcs (p_data : list Z) (h : header) : res (list Z) :=
  let num := p_num (h_alpha_selectors h) in
  let* src := slice_from p_data (p_ofs (h_alpha_selectors h)) in
  let* c := start_decoding src (p_size (h_alpha_selectors h)) in
  let* (dm, c) := receive_model m c in
  let* (_, pal, _) :=
    for_range 0 num (fun i st =>
      let '(lin, pal, cd) := st in
      let* (lin, _, pal, cd) :=
        for_range 0 16 (fun p st =>
          let '(lin, group, pal, cd) := st in
          let* (s, (lin, group, cd)) := etc_alpha_value dm p (lin, group, cd) in
          let d := 3 * (p + 1) + 9 * (Z.land p 3 - Z.shiftr p 2) in
          let* pal := write_or_bits pal (6 * i) d s in
          Ok (lin, group, pal, cd)) (lin, 0, pal, cd) in
      Ok (lin, pal, cd)) (repeat 0 8, repeat 0 (Z.to_nat (num * 3 + 1)), c) in
  Ok pal.

(** src/unitycrunch/crn_unpacker.rs:56-70 with :122-151 *)
Definition unity_init (p_data : list Z) (data_size : Z) : res unpacker :=
  let* h := crnd_get_header p_data data_size in
  let* (first, e0, s0, e1, s1) := init_tables m p_data h in
  let* (ce, cs) :=
    if negb (p_num (h_color_endpoints h) =? 0) then
      let* ce := unity_color_endpoints p_data h in
      let* cs := unity_color_selectors p_data h in
      Ok (ce, cs)
    else Ok ([], []) in
  let* (ae, al) :=
    if negb (p_num (h_alpha_endpoints h) =? 0) then
      let* ae := decode_alpha_endpoints m p_data h in
      let* al := if h_format h =? FmtEtc2as then unity_alpha_selectors_etcs p_data h
                 else if h_format h =? FmtEtc2a then unity_alpha_selectors_etc p_data h
                 else unity_alpha_selectors p_data h in
      Ok (ae, al)
    else Ok ([], []) in
  Ok (mkUnpacker p_data data_size h first e0 e1 s0 s1 ce cs ae al).

(** src/unitycrunch/crn_decomp.rs:6-15 *)
Definition unity_unpack_begin (p_data : list Z) (data_size : Z) : res unpacker :=
  if data_size <? CRNHEADER_MIN_SIZE then Err "Data size is below the minimum allowed."
  else or_err "Failed to initialize Crunch decompressor." (unity_init p_data data_size).

(** The loops over faces, rows and blocks shared by the six unpackers, e.g.
    src/unitycrunch/crn_unpacker.rs:640-642, :649-706: [words] is the number of
    32-bit words per block, [body y x visible data_pos state] handles one block. *)
Definition unity_loops {S} (words pitch output_width output_height faces : Z)
    (body : Z -> Z -> bool -> Z -> S -> res S) (st : S) : res S :=
  let width := Z.land (output_width + 1) (Z.lnot 1) in
  let height := Z.land (output_height + 1) (Z.lnot 1) in
  let* diff := ua m 32 (Z.shiftr pitch 2 - width * words) in
  let delta_pitch := swrap 32 diff in
  let* (_, st) :=
    for_range 0 faces (fun _ st =>
      for_range 0 height (fun y st =>
        let '(data_pos, st) := st in
        let* (_, data_pos, st) :=
          for_range 0 width (fun x st =>
            let '(visible, data_pos, st) := st in
            let visible := visible && (x <? output_width) in
            let* st := body y x visible data_pos st in
            let* data_pos := ua m 64 (data_pos + words) in
            Ok (visible, data_pos, st)) (y <? output_height, data_pos, st) in
        let* data_pos := ua m 64 (data_pos + u64 delta_pitch) in
        Ok (data_pos, st)) st) (0, st) in
  Ok st.

(** src/unitycrunch/crn_unpacker.rs:655-670: the end point reference of a
    block; state: reference group, buffer element, codec.  Same in
    `unpack_dxt5` (:734-749), `unpack_dxt5a` (:840-855) and `unpack_dxn`
    (:921-936). *)
Definition unity_reference (msg : string) (u : unpacker) (y x group : Z) (buf : list elem) (cd : codec)
    : res (Z * Z * elem * codec) :=
  let* (group, cd) :=
    if (Z.land y 1 =? 0) && (Z.land x 1 =? 0) then
      let* (s, cd) := or_err msg (decode m (u_first_dm u) cd) in
      Ok (u8 s, cd)
    else Ok (group, cd) in
  let* b := idx buf x in
  if Z.land y 1 =? 1 then Ok (u8 (b_ref b), group, b, cd)
  else
    let r := Z.land group 3 in
    let group := Z.shiftr group 2 in
    let b := set_ref b (Z.land group 3) in
    Ok (r, Z.shiftr group 2, b, cd).

(** `index += delta; if index >= num { index -= num }` with a decoded delta,
    e.g. src/unitycrunch/crn_unpacker.rs:672-679 *)
Definition unity_advance (msg : string) (dm : model) (num index : Z) (cd : codec) : res (Z * codec) :=
  let* (s, cd) := or_err msg (decode m dm cd) in
  let* i := ua m 64 (index + s) in
  if num <=? i then Ok (i - num, cd) else Ok (i, cd).

(** src/unitycrunch/crn_unpacker.rs:654-701, one block; state: colour end
    point index, reference group, block buffer, codec, destination *)
Definition unity_dxt1_block (u : unpacker) (y x : Z) (visible : bool) (pos : Z)
    (st : Z * Z * list elem * codec * list Z) : res (Z * Z * list elem * codec * list Z) :=
  let '(ce, group, buf, cd, dst) := st in
  let msg := "Failed to decode DXT1 Texture."%string in
  let* (r, group, b, cd) := unity_reference msg u y x group buf cd in
  let* (ce, b, cd) :=
    if r =? 0 then
      let* (ce, cd) := unity_advance msg (u_endpoint_dm0 u) (zlen (u_color_endpoints u)) ce cd in
      Ok (ce, set_color b (u16 ce), cd)
    else if r =? 1 then Ok (ce, set_color b (u16 ce), cd)
    else Ok (b_color b, b, cd) in
  let* buf := upd buf x b in
  let* (cs, cd) := or_err msg (decode m (u_selector_dm0 u) cd) in
  if visible then
    let* e := idx (u_color_endpoints u) ce in
    let* dst := write_int m dst pos e in
    let* s := idx (u_color_selectors u) cs in
    let* dst := write_int m dst (pos + 1) s in
    Ok (ce, group, buf, cd, dst)
  else Ok (ce, group, buf, cd, dst).

(** `output_width` rounded up to an even number, e.g.
    src/unitycrunch/crn_unpacker.rs:640 *)
Definition even_width (output_width : Z) : Z := Z.land (output_width + 1) (Z.lnot 1).

(** src/unitycrunch/crn_unpacker.rs:632-708 (the block buffer starts empty) *)
Definition unity_unpack_dxt1 (u : unpacker) (cd : codec) (dst : list Z) (pitch ow oh : Z) : res (list Z) :=
  let buf := repeat default_elem (Z.to_nat (even_width ow)) in
  let* (_, dst) := unity_loops 2 pitch ow oh (h_faces (u_header u)) (unity_dxt1_block u)
                     (0, 0, buf, cd, dst) in
  Ok dst.

(** `&self.alpha_selectors[k..]` and its first three words, e.g.
    src/unitycrunch/crn_unpacker.rs:787 *)
Definition unity_alpha_words (u : unpacker) (k : Z) : res (Z * Z * Z) :=
  let* p := slice_from (u_alpha_selectors u) k in
  let* w0 := idx p 0 in
  let* w1 := idx p 1 in
  let* w2 := idx p 2 in
  Ok (w0, w1, w2).

(** src/unitycrunch/crn_unpacker.rs:733-809, one block; state: colour end
    point index, alpha end point index, reference group, block buffer, codec,
    destination *)
Definition unity_dxt5_block (u : unpacker) (y x : Z) (visible : bool) (pos : Z)
    (st : Z * Z * Z * list elem * codec * list Z) : res (Z * Z * Z * list elem * codec * list Z) :=
  let '(ce, ae, group, buf, cd, dst) := st in
  let msg := "Failed to decode DXT5 Texture."%string in
  let* (r, group, b, cd) := unity_reference msg u y x group buf cd in
  let* (ce, ae, b, cd) :=
    if r =? 0 then
      let* (ce, cd) := unity_advance msg (u_endpoint_dm0 u) (zlen (u_color_endpoints u)) ce cd in
      let b := set_color b (u16 ce) in
      let* (ae, cd) := unity_advance msg (u_endpoint_dm1 u) (zlen (u_alpha_endpoints u)) ae cd in
      Ok (ce, ae, set_alpha0 b (u16 ae), cd)
    else if r =? 1 then Ok (ce, ae, set_alpha0 (set_color b (u16 ce)) (u16 ae), cd)
    else Ok (b_color b, b_alpha0 b, b, cd) in
  let* buf := upd buf x b in
  let* (cs, cd) := or_err msg (decode m (u_selector_dm0 u) cd) in
  let* (al, cd) := or_err msg (decode m (u_selector_dm1 u) cd) in
  if visible then
    let* w := unity_alpha_words u (al * 3) in
    let* a := idx (u_alpha_endpoints u) ae in
    let* dst := write_alpha m u dst pos a w in
    let* e := idx (u_color_endpoints u) ce in
    let* dst := write_int m dst (pos + 2) e in
    let* s := idx (u_color_selectors u) cs in
    let* dst := write_int m dst (pos + 3) s in
    Ok (ce, ae, group, buf, cd, dst)
  else Ok (ce, ae, group, buf, cd, dst).

(** src/unitycrunch/crn_unpacker.rs:709-816 *)
Definition unity_unpack_dxt5 (u : unpacker) (cd : codec) (dst : list Z) (pitch ow oh : Z) : res (list Z) :=
  let buf := repeat default_elem (Z.to_nat (even_width ow)) in
  let* (_, dst) := unity_loops 4 pitch ow oh (h_faces (u_header u)) (unity_dxt5_block u)
                     (0, 0, 0, buf, cd, dst) in
  Ok dst.

(** src/unitycrunch/crn_unpacker.rs:839-889, one block; state: alpha end point
    index, reference group, block buffer, codec, destination *)
Definition unity_dxt5a_block (u : unpacker) (y x : Z) (visible : bool) (pos : Z)
    (st : Z * Z * list elem * codec * list Z) : res (Z * Z * list elem * codec * list Z) :=
  let '(ae, group, buf, cd, dst) := st in
  let msg := "Failed to decode DXT5A Texture."%string in
  let* (r, group, b, cd) := unity_reference msg u y x group buf cd in
  let* (ae, b, cd) :=
    if r =? 0 then
      let* (ae, cd) := unity_advance msg (u_endpoint_dm1 u) (zlen (u_alpha_endpoints u)) ae cd in
      Ok (ae, set_alpha0 b (u16 ae), cd)
    else if r =? 1 then Ok (ae, set_alpha0 b (u16 ae), cd)
    else Ok (b_alpha0 b, b, cd) in
  let* buf := upd buf x b in
  let* (al, cd) := or_err msg (decode m (u_selector_dm1 u) cd) in
  if visible then
    let* w := unity_alpha_words u (al * 3) in
    let* a := idx (u_alpha_endpoints u) ae in
    let* dst := write_alpha m u dst pos a w in
    Ok (ae, group, buf, cd, dst)
  else Ok (ae, group, buf, cd, dst).

(** src/unitycrunch/crn_unpacker.rs:817-896 *)
Definition unity_unpack_dxt5a (u : unpacker) (cd : codec) (dst : list Z) (pitch ow oh : Z) : res (list Z) :=
  let buf := repeat default_elem (Z.to_nat (even_width ow)) in
  let* (_, dst) := unity_loops 2 pitch ow oh (h_faces (u_header u)) (unity_dxt5a_block u)
                     (0, 0, buf, cd, dst) in
  Ok dst.

(** src/unitycrunch/crn_unpacker.rs:920-999, one block; state: the two alpha
    end point indices, reference group, block buffer, codec, destination *)
Definition unity_dxn_block (u : unpacker) (y x : Z) (visible : bool) (pos : Z)
    (st : Z * Z * Z * list elem * codec * list Z) : res (Z * Z * Z * list elem * codec * list Z) :=
  let '(a0, a1, group, buf, cd, dst) := st in
  let msg := "Failed to decode DXN Texture."%string in
  let num := zlen (u_alpha_endpoints u) in
  let* (r, group, b, cd) := unity_reference msg u y x group buf cd in
  let* (a0, a1, b, cd) :=
    if r =? 0 then
      let* (a0, cd) := unity_advance msg (u_endpoint_dm1 u) num a0 cd in
      let b := set_alpha0 b (u16 a0) in
      let* (a1, cd) := unity_advance msg (u_endpoint_dm1 u) num a1 cd in
      Ok (a0, a1, set_alpha1 b (u16 a1), cd)
    else if r =? 1 then Ok (a0, a1, set_alpha1 (set_alpha0 b (u16 a0)) (u16 a1), cd)
    else Ok (b_alpha0 b, b_alpha1 b, b, cd) in
  let* buf := upd buf x b in
  let* (s0, cd) := or_err msg (decode m (u_selector_dm1 u) cd) in
  let* (s1, cd) := or_err msg (decode m (u_selector_dm1 u) cd) in
  if visible then
    let* w0 := unity_alpha_words u (s0 * 3) in
    let* w1 := unity_alpha_words u (s1 * 3) in
    let* e0 := idx (u_alpha_endpoints u) a0 in
    let* dst := write_alpha m u dst pos e0 w0 in
    let* e1 := idx (u_alpha_endpoints u) a1 in
    let* dst := write_alpha m u dst (pos + 2) e1 w1 in
    Ok (a0, a1, group, buf, cd, dst)
  else Ok (a0, a1, group, buf, cd, dst).

(** src/unitycrunch/crn_unpacker.rs:897-1006 *)
Definition unity_unpack_dxn (u : unpacker) (cd : codec) (dst : list Z) (pitch ow oh : Z) : res (list Z) :=
  let buf := repeat default_elem (Z.to_nat (even_width ow)) in
  let* (_, dst) := unity_loops 4 pitch ow oh (h_faces (u_header u)) (unity_dxn_block u)
                     (0, 0, 0, buf, cd, dst) in
  Ok dst.

(** src/unitycrunch/crn_unpacker.rs:1064, :1084, :1195, :1216:
    `x.to_le_bytes()` of a u32 *)
Definition le4 (v : Z) : list Z := [u8 v; u8 (Z.shiftr v 8); u8 (Z.shiftr v 16); u8 (Z.shiftr v 24)].

(** src/unitycrunch/crn_unpacker.rs:1087-1095 (also :1227-1235): whether the
    two colours fit the differential mode (`u8` sums) *)
Definition etc_diff (e0 e1 : list Z) : res bool :=
  for_range 0 3 (fun c diff =>
    if (diff : bool) then
      let* a := idx e0 c in
      let* b := idx e1 c in
      let* a3 := ua m 8 (a + 3) in
      if b <=? a3 then
        let* b4 := ua m 8 (b + 4) in
        Ok (a <=? b4)
      else Ok false
    else Ok false) true.

(** src/unitycrunch/crn_unpacker.rs:1096-1104 (also :1236-1244): the first four
    bytes of an ETC1 block *)
Definition etc_block_endpoint (e0 e1 : list Z) (flip : Z) : res (list Z) :=
  let* diff := etc_diff e0 e1 in
  let* be :=
    for_range 0 3 (fun c acc =>
      let* a := idx e0 c in
      let* b := idx e1 c in
      let v := if (diff : bool) then Z.lor (u8 (Z.shiftl a 3)) (u8 (Z.land (b - a) 7))
               else Z.lor (Z.land (u8 (Z.shiftl a 3)) 0xF0) (Z.shiftr b 1) in
      upd acc c v) (repeat 0 4) in
  let* a := idx e0 3 in
  let* b := idx e1 3 in
  upd be 3 (Z.lor (Z.lor (Z.lor (u8 (Z.shiftl a 5)) (u8 (Z.shiftl b 2)))
                         (Z.shiftl (if diff then 1 else 0) 1)) flip).

(** src/unitycrunch/crn_unpacker.rs:1105-1108 (also :1261-1264) *)
Definition write_bytes4 (dst : list Z) (pos : Z) (b : list Z) : res (list Z) :=
  let* b0 := idx b 0 in
  let* dst := upd dst (pos * 4) b0 in
  let* b1 := idx b 1 in
  let* dst := upd dst (pos * 4 + 1) b1 in
  let* b2 := idx b 2 in
  let* dst := upd dst (pos * 4 + 2) b2 in
  let* b3 := idx b 3 in
  upd dst (pos * 4 + 3) b3.

(** src/unitycrunch/crn_unpacker.rs:1034-1044 (also :1152-1162): the reference
    of an ETC block and the buffer element *)
Definition unity_etc_reference (msg : string) (u : unpacker) (y : Z) (b : elem) (cd : codec)
    : res (Z * elem * codec) :=
  if Z.land y 1 =? 1 then Ok (u8 (b_ref b), b, cd)
  else
    let* (s, cd) := or_err msg (decode m (u_first_dm u) cd) in
    let g := u8 s in
    Ok (Z.lor (Z.land g 3) (Z.land (Z.shiftr g 2) 12),
        set_ref b (Z.lor (Z.land (Z.shiftr g 2) 3) (Z.land (Z.shiftr g 4) 12)), cd).

(** src/unitycrunch/crn_unpacker.rs:1030-1114, one block; state: colour end
    point index, diagonal colour end point index, block buffer, codec,
    destination *)
Definition unity_etc1_block (u : unpacker) (y x : Z) (visible : bool) (pos : Z)
    (st : Z * Z * list elem * codec * list Z) : res (Z * Z * list elem * codec * list Z) :=
  let '(ce, diag, buf, cd, dst) := st in
  let msg := "Failed to decode ETC1 Texture."%string in
  let num := zlen (u_color_endpoints u) in
  let* b := idx buf (Z.shiftl x 1) in
  let* (r, b, cd) := unity_etc_reference msg u y b cd in
  let low := Z.land r 3 in
  let* (ce, b, cd) :=
    if low =? 0 then
      let* (ce, cd) := unity_advance msg (u_endpoint_dm0 u) num ce cd in
      Ok (ce, set_color b (u16 ce), cd)
    else if low =? 1 then Ok (ce, set_color b (u16 ce), cd)
    else if low =? 3 then Ok (diag, set_color b (u16 diag), cd)
    else Ok (b_color b, b, cd) in
  let* buf := upd buf (Z.shiftl x 1) b in
  let r := Z.shiftr r 2 in
  let* v0 := idx (u_color_endpoints u) ce in
  let* (cs, cd) := or_err msg (decode m (u_selector_dm0 u) cd) in
  let* (ce, cd) := if negb (r =? 0) then unity_advance msg (u_endpoint_dm0 u) num ce cd
                   else Ok (ce, cd) in
  let k := Z.lor (Z.shiftl x 1) 1 in
  let* b1 := idx buf k in
  let diag := b_color b1 in
  let* buf := upd buf k (set_color b1 (u16 ce)) in
  let* v1 := idx (u_color_endpoints u) ce in
  if visible then
    let flip := Z.lxor (Z.shiftr r 1) 1 in
    let* be := etc_block_endpoint (le4 v0) (le4 v1) flip in
    let* dst := write_bytes4 dst pos be in
    let* s := idx (u_color_selectors u) (Z.lor (Z.shiftl cs 1) flip) in
    let* dst := write_int m dst (pos + 1) s in
    Ok (ce, diag, buf, cd, dst)
  else Ok (ce, diag, buf, cd, dst).

(** src/unitycrunch/crn_unpacker.rs:1007-1121 *)
Definition unity_unpack_etc1 (u : unpacker) (cd : codec) (dst : list Z) (pitch ow oh : Z) : res (list Z) :=
  let buf := repeat default_elem (Z.to_nat (Z.shiftl (even_width ow) 1)) in
  let* (_, dst) := unity_loops 2 pitch ow oh (h_faces (u_header u)) (unity_etc1_block u)
                     (0, 0, buf, cd, dst) in
  Ok dst.

(** src/unitycrunch/crn_unpacker.rs:1148-1270, one block; state: colour and
    alpha end point indices, their diagonal values, block buffer, codec,
    destination *)
Definition unity_etc2a_block (u : unpacker) (y x : Z) (visible : bool) (pos : Z)
    (st : Z * Z * Z * Z * list elem * codec * list Z) : res (Z * Z * Z * Z * list elem * codec * list Z) :=
  let '(ce, ae, diagc, diaga, buf, cd, dst) := st in
  let msg := "Failed to decode ETC2 Texture."%string in
  let num := zlen (u_color_endpoints u) in
  let* b := idx buf (Z.shiftl x 1) in
  let* (r, b, cd) := unity_etc_reference msg u y b cd in
  let low := Z.land r 3 in
  let* (ce, ae, b, cd) :=
    if low =? 0 then
      let* (ce, cd) := unity_advance msg (u_endpoint_dm0 u) num ce cd in
      let* (ae, cd) := unity_advance msg (u_endpoint_dm1 u) (zlen (u_alpha_endpoints u)) ae cd in
      Ok (ce, ae, set_alpha0 (set_color b (u16 ce)) (u16 ae), cd)
    else if low =? 1 then Ok (ce, ae, set_alpha0 (set_color b (u16 ce)) (u16 ae), cd)
    else if low =? 3 then Ok (diagc, diaga, set_alpha0 (set_color b (u16 diagc)) (u16 diaga), cd)
    else Ok (b_color b, b_alpha0 b, b, cd) in
  let* buf := upd buf (Z.shiftl x 1) b in
  let r := Z.shiftr r 2 in
  let* v0 := idx (u_color_endpoints u) ce in
  let* (cs, cd) := or_err msg (decode m (u_selector_dm0 u) cd) in
  let* (al, cd) := or_err msg (decode m (u_selector_dm1 u) cd) in
  let* (ce, cd) := if negb (r =? 0) then unity_advance msg (u_endpoint_dm0 u) num ce cd
                   else Ok (ce, cd) in
  let* v1 := idx (u_color_endpoints u) ce in
  let k := Z.lor (Z.shiftl x 1) 1 in
  let* b1 := idx buf k in
  let diagc := b_color b1 in
  let diaga := b_alpha0 b1 in
  let* buf := upd buf k (set_alpha0 (set_color b1 (u16 ce)) (u16 ae)) in
  if visible then
    let flip := Z.lxor (Z.shiftr r 1) 1 in
    let* be := etc_block_endpoint (le4 v0) (le4 v1) flip in
    let* w := unity_alpha_words u (if negb (flip =? 0) then al * 6 + 3 else al * 6) in
    let* a := idx (u_alpha_endpoints u) ae in
    let* dst := write_alpha m u dst pos a w in
    let* dst := write_bytes4 dst (pos + 2) be in
    let* s := idx (u_color_selectors u) (Z.lor (Z.shiftl cs 1) flip) in
    let* dst := write_int m dst (pos + 3) s in
    Ok (ce, ae, diagc, diaga, buf, cd, dst)
  else Ok (ce, ae, diagc, diaga, buf, cd, dst).

(** src/unitycrunch/crn_unpacker.rs:1122-1277 *)
Definition unity_unpack_etc2a (u : unpacker) (cd : codec) (dst : list Z) (pitch ow oh : Z) : res (list Z) :=
  let buf := repeat default_elem (Z.to_nat (Z.shiftl (even_width ow) 1)) in
  let* (_, dst) := unity_loops 4 pitch ow oh (h_faces (u_header u)) (unity_etc2a_block u)
                     (0, 0, 0, 0, buf, cd, dst) in
  Ok dst.

(** src/unitycrunch/crn_unpacker.rs:546-631 *)
Definition unity_unpack_level_2 (u : unpacker) (p_src : list Z) (src_size dst_size row_pitch level : Z)
    : res (list Z) :=
  let h := u_header u in
  let width := Z.max (Z.shiftr (h_width h) level) 1 in
  let height := Z.max (Z.shiftr (h_height h) level) 1 in
  let blocks_x := Z.shiftr (width + 3) 2 in
  let blocks_y := Z.shiftr (height + 3) 2 in
  let f := h_format h in
  let block_size := if (f =? FmtDxt1) || (f =? FmtDxt5a) || (f =? FmtEtc1) || (f =? FmtEtc2)
                       || (f =? FmtEtc1s) then 8 else 16 in
  let minimal := block_size * blocks_x in
  let* row_pitch :=
    if row_pitch =? 0 then Ok minimal
    else if (row_pitch <? minimal) || negb (Z.land row_pitch 3 =? 0)
    then Err "Crunch Row size is below the minimum allowed."
    else Ok row_pitch in
  let ret := repeat 0 (Z.to_nat (dst_size * h_faces h)) in
  let* need := ua m 32 (row_pitch * blocks_y) in
  if dst_size <? need then
    Err "Destination buffer size is smaller than what expected to decompress."
  else
    let* cd := or_err "Failed to initialize the decoding process." (start_decoding p_src src_size) in
    if (f =? FmtDxt1) || (f =? FmtEtc1s) then unity_unpack_dxt1 u cd ret row_pitch blocks_x blocks_y
    else if (f =? FmtDxt5) || (f =? FmtDxt5CcxY) || (f =? FmtDxt5XGbr) || (f =? FmtDxt5Agbr)
            || (f =? FmtDxt5XGxR) || (f =? FmtEtc2as)
    then unity_unpack_dxt5 u cd ret row_pitch blocks_x blocks_y
    else if f =? FmtDxt5a then unity_unpack_dxt5a u cd ret row_pitch blocks_x blocks_y
    else if (f =? FmtDxnXy) || (f =? FmtDxnYx)
    then unity_unpack_dxn u cd ret row_pitch blocks_x blocks_y
    else if (f =? FmtEtc1) || (f =? FmtEtc2)
    then unity_unpack_etc1 u cd ret row_pitch blocks_x blocks_y
    else if f =? FmtEtc2a then unity_unpack_etc2a u cd ret row_pitch blocks_x blocks_y
    else Err "Invalid format for unpacking.".

(** src/unitycrunch/crn_unpacker.rs:513-545 *)
Definition unity_crnd_unpack_level (u : unpacker) (dst_size row_pitch level : Z) : res (list Z) :=
  if (dst_size <? 8) || (CRNMAX_LEVELS <=? level) then Err "Destination buffer size is too small."
  else
    let* (src, size) := level_source u level in
    unity_unpack_level_2 u src size dst_size row_pitch level.

(** src/unitycrunch/crn_decomp.rs:17-38 *)
Definition unity_bits_per_texel (f : Z) : res Z :=
  if (f =? FmtDxt1) || (f =? FmtDxt5a) || (f =? FmtEtc1) || (f =? FmtEtc2) || (f =? FmtEtc1s) then Ok 4
  else if (f =? FmtDxt3) || (f =? FmtDxt5) || (f =? FmtDxnXy) || (f =? FmtDxnYx) || (f =? FmtDxt5CcxY)
          || (f =? FmtDxt5XGxR) || (f =? FmtDxt5XGbr) || (f =? FmtDxt5Agbr) || (f =? FmtEtc2a)
          || (f =? FmtEtc2as) then Ok 8
  else Err "Texture format is not supported.".

(** src/unitycrunch/crn_decomp.rs:40-42 *)
Definition unity_bytes_per_dxt_block (f : Z) : res Z :=
  let* b := unity_bits_per_texel f in Ok (Z.shiftr (Z.shiftl b 4) 3).

(** src/unitycrunch.rs:9-34 *)
Definition unity_crunch_unpack_level (data : list Z) (data_size level : Z) : res (Z * list Z) :=
  let* info := or_err "Invalid crunch texture encoding." (crnd_get_texture_info data data_size) in
  let* u := unity_unpack_begin data data_size in
  let width := Z.max 1 (Z.shiftr (i_width info) level) in
  let height := Z.max 1 (Z.shiftr (i_height info) level) in
  let blocks_x := Z.max 1 (Z.shiftr (width + 3) 2) in
  let blocks_y := Z.max 1 (Z.shiftr (height + 3) 2) in
  let* bpb := unity_bytes_per_dxt_block (i_format info) in
  let* row_pitch := ua m 32 (blocks_x * bpb) in
  let* total := ua m 32 (row_pitch * blocks_y) in
  let* out := unity_crnd_unpack_level u total row_pitch level in
  Ok (i_format info, out).

(** src/unitycrunch.rs:36-68 *)
Definition decode_unity_crunch (data : list Z) (width height : Z) (image : list Z)
    : res (status * list Z) :=
  with_level (unity_crunch_unpack_level data (u32 (zlen data)) 0) image (fun f dxt =>
    if f =? FmtDxt1 then decode_bc1 m dxt width height image
    else if (f =? FmtEtc1) || (f =? FmtEtc1s) then decode_etc1 m dxt width height image
    else if (f =? FmtDxt5) || (f =? FmtDxt5CcxY) || (f =? FmtDxt5XGbr) || (f =? FmtDxt5Agbr)
            || (f =? FmtDxt5XGxR)
    then decode_bc3 m dxt width height image
    else if f =? FmtDxt5a then decode_bc4 m dxt width height image
    else if (f =? FmtDxnXy) || (f =? FmtDxnYx) then decode_bc5 m dxt width height image
    else if f =? FmtEtc2 then decode_etc2_rgb m dxt width height image
    else if (f =? FmtEtc2a) || (f =? FmtEtc2as) then decode_etc2_rgba8 m dxt width height image
    else Ok (Failed "Invalid crunch format.", image)).

End WithBuild.
