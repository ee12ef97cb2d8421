(** * C29-C35 and C47-C53: ASTC *)
From Verif Require Import Base BaseLemmas ModelColor SpecImage SpecBc SpecF16 ProofImage ModelAstc SpecAstc ProofAstcSeq ProofAstcParams ProofAstcEnd ProofAstcWeights ProofAstcRange ProofAstcColor ProofAstcBlock ProofAstcImage SpecAstcCode ProofAstcMore.

(** The footprints of the exported functions. *)
Definition footprint (bw bh : Z) : Prop :=
  In (bw, bh) [(4, 4); (5, 4); (5, 5); (6, 5); (6, 6); (8, 5); (8, 6); (8, 8); (10, 5); (10, 6); (10, 8); (10, 10); (12, 10); (12, 12)].
Lemma footprint_size bw bh : footprint bw bh -> 4 <= bw <= 12 /\ 4 <= bh <= 12 /\ bw * bh <= 144.
Proof.
  intros H. unfold footprint in H. cbn [In] in H.
  repeat (destruct H as [E|H]; [injection E as <- <-; lia|]). destruct H.
Qed.

(** Sizes that do not overflow. *)
Definition astc_sane (data : list Z) (w h bw bh : Z) (image : list Z) : Prop :=
  bytes data /\ 0 < bw /\ 0 < bh /\ 0 <= w < 2 ^ 64 /\ 0 <= h < 2 ^ 64 /\ 4 * zlen image < 2 ^ 63 /\
  w * h < 2 ^ 64 /\ blocks w bw * blocks h bh * 16 < 2 ^ 64.

(** ** C29 *)
(** The data, then the image, then the block area is checked. *)
Theorem C29_validation m data w h bw bh image : astc_sane data w h bw bh image ->
  let need := blocks w bw * blocks h bh * 16 in
  (bw * bh <= 144 -> zlen data < need -> decode_astc m data w h bw bh image = Ok (Failed "Not enough data to decode image!", image)) /\
  (bw * bh <= 144 -> need <= zlen data -> zlen image < w * h -> decode_astc m data w h bw bh image = Ok (Failed "Image buffer is too small!", image)) /\
  (144 < bw * bh < 2 ^ 64 -> need <= zlen data -> w * h <= zlen image ->
     decode_astc m data w h bw bh image = Ok (Failed "Block size is too big!", image)).
Proof.
  intros (Hb & Hw & Hh & W & H & F & A & N). cbv zeta. split; [|split].
  - intros _. apply astc_validation; auto.
  - intros _. apply astc_validation; auto.
  - intros. apply astc_too_big; auto; lia.
Qed.
(** A block side of zero is a division by zero. *)
Theorem C29_zero_side_code m data w h bw bh image : bw = 0 \/ bh = 0 -> decode_astc m data w h bw bh image = Panic.
Proof. intros [-> | ->]; unfold decode_astc; [reflexivity|]. rewrite orb_true_r. reflexivity. Qed.
(** The functions with a fixed footprint: one for each of the format's
    footprints in two dimensions. *)
Theorem C29_footprints : (forall bw bh, In (bw, bh) astc_footprints <-> footprint bw bh) /\
  forall m bw bh data w h image, decode_astc_sized m bw bh data w h image = decode_astc m data w h bw bh image.
Proof. split; [intros; unfold footprint; cbn; tauto|reflexivity]. Qed.
(** Texel [t] of block [k] as decoded on its own (from the bytes of the file
    from the block on) into a fresh buffer. *)
Definition block_texel (m : build) (data : list Z) (bw bh k t : Z) : Z :=
  match decode_astc_block m (skipn (Z.to_nat (16 * k)) data) bw bh (repeat 0 144) with Ok o => znth o t | _ => 0 end.
Definition block_decodes (m : build) (data : list Z) (bw bh k : Z) : Prop :=
  exists o, decode_astc_block m (skipn (Z.to_nat (16 * k)) data) bw bh (repeat 0 144) = Ok o.
(** Ok exactly when every block decodes, and then pixel (x,y) is the texel of
    the block covering it and all else is unchanged. *)
Theorem C29_placement m data w h bw bh image : astc_sane data w h bw bh image -> bw * bh <= 144 ->
  blocks w bw * blocks h bh * 16 <= zlen data -> w * h <= zlen image ->
  ((forall k, 0 <= k < blocks w bw * blocks h bh -> block_decodes m data bw bh k) ->
     exists image', decode_astc m data w h bw bh image = Ok (Done, image')) /\
  (forall st image', decode_astc m data w h bw bh image = Ok (st, image') ->
     st = Done /\
     (forall k, 0 <= k < blocks w bw * blocks h bh -> block_decodes m data bw bh k) /\
     placed bw bh (block_texel m data bw bh) w h image image').
Proof.
  intros (Hb & Hw & Hh & W & H & F & A & N) Ha Hd Hi.
  assert (forall k, block_decodes m data bw bh k -> forall out, bw * bh <= zlen out ->
    exists o, decode_astc_block m (skipn (Z.to_nat (16 * k)) data) bw bh out = Ok o /\
      filled 0 out o (bw * bh) (block_texel m data bw bh k)) as U.
  { intros k (o & E). destruct (block_uniform m _ bw bh (repeat 0 144) o ltac:(lia) ltac:(lia) Ha Ha E) as (T & HT).
    intros out Ho. destruct (HT out Ho) as (o' & E' & L' & F'). exists o'. split; [exact E'|]. split; [exact L'|].
    intros q Hq. rewrite F' by auto. destruct (Z.ltb_spec q (bw * bh)); [|reflexivity].
    unfold block_texel. rewrite E. destruct (HT (repeat 0 144) Ha) as (o2 & E2 & L2 & F2). assert (o2 = o) as -> by congruence.
    unfold znth. rewrite F2 by auto. destruct (Z.ltb_spec q (bw * bh)); [reflexivity|lia]. }
  split.
  - intros HB. destruct (astc_image m data w h bw bh image) with (T := block_texel m data bw bh) as (im & E & _); auto; [|eauto].
    intros k Hk. apply U, HB. lia.
  - intros st im E.
    assert (forall k, 0 <= k < blocks w bw * blocks h bh -> block_decodes m data bw bh k) as HB.
    { intros k Hk. destruct (astc_image_inv m data w h bw bh image Hw Hh Ha W H A N Hd Hi st im E k ltac:(lia)) as (T & HT).
      destruct (HT (repeat 0 144) Ha) as (o & Eo & _). exists o. exact Eo. }
    destruct (astc_image m data w h bw bh image) with (T := block_texel m data bw bh) as (im' & E' & P'); auto.
    { intros k Hk. apply U, HB. lia. }
    assert (st = Done /\ im = im') as [-> ->] by (split; congruence). auto.
Qed.
(** With well-formed blocks only: the picture described by the format (up to
    the sign extension of C49). *)
Theorem C29_well_formed_image m data w h bw bh image : astc_sane data w h bw bh image -> 2 <= bw -> 2 <= bh -> bw * bh <= 144 ->
  blocks w bw * blocks h bh * 16 <= zlen data -> w * h <= zlen image ->
  (forall k, 0 <= k < blocks w bw * blocks h bh -> well_formed (astc_word (block_bytes 16 k data))) ->
  exists image', decode_astc m data w h bw bh image = Ok (Done, image') /\
    picture bw bh 16 (fun b => astc_texel_with extend16 bw bh (astc_word b)) data w h image image'.
Proof.
  intros (Hb & Hw & Hh & W & H & F & A & N) Hw2 Hh2 Ha Hd Hi WF.
  destruct (astc_image m data w h bw bh image) with (T := fun k => astc_texel_with extend16 bw bh (astc_word (block_bytes 16 k data))) as (im & E & P); auto.
  - intros k Hk out Ho. rewrite <- word_of_block. apply well_formed_block; auto.
    + rewrite zlen_skipn. lia.
    + rewrite word_of_block. apply WF. lia.
  - exists im. split; [exact E|exact P].
Qed.

(** Two test blocks: a void-extent one and a legal one (4x4 weights of 2
    levels, luminance from 64 to 191). *)
Definition ex_void : list Z := [0xfc; 0xfd; 255; 255; 255; 255; 255; 255; 1; 10; 2; 20; 3; 30; 4; 40].
Definition ex_legal : list Z := [0x41; 0; 128; 126; 1; 0; 0; 0; 0; 0; 0; 0; 0; 0; 0; 0xa5].
Example C29_ex : astc_sane (ex_void ++ ex_legal) 6 3 4 4 (repeat 7 20) /\
  decode_astc Checked (ex_void ++ ex_legal) 6 3 4 4 (repeat 7 20) =
    (let v := 0x280a141e in let l := 0xff404040 in let u := 0xffbfbfbf in
     Ok (Done, [v; v; v; v; u; l;  v; v; v; v; l; u;  v; v; v; v; l; l;  7; 7])) /\
  decode_astc Checked (ex_void ++ [0]) 6 3 4 4 (repeat 7 20) = Ok (Failed "Not enough data to decode image!", repeat 7 20) /\
  decode_astc Checked (ex_void ++ ex_legal) 6 3 4 4 (repeat 7 17) = Ok (Failed "Image buffer is too small!", repeat 7 17) /\
  decode_astc Checked (ex_void ++ ex_legal) 6 3 13 12 (repeat 7 20) = Ok (Failed "Block size is too big!", repeat 7 20).
Proof.
  split; [|vm_compute; auto 10]. split; [repeat constructor; unfold is_byte; lia|]. vm_compute. intuition discriminate.
Qed.
Print Assumptions C29_validation.
Print Assumptions C29_zero_side_code.
Print Assumptions C29_footprints.
Print Assumptions C29_placement.
Print Assumptions C29_well_formed_image.

(** ** C30 *)
Definition C30_statement : Prop := forall m bw bh buf, footprint bw bh -> bytes buf -> zlen buf = 16 ->
  exists o, decode_astc_block m buf bw bh (repeat 0 144) = Ok o.
(** Well-formed blocks decode.  Missing: blocks whose fields do not fit into
    the 128 bits or which have more than 64 weights, and void-extent blocks with
    minus infinity (C31). *)
Theorem C30_no_panic_partial m bw bh buf out : footprint bw bh -> bytes buf -> 16 <= zlen buf -> bw * bh <= zlen out ->
  well_formed (astc_word buf) -> exists o, decode_astc_block m buf bw bh out = Ok o /\ zlen o = zlen out.
Proof.
  intros F Hb Hl Ho WF. destruct (footprint_size _ _ F) as (A & B & C).
  destruct (well_formed_block m buf bw bh Hb Hl ltac:(lia) ltac:(lia) C WF out Ho) as (o & E & L & _). eauto.
Qed.
(** A 12x5 dual plane grid (120 weights): the weight buffer is overrun, in both builds. *)
Definition ex_many_weights : list Z := [0x64; 0x04] ++ repeat 0 14.
Theorem C30_many_weights_refuted : ~ C30_statement /\
  (forall m, decode_astc_block m ex_many_weights 12 12 (repeat 0 144) = Panic).
Proof.
  assert (forall m, decode_astc_block m ex_many_weights 12 12 (repeat 0 144) = Panic) as P by (intros []; vm_compute; reflexivity).
  split; [|exact P]. intros H. destruct (H Checked 12 12 ex_many_weights) as (o & E).
  - unfold footprint. cbn [In]. tauto.
  - repeat constructor; unfold is_byte; lia.
  - reflexivity.
  - rewrite P in E. discriminate E.
Qed.
(** 96 bits of weights and 32 colour values: the end points are read past the block. *)
Definition ex_no_room : list Z := [0x57; 0x18; 0; 0x18] ++ repeat 0 12.
Theorem C30_no_room_refuted : forall m, decode_astc_block m ex_no_room 4 4 (repeat 0 144) = Panic.
Proof. intros []; vm_compute; reflexivity. Qed.
Example C30_ex : well_formed (astc_word ex_legal) /\ well_formed (astc_word ex_void) /\ well_formed 0 /\
  ~ well_formed (astc_word ex_many_weights) /\ ~ well_formed (astc_word ex_no_room).
Proof.
  unfold well_formed, fitting. repeat split; try (intros [_ [H|[H|H]]]; revert H; vm_compute; congruence); try (vm_compute; reflexivity).
  - right. right. vm_compute. discriminate.
  - left. reflexivity.
  - right. left. reflexivity.
Qed.
Print Assumptions C30_no_panic_partial.
Print Assumptions C30_many_weights_refuted.
Print Assumptions C30_no_room_refuted.

(** ** C31 *)
Definition C31_statement : Prop := forall m bw bh buf out, 0 <= bw * bh <= 144 -> bytes buf -> 16 <= zlen buf -> bw * bh <= zlen out ->
  znth buf 0 = 0xfc -> Z.testbit (znth buf 1) 0 = true ->
  exists o, decode_astc_block m buf bw bh out = Ok o /\ zlen o = zlen out /\
    (forall t, 0 <= t < bw * bh -> znth o t =
       if Z.testbit (znth buf 1) 1
       then rgba (half_byte (znth buf 8 + 256 * znth buf 9)) (half_byte (znth buf 10 + 256 * znth buf 11))
                 (half_byte (znth buf 12 + 256 * znth buf 13)) (half_byte (znth buf 14 + 256 * znth buf 15))
       else rgba (znth buf 9) (znth buf 11) (znth buf 13) (znth buf 15)) /\
    (forall t, bw * bh <= t -> znth o t = znth out t).
(** Missing: half-float colours with minus infinity (0xfc00). *)
Theorem C31_void_extent_partial m bw bh buf out : 0 <= bw * bh <= 144 -> bytes buf -> 16 <= zlen buf -> bw * bh <= zlen out ->
  znth buf 0 = 0xfc -> Z.testbit (znth buf 1) 0 = true ->
  (Z.testbit (znth buf 1) 1 = true -> forall c, 0 <= c < 4 -> znth buf (8 + 2 * c) + 256 * znth buf (9 + 2 * c) <> 0xfc00) ->
  exists o, decode_astc_block m buf bw bh out = Ok o /\ zlen o = zlen out /\
    (forall t, 0 <= t < bw * bh -> znth o t =
       if Z.testbit (znth buf 1) 1
       then rgba (half_byte (znth buf 8 + 256 * znth buf 9)) (half_byte (znth buf 10 + 256 * znth buf 11))
                 (half_byte (znth buf 12 + 256 * znth buf 13)) (half_byte (znth buf 14 + 256 * znth buf 15))
       else rgba (znth buf 9) (znth buf 11) (znth buf 13) (znth buf 15)) /\
    (forall t, bw * bh <= t -> znth o t = znth out t).
Proof. exact (void_bytes m bw bh buf out). Qed.
(** All void-extent blocks: with overflow checks minus infinity is a panic,
    without it becomes 255 ([code_half_byte]). *)
Theorem C31_void_extent_code m bw bh buf out : 0 <= bw * bh <= 144 -> bytes buf -> 16 <= zlen buf -> bw * bh <= zlen out ->
  znth buf 0 = 0xfc -> Z.testbit (znth buf 1) 0 = true ->
  let hdr := Z.testbit (znth buf 1) 1 in
  let h c := znth buf (8 + 2 * c) + 256 * znth buf (9 + 2 * c) in
  if hdr && existsb (fun c => h c =? 0xfc00) [0; 1; 2; 3] && match m with Checked => true | Wrapping => false end
  then decode_astc_block m buf bw bh out = Panic
  else exists o, decode_astc_block m buf bw bh out = Ok o /\ zlen o = zlen out /\
    (forall t, 0 <= t < bw * bh -> znth o t =
       if hdr then rgba (code_half_byte (h 0)) (code_half_byte (h 1)) (code_half_byte (h 2)) (code_half_byte (h 3))
       else rgba (znth buf 9) (znth buf 11) (znth buf 13) (znth buf 15)) /\
    (forall t, bw * bh <= t -> znth o t = znth out t).
Proof. exact (void_bytes_any m bw bh buf out). Qed.
(** A block of minus infinity in red, 0 elsewhere and alpha 1. *)
Definition ex_neg_inf : list Z := [0xfc; 0xff; 255; 255; 255; 255; 255; 255; 0; 0xfc; 0; 0; 0; 0; 0; 0x3c].
Theorem C31_minus_infinity_refuted : ~ C31_statement /\ ~ C30_statement /\
  decode_astc_block Checked ex_neg_inf 4 4 (repeat 7 16) = Panic /\
  decode_astc_block Wrapping ex_neg_inf 4 4 (repeat 7 16) = Ok (repeat (rgba 255 0 0 255) 16) /\
  rgba (half_byte 0xfc00) (half_byte 0) (half_byte 0) (half_byte 0x3c00) = rgba 0 0 0 255.
Proof.
  assert (decode_astc_block Checked ex_neg_inf 4 4 (repeat 7 16) = Panic) as P by (vm_compute; reflexivity).
  assert (bytes ex_neg_inf) as B by (repeat constructor; unfold is_byte; lia).
  split; [|split].
  - intros H. destruct (H Checked 4 4 ex_neg_inf (repeat 7 16)) as (o & E & _); try lia; try (vm_compute; discriminate); auto.
  - intros H. destruct (H Checked 4 4 ex_neg_inf) as (o & E); [left; reflexivity|exact B|reflexivity|]. vm_compute in E. discriminate E.
  - split; [exact P|]. split; vm_compute; reflexivity.
Qed.
Example C31_ex : znth ex_void 0 = 0xfc /\ Z.testbit (znth ex_void 1) 0 = true /\ Z.testbit (znth ex_void 1) 1 = false /\
  rgba 10 20 30 40 = 0x280a141e /\
  decode_astc_block Checked [0xfc; 0xff; 255; 255; 255; 255; 255; 255; 0; 0x3c; 0; 0x38; 0; 0x34; 0; 0x40] 2 2 [1; 2; 3; 4; 5] =
    Ok [rgba 255 127 63 255; rgba 255 127 63 255; rgba 255 127 63 255; rgba 255 127 63 255; 5].
Proof. vm_compute. auto 10. Qed.
Print Assumptions C31_void_extent_partial.
Print Assumptions C31_void_extent_code.
Print Assumptions C31_minus_infinity_refuted.

(** ** C32 *)
Theorem C32_integer_sequences m kd buf offset a n count reverse out :
  bytes buf -> 16 <= zlen buf -> quant_ok kd n ->
  (match kd with Bits => a <> 3 /\ a <> 5 | _ => a = radix_size kd end) ->
  0 <= count <= zlen out ->
  (if reverse : bool then seq_size kd n count <= offset <= 128 else 0 <= offset /\ offset + seq_size kd n count <= 128) ->
  exists out', decode_intseq m buf offset a n count reverse out = Ok out' /\ zlen out' = zlen out /\
    forall i, 0 <= i -> nth (Z.to_nat i) out' (0, 0) =
      if i <? count then
        seq_entry kd n (if reverse then bfield (rev_bits 128 (astc_word buf)) (128 - offset) (seq_size kd n count)
                        else bfield (astc_word buf) offset (seq_size kd n count)) i
      else nth (Z.to_nat i) out (0, 0).
Proof.
  intros Hb Hl Hq Ha Hc Hf. destruct (intseq_ok m kd buf offset a n count reverse out Hb Hl Hq) as (o & E & L & F); auto.
  - destruct kd; exact Ha.
  - exists o. split; [exact E|]. split; [exact L|]. exact F.
Qed.
(** The packed digits: every combination of five trits (three quints) has a
    code, and codes give trits (quints) only. *)
Theorem C32_trit_codes t0 t1 t2 t3 t4 :
  0 <= t0 < 3 -> 0 <= t1 < 3 -> 0 <= t2 < 3 -> 0 <= t3 < 3 -> 0 <= t4 < 3 ->
  exists T, 0 <= T < 256 /\ trit_digits T = [t0; t1; t2; t3; t4].
Proof. exact (trit_codes t0 t1 t2 t3 t4). Qed.
Theorem C32_quint_codes q0 q1 q2 :
  0 <= q0 < 5 -> 0 <= q1 < 5 -> 0 <= q2 < 5 -> exists Q, 0 <= Q < 128 /\ quint_digits Q = [q0; q1; q2].
Proof. exact (quint_codes q0 q1 q2). Qed.
Example C32_ex : let buf := [0x5b; 0x9c; 0x31; 0x77] ++ repeat 0 12 in
  seq_size Trits 2 7 = 26 /\ quant_ok Trits 2 /\
  decode_intseq Checked buf 3 3 2 7 false (repeat (9, 9) 8) =
    Ok [(3, 2); (0, 2); (3, 0); (2, 1); (0, 1); (1, 2); (3, 2); (9, 9)].
Proof. vm_compute. intuition discriminate. Qed.
Print Assumptions C32_integer_sequences.
Print Assumptions C32_trit_codes.
Print Assumptions C32_quint_codes.

(** ** C33 *)
(** All weights of any block that decodes, well-formed or not. *)
Theorem C33_weights_in_range m buf bw bh d ws : bytes buf -> 16 <= zlen buf -> block_mode (astc_word buf) <> None ->
  decode_block_params m buf = Ok d -> decode_weights m buf bw bh d = Ok ws ->
  forall row w, In row ws -> In w row -> 0 <= w <= 64.
Proof.
  intros Hb Hl HM Hd Hw. destruct (block_mode (astc_word buf)) as [g|] eqn:M; [|congruence].
  destruct (params_range m buf d g Hb Hl M Hd) as (R & _).
  pose proof (block_grid_ok buf Hb Hl) as G. cbv zeta in G. rewrite M in G.
  destruct G as (_ & _ & _ & _ & _ & _ & k & n & Q & _). rewrite <- R in Q.
  pose proof (decode_weights_in m buf bw bh d _ ws Q Hw) as F.
  intros row w I1 I2. rewrite Forall_forall in F. specialize (F row I1). rewrite Forall_forall in F. exact (F w I2).
Qed.
(** The unquantization gives exactly the levels of the specification's tables,
    one value for each level. *)
Theorem C33_unquantization_tables m k n levels : In (k, n, levels) weight_levels ->
  zlen levels = radix_size k * 2 ^ n /\
  (forall v d, 0 <= v < 2 ^ n -> 0 <= d < radix_size k ->
     exists w, unquant_weight m (radix_code k) n (v, d) = Ok w /\ In w levels) /\
  (forall w, In w levels -> exists v d, 0 <= v < 2 ^ n /\ 0 <= d < radix_size k /\ unquant_weight m (radix_code k) n (v, d) = Ok w).
Proof. exact (weight_tables m k n levels). Qed.
(** The weights of a legal block, infilled. *)
Theorem C33_weights_exact m buf bw bh l : bytes buf -> 16 <= zlen buf -> 2 <= bw -> 2 <= bh -> bw * bh <= 144 ->
  block_layout (astc_word buf) = Some l ->
  exists d ws, decode_block_params m buf = Ok d /\ decode_weights m buf bw bh d = Ok ws /\
    forall t p, 0 <= t < bw * bh -> 0 <= p < (if g_dual (l_grid l) then 2 else 1) ->
      znth (nth (Z.to_nat t) ws []) p =
      infill bw bh (g_width (l_grid l)) (g_height (l_grid l)) (if g_dual (l_grid l) then 2 else 1)
        (weights_of (astc_word buf) l) p (t mod bw) (t / bw).
Proof. exact (legal_weights m buf bw bh l). Qed.
Example C33_ex : let buf := [0x45; 0x04] ++ repeat 0 8 ++ [1; 2; 3; 4; 5; 0xb6] in
  match decode_block_params Checked buf with
  | Ok d => bp_dual_plane d = true /\ bp_width d = 8 /\ bp_height d = 4 /\
      match decode_weights Checked buf 4 4 d with
      | Ok ws => firstn 4 ws = [[64; 0]; [20; 44]; [0; 0]; [0; 64]]
      | _ => False
      end
  | _ => False
  end.
Proof. vm_compute. auto. Qed.
Print Assumptions C33_weights_in_range.
Print Assumptions C33_unquantization_tables.
Print Assumptions C33_weights_exact.

(** ** C34 *)
Theorem C34_partition m buf bw bh parts : bytes buf -> 16 <= zlen buf -> 1 <= bw -> 1 <= bh -> bw * bh <= 144 -> 2 <= parts <= 4 ->
  exists ps, select_partition m buf bw bh parts = Ok ps /\ zlen ps = 144 /\
    forall x y, 0 <= x < bw -> 0 <= y < bh ->
      znth ps (y * bw + x) = partition (bfield (astc_word buf) 13 10) parts x y (bw * bh <? 31) /\
      0 <= znth ps (y * bw + x) < parts.
Proof. exact (partition_at m buf bw bh parts). Qed.
Example C34_ex : match select_partition Checked [0; 240; 30; 0x7f; 1; 2; 3; 4; 5; 6; 7; 8; 9; 10; 11; 12] 4 4 3 with
  | Ok ps => firstn 16 ps = [2; 2; 2; 2;  1; 1; 0; 0;  1; 1; 0; 0;  0; 1; 0; 0]
  | _ => False
  end.
Proof. vm_compute. auto. Qed.
Print Assumptions C34_partition.

(** ** C35 *)
Definition ldr_mode (cem : Z) : bool := existsb (Z.eqb cem) [0; 1; 4; 5; 6; 8; 9; 10; 12; 13].
Theorem C35_ldr_end_points m cem v : 0 <= cem < 16 -> ldr_mode cem = true -> bytes v -> cem_values cem <= zlen v ->
  let '((r0, g0, b0, a0), (r1, g1, b1, a1)) := end_points cem (znth v) in
  decode_cem m cem v = Ok [r0; g0; b0; a0; r1; g1; b1; a1] /\
  is_byte r0 /\ is_byte g0 /\ is_byte b0 /\ is_byte a0 /\ is_byte r1 /\ is_byte g1 /\ is_byte b1 /\ is_byte a1.
Proof. exact (ldr_ends m cem v). Qed.
Example C35_ex : decode_cem Checked 13 [200; 100; 30; 250; 77; 131; 9; 255] = Ok [126; 153; 167; 131; 133; 154; 166; 132] /\
  decode_cem Checked 9 [10; 255; 30; 250; 77; 131] = Ok [149; 153; 167; 255; 149; 154; 166; 255] /\
  decode_cem Checked 1 [200; 100] = Ok [114; 114; 114; 255; 150; 150; 150; 255].
Proof. vm_compute. auto. Qed.
Print Assumptions C35_ldr_end_points.

(** ** C47 *)
Definition C47_statement : Prop := forall m bw bh buf out, footprint bw bh -> bytes buf -> 16 <= zlen buf -> bw * bh <= zlen out ->
  decode_astc_block m buf bw bh out = decode_astc_block m (firstn 16 buf) bw bh out.
(** Missing: malformed blocks. *)
Theorem C47_own_bytes_partial m bw bh buf out : footprint bw bh -> bytes buf -> 16 <= zlen buf -> bw * bh <= zlen out ->
  well_formed (astc_word buf) -> decode_astc_block m buf bw bh out = decode_astc_block m (firstn 16 buf) bw bh out.
Proof.
  intros F Hb Hl Ho WF. destruct (footprint_size _ _ F) as (A & B & C). apply block_local; auto; lia.
Qed.
(** The colours of a malformed block come from the blocks behind it. *)
Theorem C47_next_blocks_refuted : ~ C47_statement /\
  (forall m, decode_astc_block m (ex_no_room ++ repeat 0 32) 4 4 (repeat 0 16) = Ok (repeat 0 16) /\
     exists o, decode_astc_block m (ex_no_room ++ repeat 255 32) 4 4 (repeat 0 16) = Ok o /\ znth o 0 = 0xffffffff).
Proof.
  split.
  - intros H. specialize (H Checked 4 4 (ex_no_room ++ repeat 0 32) (repeat 0 16)).
    vm_compute in H. discriminate H; [left; reflexivity|repeat constructor; unfold is_byte; discriminate|discriminate|discriminate].
  - intros []; (split; [vm_compute; reflexivity|eexists; split; [vm_compute; reflexivity|reflexivity]]).
Qed.
Example C47_ex : decode_astc_block Checked (ex_legal ++ [1; 2; 3]) 4 4 (repeat 0 16) = decode_astc_block Checked ex_legal 4 4 (repeat 0 16).
Proof. vm_compute. reflexivity. Qed.
Print Assumptions C47_own_bytes_partial.
Print Assumptions C47_next_blocks_refuted.

(** ** C48 *)
Definition C48_statement : Prop := forall m bw bh buf out, footprint bw bh -> bytes buf -> 16 <= zlen buf -> bw * bh <= zlen out ->
  fitting (astc_word buf) ->
  exists o, decode_astc_block m buf bw bh out = Ok o /\ zlen o = zlen out /\
    (forall t, 0 <= t < bw * bh -> znth o t = astc_texel bw bh (astc_word buf) t) /\
    (forall t, bw * bh <= t -> znth o t = znth out t).
(** Missing: void-extent blocks with minus infinity (C31), and blocks with a
    negative delta in a HDR RGB mode ... *)
Theorem C48_block_texels_partial m bw bh buf out : footprint bw bh -> bytes buf -> 16 <= zlen buf -> bw * bh <= zlen out ->
  well_formed (astc_word buf) -> plain_deltas (astc_word buf) ->
  exists o, decode_astc_block m buf bw bh out = Ok o /\ zlen o = zlen out /\
    (forall t, 0 <= t < bw * bh -> znth o t = astc_texel bw bh (astc_word buf) t) /\
    (forall t, bw * bh <= t -> znth o t = znth out t).
Proof.
  intros F Hb Hl Ho WF PD. destruct (footprint_size _ _ F) as (A & B & C).
  destruct (well_formed_block m buf bw bh Hb Hl ltac:(lia) ltac:(lia) C WF out Ho) as (o & E & L & T).
  exists o. split; [exact E|]. split; [exact L|]. split; intros t Ht; unfold znth; rewrite T by lia; destruct (Z.ltb_spec t (bw * bh)); try lia.
  apply texel_plain; auto.
Qed.
(** ... for which the code extends the sign to 16 bits only. *)
Theorem C48_block_texels_code m bw bh buf out : 2 <= bw -> 2 <= bh -> bw * bh <= 144 -> bytes buf -> 16 <= zlen buf -> bw * bh <= zlen out ->
  well_formed (astc_word buf) ->
  exists o, decode_astc_block m buf bw bh out = Ok o /\ zlen o = zlen out /\
    (forall t, 0 <= t < bw * bh -> znth o t = astc_texel_with extend16 bw bh (astc_word buf) t) /\
    (forall t, bw * bh <= t -> znth o t = znth out t).
Proof.
  intros A B C Hb Hl Ho WF. 
  destruct (well_formed_block m buf bw bh Hb Hl A B C WF out Ho) as (o & E & L & T).
  exists o. split; [exact E|]. split; [exact L|]. split; intros t Ht; unfold znth; rewrite T by lia; destruct (Z.ltb_spec t (bw * bh)); try lia; reflexivity.
Qed.
(** HDR RGB end points with a negative delta for green: the format gives a
    bright green, the code clamps the channel to 0. *)
Definition ex_hdr : list Z := [65; 96; 145; 1; 0; 0; 192; 0; 0; 0; 0; 0; 0; 0; 0; 0].
Theorem C48_negative_delta_refuted : ~ C48_statement /\ well_formed (astc_word ex_hdr) /\
  astc_texel 4 4 (astc_word ex_hdr) 0 = 0xff2db72d /\
  (forall m, exists o, decode_astc_block m ex_hdr 4 4 (repeat 0 16) = Ok o /\ znth o 0 = 0xff2d002d).
Proof.
  assert (well_formed (astc_word ex_hdr)) as WF by (split; [reflexivity|right; right; vm_compute; discriminate]).
  assert (astc_texel 4 4 (astc_word ex_hdr) 0 = 0xff2db72d) as T by (vm_compute; reflexivity).
  assert (forall m, exists o, decode_astc_block m ex_hdr 4 4 (repeat 0 16) = Ok o /\ znth o 0 = 0xff2d002d) as D
    by (intros []; (eexists; split; [vm_compute; reflexivity|reflexivity])).
  split; [|auto]. intros H. destruct (H Checked 4 4 ex_hdr (repeat 0 16)) as (o & E & _ & X & _); try exact (proj2 WF).
  - left. reflexivity.
  - repeat constructor; unfold is_byte; lia.
  - discriminate.
  - discriminate.
  - specialize (X 0 ltac:(lia)). rewrite T in X. destruct (D Checked) as (o' & E' & D'). congruence.
Qed.
(** The format's colours of the test block. *)
Example C48_ex : well_formed (astc_word ex_legal) /\ plain_deltas (astc_word ex_legal) /\
  map (astc_texel 4 4 (astc_word ex_legal)) [0; 1; 4; 5] = [0xffbfbfbf; 0xff404040; 0xff404040; 0xffbfbfbf].
Proof.
  split; [split; [reflexivity|right; right; vm_compute; discriminate]|]. split.
  - intros l p L Hp I. exfalso. vm_compute in L. injection L as <-. cbn [l_parts l_cems] in *. assert (p = 0) as -> by lia.
    cbn in I. intuition discriminate.
  - vm_compute. reflexivity.
Qed.
Print Assumptions C48_block_texels_partial.
Print Assumptions C48_block_texels_code.
Print Assumptions C48_negative_delta_refuted.

(** ** C49 *)
Definition hdr_mode (cem : Z) : bool := existsb (Z.eqb cem) [2; 3; 7; 11; 14; 15].
Definition C49_statement : Prop := forall m cem v, 0 <= cem < 16 -> hdr_mode cem = true -> bytes v -> cem_values cem <= zlen v ->
  let '((r0, g0, b0, a0), (r1, g1, b1, a1)) := end_points cem (znth v) in
  decode_cem m cem v = Ok [r0; g0; b0; a0; r1; g1; b1; a1].
(** Missing: negative deltas of modes 11, 14 and 15. *)
Theorem C49_hdr_end_points_partial m cem v : 0 <= cem < 16 -> hdr_mode cem = true -> bytes v -> cem_values cem <= zlen v ->
  no_negative_delta cem (znth v) ->
  let '((r0, g0, b0, a0), (r1, g1, b1, a1)) := end_points cem (znth v) in
  decode_cem m cem v = Ok [r0; g0; b0; a0; r1; g1; b1; a1].
Proof.
  intros Hc Hm Hv Hl N. pose proof (decode_cem_ok m cem v Hc Hv Hl) as D. rewrite (ends_plain _ _ Hc N) in D.
  destruct (end_points cem (znth v)) as [[[[r0 g0] b0] a0] [[[r1 g1] b1] a1]]. exact D.
Qed.
Theorem C49_end_points_code m cem v : 0 <= cem < 16 -> bytes v -> cem_values cem <= zlen v ->
  let '((r0, g0, b0, a0), (r1, g1, b1, a1)) := end_points_with extend16 cem (znth v) in
  decode_cem m cem v = Ok [r0; g0; b0; a0; r1; g1; b1; a1] /\
  (forall x, In x [r0; g0; b0; a0; r1; g1; b1; a1] -> 0 <= x < 4096).
Proof. exact (code_ends m cem v). Qed.
Theorem C49_negative_delta_refuted : ~ C49_statement /\
  end_points 11 (znth [200; 0; 0; 0; 0x60; 0]) = (1600, 1856, 1600, 0x780, (1600, 1600, 1600, 0x780)) /\
  decode_cem Checked 11 [200; 0; 0; 0; 0x60; 0] = Ok [1600; 0; 1600; 0x780; 1600; 1600; 1600; 0x780].
Proof.
  assert (end_points 11 (znth [200; 0; 0; 0; 0x60; 0]) = (1600, 1856, 1600, 0x780, (1600, 1600, 1600, 0x780))) as E by (vm_compute; reflexivity).
  assert (decode_cem Checked 11 [200; 0; 0; 0; 0x60; 0] = Ok [1600; 0; 1600; 0x780; 1600; 1600; 1600; 0x780]) as D by (vm_compute; reflexivity).
  split; [|auto]. intros H. specialize (H Checked 11 [200; 0; 0; 0; 0x60; 0]). rewrite E, D in H.
  discriminate H; [lia|reflexivity|repeat constructor; unfold is_byte; lia|discriminate].
Qed.
Example C49_ex : no_negative_delta 15 (znth [200; 20; 30; 40; 5; 6; 77; 99]) /\
  decode_cem Checked 15 [200; 20; 30; 40; 5; 6; 77; 99] = Ok [1440; 1160; 1072; 3280; 1600; 1360; 1280; 2816] /\
  decode_cem Checked 7 [0x85; 0x93; 0x45; 0xe7] = Ok [0; 0; 0; 1920; 456; 532; 512; 1920].
Proof. vm_compute. intuition discriminate. Qed.
Print Assumptions C49_hdr_end_points_partial.
Print Assumptions C49_end_points_code.
Print Assumptions C49_negative_delta_refuted.

(** ** C50 *)
(** The parameters of a legal block, field by field (the grid and weight range
    from the table of block modes, the modes of the partitions, the second
    plane's channel, and the largest colour range whose values fit). *)
Theorem C50_block_parameters m buf l : bytes buf -> 16 <= zlen buf -> block_layout (astc_word buf) = Some l ->
  exists d, decode_block_params m buf = Ok d /\
    bp_width d = g_width (l_grid l) /\ bp_height d = g_height (l_grid l) /\ bp_dual_plane d = g_dual (l_grid l) /\
    bp_weight_range d = g_range (l_grid l) /\ bp_weight_num d = l_wcount l /\
    bp_part_num d = l_parts l /\ (forall p, 0 <= p < l_parts l -> znth (bp_cem d) p = znth (l_cems l) p) /\
    (g_dual (l_grid l) = true -> bp_plane_selector d = l_plane l) /\
    bp_endpoint_value_num d = l_cvalues l /\
    znth CEM_TABLE_A (bp_cem_range d) = radix_code (fst (l_cq l)) /\ znth CEM_TABLE_B (bp_cem_range d) = snd (l_cq l).
Proof. exact (params_fields m buf l). Qed.
(** Grid, plane flag and weight range of every block, legal or not. *)
Theorem C50_block_mode buf : bytes buf -> 16 <= zlen buf ->
  match block_mode (astc_word buf) with
  | Some g => block_grid buf = Ok (g_dual g, g_range g, g_width g, g_height g) /\
      2 <= g_width g <= 12 /\ 2 <= g_height g <= 12
  | None => forall m bw bh out, 0 <= bw * bh <= 144 -> bw * bh <= zlen out -> void_extent (astc_word buf) = false ->
      exists o, decode_astc_block m buf bw bh out = Ok o /\ forall t, 0 <= t < bw * bh -> znth o t = 0xffff00ff
  end.
Proof. exact (mode_cases buf). Qed.
Example C50_ex : let buf := [0x41; 0x0c; 0x35; 0x6d; 1; 2; 3; 4; 5; 6; 7; 8; 9; 10; 11; 12] in
  match block_layout (astc_word buf) with
  | Some l => l_parts l = 2 /\ l_cems l = [5; 8] /\ g_dual (l_grid l) = true
  | None => False
  end.
Proof. vm_compute. auto. Qed.
Print Assumptions C50_block_parameters.
Print Assumptions C50_block_mode.

(** ** C51 *)
Theorem C51_color_unquantization m k n v d : In (k, n) color_quants -> 0 <= v < 2 ^ n -> 0 <= d < radix_size k ->
  unquant_endpoint m (radix_code k) n (v, d) = Ok (color_value k n (v, d)) /\ is_byte (color_value k n (v, d)).
Proof. exact (unquant_endpoint_ok m k n (v, d)). Qed.
(** Different codes give different colours, and 0 and 255 are among them. *)
Theorem C51_color_levels m k n : In (k, n) color_quants ->
  (forall v d v' d', 0 <= v < 2 ^ n -> 0 <= d < radix_size k -> 0 <= v' < 2 ^ n -> 0 <= d' < radix_size k ->
     unquant_endpoint m (radix_code k) n (v, d) = unquant_endpoint m (radix_code k) n (v', d') -> v = v' /\ d = d') /\
  unquant_endpoint m (radix_code k) n (0, 0) = Ok 0 /\
  exists v d, 0 <= v < 2 ^ n /\ 0 <= d < radix_size k /\ unquant_endpoint m (radix_code k) n (v, d) = Ok 255.
Proof. exact (color_levels m k n). Qed.
Example C51_ex : In (Quints, 3) color_quants /\ unquant_endpoint Checked 5 3 (5, 3) = Ok 171.
Proof. vm_compute. tauto. Qed.
Print Assumptions C51_color_unquantization.
Print Assumptions C51_color_levels.

(** ** C52 *)
Definition C52_statement : Prop := forall m bw bh buf out, footprint bw bh -> bytes buf -> 16 <= zlen buf -> bw * bh <= zlen out ->
  void_extent (astc_word buf) = false -> block_layout (astc_word buf) = None ->
  exists o, decode_astc_block m buf bw bh out = Ok o /\ forall t, 0 <= t < bw * bh -> znth o t = error_texel.
(** Missing: blocks with a valid block mode whose other fields are illegal. *)
Theorem C52_error_color_partial m bw bh buf out : footprint bw bh -> bytes buf -> 16 <= zlen buf -> bw * bh <= zlen out ->
  void_extent (astc_word buf) = false -> block_mode (astc_word buf) = None ->
  exists o, decode_astc_block m buf bw bh out = Ok o /\ forall t, 0 <= t < bw * bh -> znth o t = error_texel.
Proof.
  intros F Hb Hl Ho V M. destruct (footprint_size _ _ F) as (A & B & C).
  pose proof (mode_cases buf Hb Hl) as K. rewrite M in K. apply K; auto; lia.
Qed.
(** Weights of 96 bits leave no room for the end points: decoded as black. *)
Definition ex_no_room1 : list Z := [0x57; 0x80; 0x01] ++ repeat 0 13.
Theorem C52_illegal_refuted : ~ C52_statement /\ block_layout (astc_word ex_no_room1) = None /\
  (forall m, decode_astc_block m ex_no_room1 4 4 (repeat 7 16) = Ok (repeat 0 16)).
Proof.
  assert (block_layout (astc_word ex_no_room1) = None) as L by (vm_compute; reflexivity).
  assert (forall m, decode_astc_block m ex_no_room1 4 4 (repeat 7 16) = Ok (repeat 0 16)) as D by (intros []; vm_compute; reflexivity).
  split; [|auto]. intros H. destruct (H Checked 4 4 ex_no_room1 (repeat 7 16)) as (o & E & X); auto.
  - left. reflexivity.
  - repeat constructor; unfold is_byte; lia.
  - discriminate.
  - discriminate.
  - specialize (X 0 ltac:(lia)). rewrite D in E. assert (o = repeat 0 16) as -> by congruence. discriminate X.
Qed.
Example C52_ex : void_extent (astc_word (repeat 0 16)) = false /\ block_mode (astc_word (repeat 0 16)) = None /\
  decode_astc_block Checked (repeat 0 16) 4 4 (repeat 7 17) = Ok (repeat 0xffff00ff 16 ++ [7]).
Proof. vm_compute. auto. Qed.
Print Assumptions C52_error_color_partial.
Print Assumptions C52_illegal_refuted.

(** ** C53 *)
Theorem C53_ldr_interpolation m e0 e1 w : is_byte e0 -> is_byte e1 -> 0 <= w <= 64 ->
  exists c, select_color m e0 e1 w = Ok c /\ is_byte c /\
    c = ((257 * (e0 * (64 - w) + e1 * w) + 32) / 64 * 255 + 32768) / 65536 /\
    (w = 0 -> c = e0) /\ (w = 64 -> c = e1) /\ Z.min e0 e1 <= c <= Z.max e0 e1.
Proof. exact (ldr_interpolation m e0 e1 w). Qed.
Theorem C53_hdr_interpolation m e0 e1 w : 0 <= e0 < 4096 -> 0 <= e1 < 4096 -> 0 <= w <= 64 ->
  exists c, select_color_hdr m e0 e1 w = Ok c /\ is_byte c /\ c = hdr_texel e0 e1 w.
Proof.
  intros A B C. destruct (select_color_hdr_ok m e0 e1 w A B C) as [E R]. eauto.
Qed.
Example C53_ex : select_color Checked 10 200 21 = Ok 72 /\ select_color_hdr Checked 1000 1900 33 = Ok 21.
Proof. vm_compute. auto. Qed.
Print Assumptions C53_ldr_interpolation.
Print Assumptions C53_hdr_interpolation.
