(** * C19-C24: ETC1, ETC2 and EAC *)
From Verif Require Import Base BaseLemmas ModelColor SpecImage SpecBc SpecEtc ModelEtc ProofEtcImage.

Definition black (n : nat) : list Z := repeat 0xFF000000 n.

(** ** C19 *)
Theorem C19_etc1_block_exact m data outbuf :
  bytes data -> 8 <= zlen data -> 16 <= zlen outbuf -> Forall is_u32 outbuf ->
  etc1_valid (etc_word data 0) ->
  exists out, decode_etc1_block m data outbuf = Ok out /\ zlen out = zlen outbuf /\
    forall t, 0 <= t < 16 -> znth out t = etc1_texel data t.
Proof. exact (etc1_exact m data outbuf). Qed.
(** Blocks with an overflowing difference too: the second colour is taken modulo 32. *)
Theorem C19_etc1_block_all m : block_exact 8 etc1_wrap_texel (decode_etc1_block m).
Proof. exact (proj1 (etc1_contract m)). Qed.
Theorem C19_etc1_image_exact m : image_decoder 4 4 8 etc1_wrap_texel (decode_etc1 m).
Proof. exact (etc1_image m). Qed.
Theorem C19_etc1_valid_blocks_do_not_wrap b t :
  etc1_valid (etc_word b 0) -> etc1_wrap_texel b t = etc1_texel b t.
Proof. exact (etc1_valid_texel b t). Qed.
(** Individual mode, not flipped: left half from (0x88,0x44,0x00) with table 0,
    right half from (0x11,0xFF,0x22) with table 7; texel 0 has index 0, texel 15 index 3. *)
Definition etc1_individual : list Z := [0x81; 0x4F; 0x02; 0x1C; 0x80; 0x00; 0x80; 0x00].
Example C19_individual : decode_etc1_block Checked etc1_individual (black 16) =
  Ok [0xFF8A4602; 0xFF8A4602; 0xFF40FF51; 0xFF40FF51; 0xFF8A4602; 0xFF8A4602; 0xFF40FF51; 0xFF40FF51;
      0xFF8A4602; 0xFF8A4602; 0xFF40FF51; 0xFF40FF51; 0xFF8A4602; 0xFF8A4602; 0xFF40FF51; 0xFF004800].
Proof. vm_compute; reflexivity. Qed.
Example C19_individual_valid : etc1_valid (etc_word etc1_individual 0).
Proof. intros H. vm_compute in H. discriminate. Qed.
(** Differential mode, flipped: base (16,16,16), difference (1,0,-1). *)
Definition etc1_differential : list Z := [0x81; 0x80; 0x87; 0x03; 0; 0; 0; 0].
Example C19_differential : decode_etc1_block Checked etc1_differential (black 16) =
  Ok (repeat 0xFF868686 8 ++ repeat 0xFF8E867D 8).
Proof. vm_compute; reflexivity. Qed.
Example C19_differential_valid : etc1_valid (etc_word etc1_differential 0).
Proof. intros _. vm_compute. auto. Qed.
Print Assumptions C19_etc1_block_exact.
Print Assumptions C19_etc1_block_all.
Print Assumptions C19_etc1_image_exact.
Print Assumptions C19_etc1_valid_blocks_do_not_wrap.

(** ** C20 *)
Theorem C20_etc2_rgb_block_exact m : block_exact 8 (fun b => etc2_texel b 0) (decode_etc2_rgb_block m).
Proof. exact (proj1 (etc2_rgb_contract m)). Qed.
Theorem C20_etc2_rgb_image_exact m : image_decoder 4 4 8 (fun b => etc2_texel b 0) (decode_etc2_rgb m).
Proof. exact (etc2_rgb_image m). Qed.
(** T mode (red overflow), all four indices. *)
Definition etc2_t_block : list Z := [0xFB; 0x45; 0x67; 0x8B; 0x00; 0xF0; 0x00; 0xCC].
Example C20_t_mode : overflows (etc_word etc2_t_block 0) 0 = true.
Proof. reflexivity. Qed.
(** H mode (green overflow). *)
Definition etc2_h_block : list Z := [0x12; 0x04; 0x67; 0x8B; 0x00; 0xF0; 0x00; 0xCC].
Example C20_h_mode : let w := etc_word etc2_h_block 0 in
  etc_diff w = true /\ overflows w 0 = false /\ overflows w 1 = true.
Proof. vm_compute; auto. Qed.
(** Planar mode (blue overflow). *)
Definition etc2_planar_block : list Z := [0x12; 0x10; 0xFB; 0x8B; 0x12; 0xF0; 0x34; 0xCC].
Example C20_planar_mode : let w := etc_word etc2_planar_block 0 in
  etc_diff w = true /\ overflows w 0 = false /\ overflows w 1 = false /\ overflows w 2 = true.
Proof. vm_compute; auto. Qed.
Example C20_t_texels : decode_etc2_rgb_block Checked etc2_t_block (black 16) =
  Ok [0xFFFF4455; 0xFF667788; 0xFFFF4455; 0xFFFF4455; 0xFFFF4455; 0xFF667788; 0xFFFF4455; 0xFFFF4455;
      0xFF8697A8; 0xFF465768; 0xFFFF4455; 0xFFFF4455; 0xFF8697A8; 0xFF465768; 0xFFFF4455; 0xFFFF4455].
Proof. vm_compute; reflexivity. Qed.
Example C20_h_texels : decode_etc2_rgb_block Wrapping etc2_h_block (black 16) =
  Ok [0xFF2D4F0B; 0xFFD7FF1C; 0xFF2D4F0B; 0xFF2D4F0B; 0xFF2D4F0B; 0xFFD7FF1C; 0xFF2D4F0B; 0xFF2D4F0B;
      0xFF173900; 0xFFC1F406; 0xFF2D4F0B; 0xFF2D4F0B; 0xFF173900; 0xFFC1F406; 0xFF2D4F0B; 0xFF2D4F0B].
Proof. vm_compute; reflexivity. Qed.
Example C20_planar_texels : decode_etc2_rgb_block Checked etc2_planar_block (black 16) =
  Ok [0xFF24107D; 0xFF20117C; 0xFF1C117B; 0xFF18127A; 0xFF1C366A; 0xFF183669; 0xFF143768; 0xFF103767;
      0xFF145C57; 0xFF105C56; 0xFF0C5D55; 0xFF085D54; 0xFF0C8143; 0xFF088242; 0xFF048241; 0xFF008340].
Proof. vm_compute; reflexivity. Qed.
Print Assumptions C20_etc2_rgb_block_exact.
Print Assumptions C20_etc2_rgb_image_exact.

(** ** C21 *)
Theorem C21_etc2_extends_etc1 m data outbuf :
  bytes data -> 8 <= zlen data -> 16 <= zlen outbuf -> etc1_valid (etc_word data 0) ->
  decode_etc1_block m data outbuf = decode_etc2_rgb_block m data outbuf.
Proof. exact (etc1_etc2 m data outbuf). Qed.
Example C21_differential : decode_etc2_rgb_block Checked etc1_differential (black 16) =
  Ok (repeat 0xFF868686 8 ++ repeat 0xFF8E867D 8).
Proof. vm_compute; reflexivity. Qed.
(** The hypothesis is needed: the two decoders differ on the T block above. *)
Example C21_invalid_differs :
  decode_etc1_block Checked etc2_t_block (black 16) <> decode_etc2_rgb_block Checked etc2_t_block (black 16).
Proof. vm_compute. congruence. Qed.
Print Assumptions C21_etc2_extends_etc1.

(** ** C22 *)
(** Full statement. *)
Definition C22_statement : Prop := forall m, block_exact 8 etc2a_texel (decode_etc2_rgba1_block m).
(** It fails only in the colour of transparent texels: the specification makes
    them black, the code keeps their colour.  Their alpha is right. *)
Theorem C22_etc2_rgba1_partial m data outbuf :
  bytes data -> 8 <= zlen data -> 16 <= zlen outbuf -> Forall is_u32 outbuf ->
  exists out, decode_etc2_rgba1_block m data outbuf = Ok out /\ zlen out = zlen outbuf /\
    forall t, 0 <= t < 16 ->
      alpha (znth out t) = (if etc2a_clear (etc_word data 0) t then 0 else 255) /\
      (etc2a_clear (etc_word data 0) t = false -> znth out t = etc2a_texel data t).
Proof. exact (rgba1_partial m data outbuf). Qed.
(** What the code does on all blocks. *)
Theorem C22_etc2_rgba1_code m : block_exact 8 etc2a_code_texel (decode_etc2_rgba1_block m).
Proof. exact (proj1 (etc2_rgba1_contract m)). Qed.
Theorem C22_etc2_rgba1_image_code m : image_decoder 4 4 8 etc2a_code_texel (decode_etc2_rgba1 m).
Proof. exact (etc2_rgba1_image m). Qed.
(** With the opaque bit set the block decodes as an RGB block. *)
Theorem C22_opaque_is_rgb m data outbuf :
  bytes data -> 8 <= zlen data -> 16 <= zlen outbuf -> etc_diff (etc_word data 0) = true ->
  decode_etc2_rgba1_block m data outbuf = decode_etc2_rgb_block m data outbuf.
Proof. exact (rgba1_opaque m data outbuf). Qed.
(** Differential block, opaque bit clear, all indices 2. *)
Definition etc2a_clear_block : list Z := [0x80; 0x80; 0x80; 0x00; 0xFF; 0xFF; 0; 0].
Theorem C22_etc2_rgba1_refuted : exists data outbuf out,
  bytes data /\ zlen data = 8 /\ zlen outbuf = 16 /\ Forall is_u32 outbuf /\
  (forall m, decode_etc2_rgba1_block m data outbuf = Ok out) /\
  etc2a_texel data 0 = 0 /\ znth out 0 = 0x00848484.
Proof.
  exists etc2a_clear_block, (black 16), (repeat 0x00848484 16).
  split; [repeat constructor; unfold is_byte; lia|].
  split; [reflexivity|]. split; [reflexivity|].
  split; [repeat constructor; unfold is_u32; lia|].
  split; [intros []; vm_compute; reflexivity|]. vm_compute. auto.
Qed.
Theorem C22_statement_refuted : ~ C22_statement.
Proof.
  intros H. destruct C22_etc2_rgba1_refuted as (data & outbuf & out & B & Ld & Lo & U & E & S & N).
  destruct (H Checked data outbuf B ltac:(lia) ltac:(lia) U) as (out' & E' & _ & T). rewrite (E Checked) in E'. inversion E'; subst out'.
  pose proof (T 0 ltac:(lia)) as T0. rewrite S, N in T0. discriminate T0.
Qed.
(** T block with the opaque bit clear: index 2 transparent, the others opaque. *)
Example C22_t_block : decode_etc2_rgba1_block Checked [0xFB; 0x45; 0x67; 0x89; 0x00; 0xF0; 0x00; 0xCC] (black 16) =
  Ok [0xFFFF4455; 0x00667788; 0xFFFF4455; 0xFFFF4455; 0xFFFF4455; 0x00667788; 0xFFFF4455; 0xFFFF4455;
      0xFF8697A8; 0xFF465768; 0xFFFF4455; 0xFFFF4455; 0xFF8697A8; 0xFF465768; 0xFFFF4455; 0xFFFF4455].
Proof. vm_compute; reflexivity. Qed.
Print Assumptions C22_etc2_rgba1_partial.
Print Assumptions C22_etc2_rgba1_code.
Print Assumptions C22_etc2_rgba1_image_code.
Print Assumptions C22_opaque_is_rgb.
Print Assumptions C22_etc2_rgba1_refuted.
Print Assumptions C22_statement_refuted.

(** ** C23 *)
Theorem C23_etc2_rgba8_block_exact m : block_exact 16 etc2_rgba8_texel (decode_etc2_rgba8_block m).
Proof. exact (proj1 (etc2_rgba8_contract m)). Qed.
Theorem C23_etc2_rgba8_image_exact m : image_decoder 4 4 16 etc2_rgba8_texel (decode_etc2_rgba8 m).
Proof. exact (etc2_rgba8_image m). Qed.
Theorem C23_etc2_rgba8_composes m data outbuf :
  bytes data -> 16 <= zlen data -> 16 <= zlen outbuf -> Forall is_u32 outbuf ->
  exists rgb out, decode_etc2_rgb_block m (skipn 8 data) outbuf = Ok rgb /\
    decode_etc2_rgba8_block m data outbuf = Ok out /\ zlen out = zlen outbuf /\
    forall t, 0 <= t < 16 ->
      red (znth out t) = red (znth rgb t) /\ green (znth out t) = green (znth rgb t) /\
      blue (znth out t) = blue (znth rgb t) /\ alpha (znth out t) = eac_alpha data 0 t.
Proof. exact (rgba8_compose m data outbuf). Qed.
(** Base 100, multiplier 2, table 0; the first pixel (column 0, row 0) has
    index 7 (+14*2), the second (column 0, row 1) index 3 (-15*2), all others index 0 (-3*2). *)
Example C23_alpha : decode_etc2_rgba8_block Checked
   ([100; 0x20; 0xEC; 0; 0; 0; 0; 0] ++ etc1_differential) (black 16) =
  Ok ([0x80868686; 0x5E868686; 0x5E868686; 0x5E868686; 0x46868686; 0x5E868686; 0x5E868686; 0x5E868686] ++
      repeat 0x5E8E867D 8).
Proof. vm_compute; reflexivity. Qed.
(** Multiplier 0: the base alpha everywhere. *)
Example C23_flat_alpha : decode_etc2_rgba8_block Checked
   ([7; 0x0F; 0xEC; 1; 2; 3; 4; 5] ++ etc1_differential) (black 16) =
  Ok (repeat 0x07868686 8 ++ repeat 0x078E867D 8).
Proof. vm_compute; reflexivity. Qed.
Print Assumptions C23_etc2_rgba8_block_exact.
Print Assumptions C23_etc2_rgba8_image_exact.
Print Assumptions C23_etc2_rgba8_composes.

(** ** C24 *)
(** Full statement. *)
Definition C24_statement : Prop := forall m,
  block_exact 8 (fun b t => rgba (eac_red b 0 t) 0 0 255) (decode_eacr_block m) /\
  block_exact 8 (fun b t => rgba (eac_red_s b 0 t) 0 0 255) (decode_eacr_signed_block m) /\
  block_exact 16 (fun b t => rgba (eac_red b 0 t) (eac_red b 8 t) 0 255) (decode_eacrg_block m) /\
  block_exact 16 (fun b t => rgba (eac_red_s b 0 t) (eac_red_s b 8 t) 0 255) (decode_eacrg_signed_block m).
(** The code reads the 48 index bits from the byte-reversed block; so a texel is right if both byte
    orders select the same index, and the other channels are always right. *)
Theorem C24_eac_r_partial m data outbuf (signed : bool) :
  bytes data -> 8 <= zlen data -> 16 <= zlen outbuf -> Forall is_u32 outbuf ->
  exists out, (if signed then decode_eacr_signed_block m data outbuf else decode_eacr_block m data outbuf) = Ok out /\
    zlen out = zlen outbuf /\
    forall t, 0 <= t < 16 ->
      green (znth out t) = 0 /\ blue (znth out t) = 0 /\ alpha (znth out t) = 255 /\
      (eac_index (eac_swapped data 0) t = eac_index (etc_word data 0) t ->
       red (znth out t) = if signed then eac_red_s data 0 t else eac_red data 0 t).
Proof. exact (eac_r_partial m data outbuf signed). Qed.
Theorem C24_eac_rg_partial m data outbuf (signed : bool) :
  bytes data -> 16 <= zlen data -> 16 <= zlen outbuf -> Forall is_u32 outbuf ->
  exists out, (if signed then decode_eacrg_signed_block m data outbuf else decode_eacrg_block m data outbuf) = Ok out /\
    zlen out = zlen outbuf /\
    forall t, 0 <= t < 16 ->
      blue (znth out t) = 0 /\ alpha (znth out t) = 255 /\
      (eac_index (eac_swapped data 0) t = eac_index (etc_word data 0) t ->
       red (znth out t) = if signed then eac_red_s data 0 t else eac_red data 0 t) /\
      (eac_index (eac_swapped data 8) t = eac_index (etc_word data 8) t ->
       green (znth out t) = if signed then eac_red_s data 8 t else eac_red data 8 t).
Proof. exact (eac_rg_partial m data outbuf signed). Qed.
(** What the code computes on all blocks. *)
Theorem C24_eac_r_code m : block_exact 8 eacr_code_texel (decode_eacr_block m).
Proof. exact (proj1 (eacr_contract m)). Qed.
Theorem C24_eac_r_signed_code m :
  block_exact 8 eacr_s_code_texel (decode_eacr_signed_block m).
Proof. exact (proj1 (eacr_signed_contract m)). Qed.
Theorem C24_eac_rg_code m :
  block_exact 16 eacrg_code_texel (decode_eacrg_block m).
Proof. exact (proj1 (eacrg_contract m)). Qed.
Theorem C24_eac_rg_signed_code m :
  block_exact 16 eacrg_s_code_texel (decode_eacrg_signed_block m).
Proof. exact (proj1 (eacrg_signed_contract m)). Qed.
Theorem C24_eac_r_image_code m :
  image_decoder 4 4 8 eacr_code_texel (decode_eacr m).
Proof. exact (eacr_image m). Qed.
Theorem C24_eac_r_signed_image_code m :
  image_decoder 4 4 8 eacr_s_code_texel (decode_eacr_signed m).
Proof. exact (eacr_signed_image m). Qed.
Theorem C24_eac_rg_image_code m :
  image_decoder 4 4 16 eacrg_code_texel (decode_eacrg m).
Proof. exact (eacrg_image m). Qed.
Theorem C24_eac_rg_signed_image_code m :
  image_decoder 4 4 16 eacrg_s_code_texel (decode_eacrg_signed m).
Proof. exact (eacrg_signed_image m). Qed.
(** Counterexample: base 100, multiplier 1, first pixel index 7, others 0. *)
Definition eac_block : list Z := [100; 0x10; 0xE0; 0; 0; 0; 0; 0].
Theorem C24_eac_r_refuted : exists data outbuf out,
  bytes data /\ zlen data = 8 /\ zlen outbuf = 16 /\ Forall is_u32 outbuf /\
  (forall m, decode_eacr_block m data outbuf = Ok out) /\
  red (znth out 0) = 97 /\ eac_red data 0 0 = 114.
Proof.
  eexists eac_block, (black 16), _.
  split; [repeat constructor; unfold is_byte; lia|].
  split; [reflexivity|]. split; [reflexivity|].
  split; [repeat constructor; unfold is_u32; lia|].
  split; [intros []; vm_compute; reflexivity|]. vm_compute. auto.
Qed.
Theorem C24_statement_refuted : ~ C24_statement.
Proof.
  intros H. destruct C24_eac_r_refuted as (data & outbuf & out & B & Ld & Lo & U & E & R & S).
  destruct (proj1 (H Checked) data outbuf B ltac:(lia) ltac:(lia) U) as (out' & E' & _ & T). rewrite (E Checked) in E'. inversion E'; subst out'.
  pose proof (T 0 ltac:(lia)) as T0. cbv beta in T0. rewrite T0, S in R. vm_compute in R. discriminate R.
Qed.
(** A block equal to its own reversal decodes correctly. *)
Definition eac_palindrome : list Z := [100; 0x10; 0xE0; 0x5A; 0x5A; 0xE0; 0x10; 100].
Example C24_palindrome : forall t, 0 <= t < 16 ->
  eac_index (eac_swapped eac_palindrome 0) t = eac_index (etc_word eac_palindrome 0) t.
Proof. intros. reflexivity. Qed.
Example C24_palindrome_decoded : decode_eacr_block Checked eac_palindrome (black 16) =
  Ok (map (fun t => rgba (eac_red eac_palindrome 0 t) 0 0 255) (zrange 0 16)).
Proof. vm_compute; reflexivity. Qed.
Print Assumptions C24_eac_r_partial.
Print Assumptions C24_eac_rg_partial.
Print Assumptions C24_eac_r_code.
Print Assumptions C24_eac_r_signed_code.
Print Assumptions C24_eac_rg_code.
Print Assumptions C24_eac_rg_signed_code.
Print Assumptions C24_eac_r_image_code.
Print Assumptions C24_eac_r_signed_image_code.
Print Assumptions C24_eac_rg_image_code.
Print Assumptions C24_eac_rg_signed_image_code.
Print Assumptions C24_eac_r_refuted.
Print Assumptions C24_statement_refuted.
