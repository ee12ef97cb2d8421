(** * C06-C10, C17, C18: BC1-BC5 and ATC *)
From Verif Require Import Base BaseLemmas ModelColor SpecImage SpecBc ModelBc ProofBc ProofBcImage ProofBlock.

(** A concrete block: end points pure red / pure blue (c0 > c1), indices 0..3 repeated. *)
Definition bc1_red_blue : list Z := [0x00; 0xF8; 0x1F; 0x00; 0xE4; 0xE4; 0xE4; 0xE4].
(** The same with the end points exchanged (c0 <= c1). *)
Definition bc1_blue_red : list Z := [0x1F; 0x00; 0x00; 0xF8; 0xE4; 0xE4; 0xE4; 0xE4].
Definition ramp_ff_00 : list Z := [255; 0; 0x88; 0xC6; 0xFA; 0x88; 0xC6; 0xFA].
Definition ramp_00_ff : list Z := [0; 255; 0x88; 0xC6; 0xFA; 0x88; 0xC6; 0xFA].
Definition zeros (n : nat) : list Z := repeat 0 n.

(** ** C06 *)
Theorem C06_bc1_block_exact m : block_exact 8 bc1_texel (decode_bc1_block m).
Proof. exact (proj1 (bc1_contract m)). Qed.
Theorem C06_bc1_image_exact m : image_decoder 4 4 8 bc1_texel (decode_bc1 m).
Proof. exact (bc1_image m). Qed.
Example C06_four_colours : decode_bc1_block Checked bc1_red_blue (zeros 16) =
  Ok [0xFFFF0000; 0xFF0000FF; 0xFFAA0055; 0xFF5500AA; 0xFFFF0000; 0xFF0000FF; 0xFFAA0055; 0xFF5500AA;
      0xFFFF0000; 0xFF0000FF; 0xFFAA0055; 0xFF5500AA; 0xFFFF0000; 0xFF0000FF; 0xFFAA0055; 0xFF5500AA].
Proof. vm_compute; reflexivity. Qed.
Example C06_three_colours : decode_bc1_block Wrapping bc1_blue_red (zeros 16) =
  Ok [0xFF0000FF; 0xFFFF0000; 0xFF7F007F; 0xFF000000; 0xFF0000FF; 0xFFFF0000; 0xFF7F007F; 0xFF000000;
      0xFF0000FF; 0xFFFF0000; 0xFF7F007F; 0xFF000000; 0xFF0000FF; 0xFFFF0000; 0xFF7F007F; 0xFF000000].
Proof. vm_compute; reflexivity. Qed.
Print Assumptions C06_bc1_block_exact.
Print Assumptions C06_bc1_image_exact.

(** ** C07 *)
Theorem C07_bc1a_block_exact m : block_exact 8 bc1a_texel (decode_bc1a_block m).
Proof. exact (proj1 (bc1a_contract m)). Qed.
Theorem C07_bc1a_image_exact m : image_decoder 4 4 8 bc1a_texel (decode_bc1a m).
Proof. exact (bc1a_image m). Qed.
(** Only index 3 of a three-colour block differs from BC1: it is 0 (transparent black). *)
Theorem C07_bc1a_differs_only_in_alpha_of_index3 b t : bytes b -> 0 <= t < 16 ->
  (index2 b 4 t = 3 /\ le16 b 0 <= le16 b 2 -> bc1a_texel b t = 0) /\
  (~ (index2 b 4 t = 3 /\ le16 b 0 <= le16 b 2) ->
     bc1a_texel b t = bc1_texel b t /\ alpha (bc1a_texel b t) = 255).
Proof. exact (bc1a_vs_bc1 b t). Qed.
Example C07_transparent : decode_bc1a_block Checked bc1_blue_red (zeros 16) =
  Ok [0xFF0000FF; 0xFFFF0000; 0xFF7F007F; 0; 0xFF0000FF; 0xFFFF0000; 0xFF7F007F; 0;
      0xFF0000FF; 0xFFFF0000; 0xFF7F007F; 0; 0xFF0000FF; 0xFFFF0000; 0xFF7F007F; 0].
Proof. vm_compute; reflexivity. Qed.
Print Assumptions C07_bc1a_block_exact.
Print Assumptions C07_bc1a_image_exact.
Print Assumptions C07_bc1a_differs_only_in_alpha_of_index3.

(** ** C08 *)
Theorem C08_bc2_block_exact m : block_exact 16 bc2_texel (decode_bc2_block m).
Proof. exact (proj1 (bc2_contract m)). Qed.
Theorem C08_bc2_image_exact m : image_decoder 4 4 16 bc2_texel (decode_bc2 m).
Proof. exact (bc2_image m). Qed.
Example C08_nibbles : decode_bc2_block Checked ([0x10; 0x32; 0x54; 0x76; 0x98; 0xBA; 0xDC; 0xFE] ++ bc1_red_blue) (zeros 16) =
  Ok [0x00FF0000; 0x110000FF; 0x22AA0055; 0x335500AA; 0x44FF0000; 0x550000FF; 0x66AA0055; 0x775500AA;
      0x88FF0000; 0x990000FF; 0xAAAA0055; 0xBB5500AA; 0xCCFF0000; 0xDD0000FF; 0xEEAA0055; 0xFF5500AA].
Proof. vm_compute; reflexivity. Qed.
Print Assumptions C08_bc2_block_exact.
Print Assumptions C08_bc2_image_exact.

(** ** C09 *)
Theorem C09_bc3_block_exact m : block_exact 16 bc3_texel (decode_bc3_block m).
Proof. exact (bc3_contract m). Qed.
Theorem C09_bc3_image_exact m : image_decoder 4 4 16 bc3_texel (decode_bc3 m).
Proof. exact (bc3_image m). Qed.
Example C09_ramp8 : decode_bc3_block Checked (ramp_ff_00 ++ bc1_red_blue) (zeros 16) =
  Ok [0xFFFF0000; 0x000000FF; 0xDAAA0055; 0xB65500AA; 0x91FF0000; 0x6D0000FF; 0x48AA0055; 0x245500AA;
      0xFFFF0000; 0x000000FF; 0xDAAA0055; 0xB65500AA; 0x91FF0000; 0x6D0000FF; 0x48AA0055; 0x245500AA].
Proof. vm_compute; reflexivity. Qed.
Example C09_ramp6 : decode_bc3_block Checked (ramp_00_ff ++ bc1_red_blue) (zeros 16) =
  Ok [0x00FF0000; 0xFF0000FF; 0x33AA0055; 0x665500AA; 0x99FF0000; 0xCC0000FF; 0x00AA0055; 0xFF5500AA;
      0x00FF0000; 0xFF0000FF; 0x33AA0055; 0x665500AA; 0x99FF0000; 0xCC0000FF; 0x00AA0055; 0xFF5500AA].
Proof. vm_compute; reflexivity. Qed.
Print Assumptions C09_bc3_block_exact.
Print Assumptions C09_bc3_image_exact.

(** ** C10 *)
Theorem C10_bc4_image_exact m : image_decoder 4 4 8 bc4_texel (decode_bc4 m).
Proof. exact (bc4_image m). Qed.
Theorem C10_bc5_image_exact m : image_decoder 4 4 16 bc5_texel (decode_bc5 m).
Proof. exact (bc5_image m). Qed.
(** At block level only the red (red and green) bytes change. *)
Theorem C10_bc4_block_channels m data outbuf : bytes data -> 8 <= zlen data -> Forall is_u32 outbuf ->
  exists out, decode_bc4_block m data outbuf = Ok out /\ zlen out = zlen outbuf /\
    forall t, 0 <= t < zlen outbuf ->
      red (znth out t) = interp8 data 0 t /\ green (znth out t) = green (znth outbuf t) /\
      blue (znth out t) = blue (znth outbuf t) /\ alpha (znth out t) = alpha (znth outbuf t).
Proof. exact (bc4_block_chan m data outbuf). Qed.
Theorem C10_bc5_block_channels m data outbuf : bytes data -> 16 <= zlen data -> Forall is_u32 outbuf ->
  exists out, decode_bc5_block m data outbuf = Ok out /\ zlen out = zlen outbuf /\
    forall t, 0 <= t < zlen outbuf ->
      red (znth out t) = interp8 data 0 t /\ green (znth out t) = interp8 data 8 t /\
      blue (znth out t) = blue (znth outbuf t) /\ alpha (znth out t) = alpha (znth outbuf t).
Proof. exact (bc5_block_chan m data outbuf). Qed.
Example C10_bc5_2x2 : decode_bc5 Checked (ramp_ff_00 ++ ramp_00_ff) 3 2 (zeros 7) =
  Ok (Done, [0xFFFF0000; 0xFF00FF00; 0xFFDA3300; 0xFF919900; 0xFF6DCC00; 0xFF480000; 0]).
Proof. vm_compute; reflexivity. Qed.
Example C10_bc4_3x1 : decode_bc4 Checked ramp_ff_00 3 1 (zeros 3) = Ok (Done, [0xFFFF0000; 0xFF000000; 0xFFDA0000]).
Proof. vm_compute; reflexivity. Qed.
Print Assumptions C10_bc4_image_exact.
Print Assumptions C10_bc5_image_exact.
Print Assumptions C10_bc4_block_channels.
Print Assumptions C10_bc5_block_channels.

(** ** C17 *)
(** Full statement. *)
Definition C17_statement : Prop := forall m, block_exact 8 (atc_rgb4_texel atc_dark_std) (decode_atc_rgb4_block m).
(** It holds for every texel except the darkened colour (mode bit set, index 1):
    the code computes [atc_dark_code], a quarter of (c0 - c1) modulo 2^16 and 2^8,
    instead of max(0, c0 - c1/4). *)
Theorem C17_atc_rgb_partial m data outbuf :
  bytes data -> 8 <= zlen data -> 16 <= zlen outbuf -> Forall is_u32 outbuf ->
  exists out, decode_atc_rgb4_block m data outbuf = Ok out /\ zlen out = zlen outbuf /\
    forall t, 0 <= t < 16 -> (atc_mode data 0 = false \/ index2 data 4 t <> 1) ->
      znth out t = atc_rgb4_texel atc_dark_std data t.
Proof. exact (atc_rgb4_std m data outbuf). Qed.
(** What the code does on all blocks. *)
Theorem C17_atc_rgb_code m : block_exact 8 (atc_rgb4_texel atc_dark_code) (decode_atc_rgb4_block m).
Proof. exact (proj1 (atc_rgb4_contract m)). Qed.
Theorem C17_atc_rgb_image_code m : image_decoder 4 4 8 (atc_rgb4_texel atc_dark_code) (decode_atc_rgb4 m).
Proof. exact (atc_rgb4_image m). Qed.
(** Counterexample: c0 = c1 = grey with the mode bit set; index 1 must be 3/4 grey, the code gives black. *)
Definition atc_dark_block : list Z := [0xFF; 0xFF; 0xFF; 0xFF; 0x55; 0x55; 0x55; 0x55].
Theorem C17_atc_rgb_refuted : exists data outbuf out,
  bytes data /\ zlen data = 8 /\ zlen outbuf = 16 /\ Forall is_u32 outbuf /\
  (forall m, decode_atc_rgb4_block m data outbuf = Ok out) /\
  znth out 0 <> atc_rgb4_texel atc_dark_std data 0.
Proof.
  exists atc_dark_block, (zeros 16), (repeat 0xFF000000 16).
  split; [repeat constructor; unfold is_byte; lia|].
  split; [reflexivity|]. split; [reflexivity|].
  split; [repeat constructor; unfold is_u32; lia|].
  split; [intros []; vm_compute; reflexivity|]. vm_compute. congruence.
Qed.
Theorem C17_statement_refuted : ~ C17_statement.
Proof.
  intros H. destruct C17_atc_rgb_refuted as (data & outbuf & out & B & Ld & Lo & U & E & N).
  destruct (H Checked data outbuf B ltac:(lia) ltac:(lia) U) as (out' & E' & _ & T). rewrite (E Checked) in E'. inversion E'; subst out'. apply N, T. lia.
Qed.
Example C17_mixes : decode_atc_rgb4_block Checked [0x00; 0x7C; 0x1F; 0x00; 0xE4; 0; 0; 0] (zeros 16) =
  Ok ([0xFFFF0000; 0xFF9F005F; 0xFF5F009F; 0xFF0000FF] ++ repeat 0xFFFF0000 12).
Proof. vm_compute; reflexivity. Qed.
Print Assumptions C17_atc_rgb_partial.
Print Assumptions C17_atc_rgb_code.
Print Assumptions C17_atc_rgb_image_code.
Print Assumptions C17_atc_rgb_refuted.
Print Assumptions C17_statement_refuted.

(** ** C18 *)
(** The alpha is the BC3 interpolation of the first half, the colour is the
    colour which the ATC RGB decoder gives for the second half. *)
Theorem C18_atc_rgba_composes m data outbuf :
  bytes data -> 16 <= zlen data -> 16 <= zlen outbuf -> Forall is_u32 outbuf ->
  exists rgb out, decode_atc_rgb4_block m (skipn 8 data) outbuf = Ok rgb /\
    decode_atc_rgba8_block m data outbuf = Ok out /\ zlen out = zlen outbuf /\
    forall t, 0 <= t < 16 ->
      red (znth out t) = red (znth rgb t) /\ green (znth out t) = green (znth rgb t) /\
      blue (znth out t) = blue (znth rgb t) /\ alpha (znth out t) = interp8 data 0 t.
Proof. exact (atc_rgba8_compose m data outbuf). Qed.
Theorem C18_atc_rgba_block_exact m : block_exact 16 (atc_rgba8_texel atc_dark_code) (decode_atc_rgba8_block m).
Proof. exact (atc_rgba8_contract m). Qed.
Theorem C18_atc_rgba_image_exact m : image_decoder 4 4 16 (atc_rgba8_texel atc_dark_code) (decode_atc_rgba8 m).
Proof. exact (atc_rgba8_image m). Qed.
Example C18_block : decode_atc_rgba8_block Checked (ramp_ff_00 ++ [0x00; 0x7C; 0x1F; 0x00; 0xE4; 0; 0; 0]) (zeros 16) =
  Ok [0xFFFF0000; 0x009F005F; 0xDA5F009F; 0xB60000FF; 0x91FF0000; 0x6DFF0000; 0x48FF0000; 0x24FF0000;
      0xFFFF0000; 0x00FF0000; 0xDAFF0000; 0xB6FF0000; 0x91FF0000; 0x6DFF0000; 0x48FF0000; 0x24FF0000].
Proof. vm_compute; reflexivity. Qed.
Print Assumptions C18_atc_rgba_composes.
Print Assumptions C18_atc_rgba_block_exact.
Print Assumptions C18_atc_rgba_image_exact.
