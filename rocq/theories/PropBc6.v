(** * C14, C15, C16, C45: BC6H and half-float conversion *)
From Verif Require Import Base BaseLemmas ModelColor SpecImage SpecBits SpecBc SpecF16 ModelF16 ProofF16
  SpecBc6 ModelBc6 ProofBc6Image.

(** ** C16: half-float to 8 bit *)
Theorem C16_bc6_half_to_byte h : 0 <= h < 65536 -> f16_to_u8 h = half_byte h.
Proof. exact (f16_to_u8_ok h). Qed.
(** Full statement.  It is false for the conversion of ASTC: its `floor`
    subtracts 1 from `i32::MIN` when the half is minus infinity. *)
Definition C16_statement : Prop := forall m h, 0 <= h < 65536 ->
  f16_to_u8 h = half_byte h /\ astc_f16_to_u8 m h = Ok (half_byte h).
(** Missing: minus infinity. *)
Theorem C16_astc_half_to_byte_partial m h : 0 <= h < 65536 -> h <> 0xfc00 -> astc_f16_to_u8 m h = Ok (half_byte h).
Proof. exact (astc_f16_to_u8_ok m h). Qed.
(** A panic with overflow checks, the largest byte instead of the smallest
    without. *)
Theorem C16_astc_minus_infinity_code m : astc_f16_to_u8 m 0xfc00 = match m with Checked => Panic | Wrapping => Ok 255 end.
Proof. exact (astc_f16_neg_inf m). Qed.
Theorem C16_astc_minus_infinity_refuted : ~ C16_statement /\ half_inf 0xfc00 /\ half_sign 0xfc00 = 1 /\ half_byte 0xfc00 = 0 /\
  forall m, astc_f16_to_u8 m 0xfc00 <> Ok (half_byte 0xfc00).
Proof.
  assert (forall m, astc_f16_to_u8 m 0xfc00 <> Ok (half_byte 0xfc00)) as N by (intros []; rewrite astc_f16_neg_inf; discriminate).
  split; [|repeat split; exact N]. intros H. destruct (H Checked 0xfc00 ltac:(lia)) as [_ E]. exact (N _ E).
Qed.
(** [half_byte] is what the property says: clamped floor of 255 times the value
    [(-1)^s * half_num / 2^24] of a finite pattern. *)
Theorem C16_half_byte_meaning h : 0 <= h < 65536 ->
  (half_nan h -> half_byte h = 0) /\
  (half_inf h -> half_byte h = if half_sign h =? 1 then 0 else 255) /\
  (~ half_nan h -> ~ half_inf h ->
     half_byte h = Z.max 0 (Z.min 255 (255 * ((if half_sign h =? 1 then -1 else 1) * half_num h) / 2 ^ 24))).
Proof. exact (half_byte_meaning h). Qed.
(** The conversion to single precision before it loses nothing. *)
Theorem C16_half_to_single_exact h : 0 <= h < 65536 ->
  exists x, fp32_to_bits (fp16_ieee_to_fp32_value h) = x /\
  (half_nan h -> x / 2 ^ 23 mod 256 = 255 /\ x mod 2 ^ 23 <> 0) /\
  (half_inf h -> x = half_sign h * 2 ^ 31 + 255 * 2 ^ 23) /\
  (half_exp h <> 31 -> x / 2 ^ 31 = half_sign h /\ x / 2 ^ 23 mod 256 < 255 /\ single_num x = half_num h * 2 ^ 125).
Proof. exact (half_exact h). Qed.
Example C16_ex : map half_byte [0x3c00; 0x3800; 0x3bff; 0x0001; 0xbc00; 0x7c00; 0xfc00; 0x7e00] = [255; 127; 254; 0; 0; 255; 0; 0] /\
  map f16_to_u8 [0x3c00; 0x3800; 0x3bff; 0x0001; 0xbc00; 0x7c00; 0xfc00; 0x7e00] = [255; 127; 254; 0; 0; 255; 0; 0] /\
  map (astc_f16_to_u8 Checked) [0x3c00; 0x3800; 0x3bff; 0x0001; 0xbc00; 0x7c00; 0xfbff; 0x7e00] = map Ok [255; 127; 254; 0; 0; 255; 0; 0].
Proof. repeat split; vm_compute; reflexivity. Qed.
Print Assumptions C16_bc6_half_to_byte.
Print Assumptions C16_astc_half_to_byte_partial.
Print Assumptions C16_astc_minus_infinity_code.
Print Assumptions C16_astc_minus_infinity_refuted.
Print Assumptions C16_half_byte_meaning.
Print Assumptions C16_half_to_single_exact.

(** Blocks used below: mode 3; mode 30 with two subsets; mode 7; mode 15; a reserved mode. *)
Definition bc6_m3 : list Z := [3; 25; 150; 232; 131; 140; 12; 10; 222; 155; 87; 19; 207; 138; 70; 2].
Definition bc6_m30 : list Z := [190; 47; 54; 121; 190; 84; 0; 0; 0; 160; 173; 38; 158; 21; 141; 4].
Definition bc6_m7 : list Z := [7; 25; 150; 232; 67; 129; 12; 10; 222; 155; 87; 19; 207; 138; 70; 2].
Definition bc6_m15 : list Z := [15; 25; 150; 232; 67; 129; 12; 10; 222; 155; 87; 19; 207; 138; 70; 2].
Definition bc6_reserved : list Z := 19 :: repeat 255 15.
Example C14_ex_modes : map bc6_mode [bc6_m3; bc6_m30; bc6_m7; bc6_m15; bc6_reserved] = [3; 30; 7; 15; 19] /\
  map bc6_valid [3; 30; 7; 15; 19] = [true; true; true; true; false].
Proof. vm_compute; auto. Qed.

(** ** C14: totality *)
(** Full statement: for both builds and both signednesses, every block of 16
    bytes decodes without panic, and reserved modes give zeros.  It is false:
    with overflow checks, [1u16 << 16] panics on every block of mode 15. *)
Definition C14_statement : Prop :=
  forall m data outbuf sgn, bytes data -> 16 <= zlen data -> 16 <= zlen outbuf ->
  exists out, decode_bc6_block m data outbuf sgn = Ok out /\ zlen out = zlen outbuf /\
    (forall t, 16 <= t < zlen outbuf -> znth out t = znth outbuf t) /\
    (bc6_valid (bc6_mode data) = false -> forall t, 0 <= t < 16 -> znth out t = 0).
Theorem C14_bc6_total_partial m data outbuf sgn : bytes data -> 16 <= zlen data -> 16 <= zlen outbuf ->
  (m = Wrapping \/ bc6_mode data <> 15) ->
  exists out, decode_bc6_block m data outbuf sgn = Ok out /\ zlen out = zlen outbuf /\
    (forall t, 16 <= t < zlen outbuf -> znth out t = znth outbuf t) /\
    (bc6_valid (bc6_mode data) = false -> forall t, 0 <= t < 16 -> znth out t = 0).
Proof. exact (bc6_total m data outbuf sgn). Qed.
(** C11 for BC6: whatever the build, a block that decodes leaves the rest of the slice alone. *)
Theorem C11_bc6_confined m data outbuf sgn out : bytes data -> 16 <= zlen data -> 16 <= zlen outbuf ->
  decode_bc6_block m data outbuf sgn = Ok out -> zlen out = zlen outbuf /\ forall t, 16 <= t < zlen outbuf -> znth out t = znth outbuf t.
Proof.
  intros B L O E. destruct (Z.eq_dec (bc6_mode data) 15) as [M|M].
  - destruct m; [rewrite (bc6_block_mode15 data outbuf sgn B L M) in E; discriminate E|].
    destruct (bc6_total Wrapping data outbuf sgn B L O (or_introl eq_refl)) as (o & E' & F & G & _). rewrite E in E'. inversion E'; subst o. exact (conj F G).
  - destruct (bc6_total m data outbuf sgn B L O (or_intror M)) as (o & E' & F & G & _). rewrite E in E'. inversion E'; subst o. exact (conj F G).
Qed.
Example C11_bc6_ex m : exists out, decode_bc6_block m (repeat 0 16) (repeat 7 18) false = Ok out /\ znth out 15 = 0xFF000000 /\ znth out 16 = 7 /\ znth out 17 = 7.
Proof. destruct m; eexists; (split; [vm_compute; reflexivity|vm_compute; auto]). Qed.
Print Assumptions C11_bc6_confined.
Theorem C14_mode15_panics_code data outbuf sgn : bytes data -> 16 <= zlen data -> bc6_mode data = 15 ->
  decode_bc6_block Checked data outbuf sgn = Panic.
Proof. exact (bc6_block_mode15 data outbuf sgn). Qed.
Theorem C14_bc6_total_refuted : ~ C14_statement.
Proof.
  intros H. destruct (H Checked bc6_m15 (repeat 0 16) false) as (out & E & _).
  - repeat constructor; unfold is_byte; lia.
  - vm_compute; discriminate.
  - vm_compute; discriminate.
  - rewrite (bc6_block_mode15 bc6_m15 (repeat 0 16) false) in E; [discriminate| | |reflexivity].
    + repeat constructor; unfold is_byte; lia.
    + vm_compute; discriminate.
Qed.
Example C14_ex_total : bc6_mode bc6_m30 <> 15 /\ bytes bc6_m30 /\
  decode_bc6_block Checked bc6_m30 (repeat 0 16) false =
  Ok [4294917887; 4294967295; 4294901762; 4294967295; 4294967295; 4286382080; 4294917887; 4286382080; 4278255360;
      4278255360; 4278255360; 4278255370; 4278255505; 4278255505; 4278255360; 4278255360].
Proof.
  split; [vm_compute; discriminate|]. split; [repeat constructor; unfold is_byte; lia|]. vm_compute; reflexivity.
Qed.
Example C14_ex_reserved : decode_bc6_block Checked bc6_reserved (repeat 7 17) true = Ok (repeat 0 16 ++ [7]).
Proof. vm_compute; reflexivity. Qed.
Example C14_ex_wrapping : exists out, decode_bc6_block Wrapping bc6_m15 (repeat 0 16) false = Ok out /\
  decode_bc6_block Checked bc6_m15 (repeat 0 16) false = Panic.
Proof. eexists. split; vm_compute; reflexivity. Qed.
Print Assumptions C14_bc6_total_partial.
Print Assumptions C14_mode15_panics_code.
Print Assumptions C14_bc6_total_refuted.

(** ** C15: unsigned format *)
(** Full statement. *)
Definition C15_statement : Prop := forall m, block_exact 16 bc6u_texel (decode_bc6_block_unsigned m).
Theorem C15_bc6u_exact_partial m data outbuf : bytes data -> 16 <= zlen data -> 16 <= zlen outbuf -> bc6u_clean data ->
  exists out, decode_bc6_block_unsigned m data outbuf = Ok out /\
    forall t, 0 <= t < 16 -> znth out t = bc6u_texel data t.
Proof. exact (bc6u_clean_block m data outbuf). Qed.
(** What the code computes, on every block on which it does not panic. *)
Theorem C15_bc6u_code m data outbuf : bytes data -> 16 <= zlen data -> 16 <= zlen outbuf ->
  (m = Wrapping \/ bc6_mode data <> 15) ->
  exists out, decode_bc6_block_unsigned m data outbuf = Ok out /\
    forall t, 0 <= t < 16 -> znth out t = bc6u_code_texel data t.
Proof. exact (bc6u_code_block m data outbuf). Qed.
Theorem C15_bc6u_image_code : image_decoder 4 4 16 bc6u_code_texel
  (fun data w h image => decode_bc6 Wrapping data w h image false).
Proof. exact (bc6_image false). Qed.
(** End point 512 of a 10-bit mode is taken for the top of the scale... *)
Definition bc6_512 : list Z := [3; 64; 0; 0; 0; 0; 0; 0; 102; 102; 102; 102; 102; 102; 102; 102].
(** ... and 1023, the top of the scale, is not recognised. *)
Theorem C15_bc6u_exact_refuted : ~ C15_statement.
Proof.
  intros H. destruct (H Checked bc6_512 (repeat 0 16)) as (out & E & _ & T).
  - repeat constructor; unfold is_byte; lia.
  - vm_compute; discriminate.
  - vm_compute; discriminate.
  - repeat constructor; unfold is_u32; lia.
  - specialize (T 2 ltac:(lia)). vm_compute in E. injection E as <-. vm_compute in T. discriminate T.
Qed.
Theorem C15_unquantise_top : unq_unsigned 10 1023 = 65535 /\ unq_unsigned_code 10 1023 = 65504 /\
  unq_unsigned 10 512 = 32800 /\ unq_unsigned_code 10 512 = 65535.
Proof. vm_compute; auto. Qed.
Example C15_ex_clean : bytes bc6_m3 /\ bc6u_clean bc6_m3 /\
  map (fun e => (bc6_end false bc6_m3 0 e, bc6_end false bc6_m3 1 e, bc6_end false bc6_m3 2 e)) [0; 1] = [(200, 300, 500); (400, 100, 20)].
Proof.
  split; [repeat constructor; unfold is_byte; lia|]. split; [|vm_compute; reflexivity].
  split; [vm_compute; discriminate|]. intros c e Hc He. change (subsets6 (bc6_mode bc6_m3)) with 1 in He.
  assert (c = 0 \/ c = 1 \/ c = 2) as [-> |[-> | ->]] by lia; assert (e = 0 \/ e = 1) as [-> | ->] by lia;
    vm_compute; split; discriminate.
Qed.
Example C15_ex_decode : decode_bc6_block_unsigned Checked bc6_m3 (repeat 0 16) =
  Ok [4278386690; 4279500800; 4278976512; 4278583296; 4278386690; 4278321419; 4278255910; 4278191006; 4280483840;
      4279173120; 4278779904; 4278517761; 4278386692; 4278255892; 4278190662; 4278191359].
Proof. vm_compute; reflexivity. Qed.
Print Assumptions C15_bc6u_exact_partial.
Print Assumptions C15_bc6u_code.
Print Assumptions C15_bc6u_image_code.
Print Assumptions C15_bc6u_exact_refuted.

(** ** C45: signed format *)
Definition C45_statement : Prop := forall m, block_exact 16 bc6s_texel (decode_bc6_block_signed m).
Theorem C45_bc6s_exact_partial m data outbuf : bytes data -> 16 <= zlen data -> 16 <= zlen outbuf -> bc6s_clean data ->
  exists out, decode_bc6_block_signed m data outbuf = Ok out /\
    forall t, 0 <= t < 16 -> znth out t = bc6s_texel data t.
Proof. exact (bc6s_clean_block m data outbuf). Qed.
Theorem C45_bc6s_code m data outbuf : bytes data -> 16 <= zlen data -> 16 <= zlen outbuf ->
  (m = Wrapping \/ bc6_mode data <> 15) ->
  exists out, decode_bc6_block_signed m data outbuf = Ok out /\
    forall t, 0 <= t < 16 -> znth out t = bc6s_code_texel data t.
Proof. exact (bc6s_code_block m data outbuf). Qed.
Theorem C45_bc6s_image_code : image_decoder 4 4 16 bc6s_code_texel
  (fun data w h image => decode_bc6 Wrapping data w h image true).
Proof. exact (bc6_image true). Qed.
(** Red end points -1 and 100: the interpolated value is about 0 but is decoded as bright red. *)
Definition bc6_neg : list Z := [227; 127; 0; 0; 32; 3; 0; 0; 0; 0; 0; 0; 0; 0; 0; 16].
Theorem C45_bc6s_exact_refuted : ~ C45_statement.
Proof.
  intros H. destruct (H Checked bc6_neg (repeat 0 16)) as (out & E & _ & T).
  - repeat constructor; unfold is_byte; lia.
  - vm_compute; discriminate.
  - vm_compute; discriminate.
  - repeat constructor; unfold is_u32; lia.
  - specialize (T 15 ltac:(lia)). vm_compute in E. injection E as <-. vm_compute in T. discriminate T.
Qed.
Example C45_ex_neg : bc6_mode bc6_neg = 3 /\ bc6_end true bc6_neg 0 0 = -1 /\ bc6_end true bc6_neg 0 1 = 100.
Proof. vm_compute; auto. Qed.
Example C45_ex_clean : bytes bc6_m7 /\ bc6s_clean bc6_m7 /\
  map (fun e => (bc6_end true bc6_m7 0 e, bc6_end true bc6_m7 1 e, bc6_end true bc6_m7 2 e)) [0; 1] = [(200, 300, 500); (240, 400, 520)].
Proof.
  split; [repeat constructor; unfold is_byte; lia|]. split; [|vm_compute; reflexivity].
  split; [vm_compute; discriminate|]. intros c e Hc He. change (subsets6 (bc6_mode bc6_m7)) with 1 in He.
  assert (c = 0 \/ c = 1 \/ c = 2) as [-> |[-> | ->]] by lia; assert (e = 0 \/ e = 1) as [-> | ->] by lia;
    vm_compute; discriminate.
Qed.
Print Assumptions C45_bc6s_exact_partial.
Print Assumptions C45_bc6s_code.
Print Assumptions C45_bc6s_image_code.
Print Assumptions C45_bc6s_exact_refuted.
