(** * C25-C28 and C46: PVRTC *)
From Verif Require Import Base BaseLemmas ModelColor ModelPvrtc SpecImage SpecBc SpecPvrtc ProofMorton ProofPvrInfo ProofPvrtc.

(** Block width of the bit rate. *)
Definition pvr_bw (is2bpp : bool) : Z := if is2bpp then 8 else 4.

(** ** C25 *)
(** The full claim: no panic, and Err whenever fewer than 8 bytes per block are given. *)
Definition C25_statement : Prop := forall m is2bpp data w h image,
  pvr_sane (pvr_bw is2bpp) data w h image ->
  exists st image', decode_pvrtc m data w h image is2bpp = Ok (st, image') /\
    (zlen data < blocks w (pvr_bw is2bpp) * blocks h 4 * 8 -> st <> Done).
(** What the code does, for all inputs. *)
Theorem C25_pvrtc_code m is2bpp data w h image : pvr_sane (pvr_bw is2bpp) data w h image ->
  let nbx := blocks w (pvr_bw is2bpp) in let nby := blocks h 4 in
  let run := decode_pvrtc m data w h image is2bpp in
  (zlen data < nbx * nby * pvr_bw is2bpp -> run = Ok (Failed "The data buffer is too small!", image)) /\
  (nbx * nby * pvr_bw is2bpp <= zlen data -> zlen image < w * h -> run = Ok (Failed "The image buffer is too small!", image)) /\
  (nbx * nby * pvr_bw is2bpp <= zlen data -> w * h <= zlen image ->
    (0 < w -> 0 < h -> ~ (pow2 nbx /\ pow2 nby) ->
       run = Ok (Failed "The number of blocks of each side must be a power of 2!", image)) /\
    (pow2 nbx -> pow2 nby -> zlen data < nbx * nby * 8 -> run = Panic) /\
    (pow2 nbx -> pow2 nby -> nbx * nby * 8 <= zlen data ->
       exists image', run = Ok (Done, image') /\ zlen image' = zlen image) /\
    (m = Checked -> w = 0 \/ h = 0 /\ pow2 nbx -> run = Panic) /\
    (0 < w -> h = 0 -> ~ pow2 nbx -> run = Ok (Failed "The number of blocks of each side must be a power of 2!", image)) /\
    (m = Wrapping -> w = 0 \/ h = 0 -> w = 0 \/ pow2 nbx -> h = 0 \/ pow2 nby -> run = Ok (Done, image))).
Proof. exact (pvr_code m is2bpp data w h image). Qed.
(** 2bpp with positive sizes: the full claim holds.  Missing: 4bpp with
    4 to 8 bytes per block, and sizes of zero. *)
Theorem C25_pvrtc_size_validation_partial m data w h image : pvr_sane 8 data w h image -> 0 < w -> 0 < h ->
  exists st image', decode_pvrtc m data w h image true = Ok (st, image') /\
    (zlen data < blocks w 8 * blocks h 4 * 8 -> st <> Done).
Proof. exact (pvr2_sizes m data w h image). Qed.
Theorem C25_pvrtc_short_4bpp_refuted : ~ C25_statement.
Proof.
  intros H. destruct (H Wrapping false (repeat 0 4) 4 4 (repeat 0 16)) as (st & im & E & _).
  - split; [repeat constructor; unfold is_byte; lia|]. vm_compute. intuition discriminate.
  - vm_compute in E. discriminate E.
Qed.
Theorem C25_pvrtc_zero_size_refuted : ~ C25_statement.
Proof.
  intros H. destruct (H Checked true [] 0 4 []) as (st & im & E & _).
  - split; [constructor|]. vm_compute. intuition discriminate.
  - vm_compute in E. discriminate E.
Qed.
Example C25_ex : pvr_sane 8 (repeat 7 17) 20 3 (repeat 0 60) /\
  decode_pvrtc Checked (repeat 7 17) 20 3 (repeat 0 60) true = Ok (Failed "The data buffer is too small!", repeat 0 60) /\
  decode_pvrtc Checked (repeat 7 24) 20 3 (repeat 0 59) true = Ok (Failed "The image buffer is too small!", repeat 0 59) /\
  decode_pvrtc Checked (repeat 7 24) 20 3 (repeat 0 60) true = Ok (Failed "The number of blocks of each side must be a power of 2!", repeat 0 60).
Proof.
  split; [|vm_compute; auto]. split; [repeat constructor; unfold is_byte; lia|]. vm_compute. intuition discriminate.
Qed.
Print Assumptions C25_pvrtc_code.
Print Assumptions C25_pvrtc_size_validation_partial.
Print Assumptions C25_pvrtc_short_4bpp_refuted.
Print Assumptions C25_pvrtc_zero_size_refuted.

(** ** C26 *)
(** The code computes the interleaved number ... *)
Theorem C26_pvrtc_address m p q x y : 0 <= p -> 0 <= q -> p + q <= 62 -> 0 <= x < 2 ^ p -> 0 <= y < 2 ^ q ->
  morton_index m x y (2 ^ Z.min p q) = Ok (morton (Z.to_nat (Z.min p q)) x y).
Proof. exact (morton_index_ok m p q x y). Qed.
(** ... which numbers the blocks of the grid from 0 to 2^p * 2^q - 1. *)
Theorem C26_pvrtc_address_bijection m p q : 0 <= p -> 0 <= q -> p + q <= 62 ->
  (forall x y, 0 <= x < 2 ^ p -> 0 <= y < 2 ^ q ->
     exists n, morton_index m x y (2 ^ Z.min p q) = Ok n /\ 0 <= n < 2 ^ p * 2 ^ q) /\
  (forall x y x' y' n, 0 <= x < 2 ^ p -> 0 <= y < 2 ^ q -> 0 <= x' < 2 ^ p -> 0 <= y' < 2 ^ q ->
     morton_index m x y (2 ^ Z.min p q) = Ok n -> morton_index m x' y' (2 ^ Z.min p q) = Ok n -> x = x' /\ y = y') /\
  (forall n, 0 <= n < 2 ^ p * 2 ^ q ->
     exists x y, 0 <= x < 2 ^ p /\ 0 <= y < 2 ^ q /\ morton_index m x y (2 ^ Z.min p q) = Ok n).
Proof. exact (address_bijection m p q). Qed.
(** Bit [2i] of the number is bit [i] of y and bit [2i+1] is bit [i] of x, below the size of the smaller side. *)
Theorem C26_pvrtc_address_bits k x y i : 0 <= x -> 0 <= y -> 0 <= i < Z.of_nat k ->
  bits_at (morton k x y) (2 * i) 1 = bits_at y i 1 /\ bits_at (morton k x y) (2 * i + 1) 1 = bits_at x i 1.
Proof. exact (address_bits k x y i). Qed.
Example C26_ex : morton_index Checked 13 2 (2 ^ Z.min 4 2) = Ok 54 /\ morton_index Checked 1 6 (2 ^ Z.min 1 3) = Ok 14.
Proof. vm_compute; auto. Qed.
Print Assumptions C26_pvrtc_address.
Print Assumptions C26_pvrtc_address_bijection.
Print Assumptions C26_pvrtc_address_bits.

(** ** C27 *)
Theorem C27_pvrtc_decodes m is2bpp data w h image :
  pvr_sane (pvr_bw is2bpp) data w h image -> pow2 (blocks w (pvr_bw is2bpp)) -> pow2 (blocks h 4) ->
  blocks w (pvr_bw is2bpp) * blocks h 4 * 8 <= zlen data -> w * h <= zlen image ->
  exists image', decode_pvrtc m data w h image is2bpp = Ok (Done, image') /\ zlen image' = zlen image /\
    (forall x y, 0 <= x < w -> 0 <= y < h -> exists r g b a,
       is_byte r /\ is_byte g /\ is_byte b /\ is_byte a /\ znth image' (y * w + x) = rgba r g b a) /\
    (forall j, w * h <= j < zlen image -> znth image' j = znth image j).
Proof. exact (pvr_total m is2bpp data w h image). Qed.
(** The interpolated and blended channels never leave 0 .. 255, so nothing is cut off. *)
Theorem C27_pvrtc_channels_in_range bw nbx nby blk mv c x y : bw = 4 \/ bw = 8 -> 0 <= mv <= 8 -> 0 <= c < 4 ->
  0 <= pvr_channel bw nbx nby blk mv c x y <= 255.
Proof. exact (channel_range bw nbx nby blk mv c x y). Qed.
Theorem C27_pvrtc_modulation_in_range blk nbx nby x y b t : 0 <= t ->
  0 <= mod2 blk nbx nby x y <= 8 /\ 0 <= mod4 b t <= 8.
Proof. exact (fun H => conj (mod2_range blk nbx nby x y) (mod4_range b t H)). Qed.
Example C27_ex : pvr_sane 4 (repeat 255 16) 8 3 (repeat 0 24) /\ pow2 (blocks 8 4) /\ pow2 (blocks 3 4) /\
  decode_pvrtc Checked (repeat 255 16) 8 3 (repeat 0 24) false = Ok (Done, repeat 0xFFFFFFFF 24).
Proof.
  split; [split; [repeat constructor; unfold is_byte; lia|vm_compute; intuition discriminate]|].
  split; [exists 1; vm_compute; intuition discriminate|]. split; [exists 0; vm_compute; intuition discriminate|]. vm_compute; reflexivity.
Qed.
Print Assumptions C27_pvrtc_decodes.
Print Assumptions C27_pvrtc_channels_in_range.
Print Assumptions C27_pvrtc_modulation_in_range.

(** ** C28 and C46 *)
Theorem C28_pvrtc_4bpp_exact m : pvr_decoder 4 pvr4_pixel (decode_pvrtc_4bpp m).
Proof. exact (pvr_contract m false). Qed.
Theorem C46_pvrtc_2bpp_exact m : pvr_decoder 8 pvr2_pixel (decode_pvrtc_2bpp m).
Proof. exact (pvr_contract m true). Qed.
(** Two blocks with the modulation mode 1 (punch-through) and opaque and translucent colours. *)
Definition pvr_two : list Z := [0x1B; 0xE4; 0x39; 0x72; 0x35; 0x92; 0x77; 0x41; 0x27; 0x8D; 0xB1; 0x4E; 0xEA; 0x51; 0x3C; 0xF0].
Example C28_ex : pvr_sane 4 pvr_two 8 4 (repeat 0 33) /\ pvr_mode (firstn 8 pvr_two) = 1 /\
  punch4 (firstn 8 pvr_two) 1 = true /\
  (exists im, decode_pvrtc_4bpp Checked pvr_two 8 4 (repeat 0 33) = Ok (Done, im) /\
     firstn 5 im = [3279633837; 3243679; 3273162640; 3910968751; 3279633837] /\ znth im 32 = 0).
Proof.
  split; [split; [repeat constructor; unfold is_byte; lia|vm_compute; intuition discriminate]|].
  split; [reflexivity|]. split; [reflexivity|]. eexists. split; [vm_compute; reflexivity|]. vm_compute; auto.
Qed.
(** 2bpp: the first block interpolates its gaps vertically, the second has one bit per texel. *)
Definition pvr_gaps : list Z := [0x1B; 0xE4; 0x39; 0x72; 0x35; 0x92; 0x77; 0x41; 0x27; 0x8D; 0xB1; 0x4E; 0xEA; 0x51; 0x3C; 0xF0].
Example C46_ex : pvr_sane 8 pvr_gaps 16 4 (repeat 0 64) /\ pvr_mode (firstn 8 pvr_gaps) = 1 /\ pvr_mode (skipn 8 pvr_gaps) = 0 /\
  map (fun x => mod2 (pvr_blocks pvr_gaps 1 0) 2 1 x 0) [0; 1; 2; 3; 4; 8; 9] = [8; 3; 5; 2; 3; 8; 8].
Proof.
  split; [split; [repeat constructor; unfold is_byte; lia|vm_compute; intuition discriminate]|]. vm_compute; auto.
Qed.
Print Assumptions C28_pvrtc_4bpp_exact.
Print Assumptions C46_pvrtc_2bpp_exact.
