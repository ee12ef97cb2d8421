(** * C01-C05 and C11: properties shared by all 4x4 block formats *)
From Verif Require Import Base BaseLemmas ModelColor SpecImage SpecBc ModelBc ModelEtc ModelBc7 ProofBlock ProofEtcImage SpecFormats ProofImage ProofOversize.

(** ** C01: the outcome is decided by the sizes alone *)
Theorem C01_size_validation m raw bd dec data w h image :
  In (raw, bd, dec) (formats m) -> sane raw data w h image ->
  exists st image', dec data w h image = Ok (st, image') /\
    (st = Failed "Not enough data to decode image!" <-> zlen data < blocks w 4 * blocks h 4 * raw) /\
    (st = Failed "Image buffer is too small!" <->
       blocks w 4 * blocks h 4 * raw <= zlen data /\ zlen image < w * h) /\
    (st = Done <-> blocks w 4 * blocks h 4 * raw <= zlen data /\ w * h <= zlen image).
Proof. exact (image_exact_cases m raw bd dec data w h image). Qed.
(** Every 32-bit sized picture is covered by the hypotheses. *)
Theorem C01_small_dimensions_sane raw data w h image :
  0 < raw <= 16 -> bytes data -> 0 <= w < 2 ^ 31 -> 0 <= h < 2 ^ 31 -> 4 * zlen image < 2 ^ 63 ->
  sane raw data w h image.
Proof. exact (small_dims raw data w h image). Qed.

Definition two_bc1 : list Z := [0xFF; 0xFF; 0; 0; 0x1B; 0xE4; 0x55; 0xAA; 0x1F; 0; 0xE0; 0x07; 0; 0x55; 0xAA; 0xFF].
Example C01_sane : sane 8 two_bc1 5 3 (repeat 7 16) /\ In (8, decode_bc1_block Checked, decode_bc1 Checked) (formats Checked).
Proof.
  split; [|left; reflexivity]. apply small_dims; [lia| |lia|lia|vm_compute; reflexivity].
  repeat constructor; unfold is_byte; lia.
Qed.
Example C01_all_outcomes :
  decode_bc1 Checked (firstn 15 two_bc1) 5 3 (repeat 7 16) = Ok (Failed "Not enough data to decode image!", repeat 7 16) /\
  decode_bc1 Checked two_bc1 5 3 (repeat 7 14) = Ok (Failed "Image buffer is too small!", repeat 7 14) /\
  exists image', decode_bc1 Checked two_bc1 5 3 (repeat 7 16) = Ok (Done, image') /\ znth image' 15 = 7 /\
    znth image' 4 = rgba 0 0 255 255.
Proof. split; [reflexivity|]. split; [reflexivity|]. eexists. split; [vm_compute; reflexivity|]. vm_compute. auto. Qed.
Example C01_formats_count m : length (formats m) = 17%nat.
Proof. reflexivity. Qed.
Print Assumptions C01_size_validation.
Print Assumptions C01_small_dimensions_sane.

(** ** C02: placement *)
Theorem C02_pixel_placement m raw bd dec data w h image image' :
  In (raw, bd, dec) (formats m) -> sane raw data w h image -> dec data w h image = Ok (Done, image') ->
  forall x y, 0 <= x < w -> 0 <= y < h ->
  exists out, bd (block_bytes raw (y / 4 * blocks w 4 + x / 4) data) fresh_block = Ok out /\
    znth image' (y * w + x) = znth out (y mod 4 * 4 + x mod 4).
Proof. exact (image_pixels m raw bd dec data w h image image'). Qed.
Example C02_block_of_pixel_4_2 : block_bytes 8 (2 / 4 * blocks 5 4 + 4 / 4) two_bc1 = [0x1F; 0; 0xE0; 0x07; 0; 0x55; 0xAA; 0xFF].
Proof. reflexivity. Qed.
Print Assumptions C02_pixel_placement.

(** ** C03: nothing else is written or read *)
Theorem C03_frame m raw bd dec data w h image st image' :
  In (raw, bd, dec) (formats m) -> sane raw data w h image -> dec data w h image = Ok (st, image') ->
  zlen image' = zlen image /\
  (forall j, w * h <= j < zlen image -> znth image' j = znth image j) /\
  (st <> Done -> image' = image).
Proof. exact (image_frame m raw bd dec data w h image st image'). Qed.
Theorem C03_ignores_trailing_data m raw bd dec data w h image :
  In (raw, bd, dec) (formats m) -> sane raw data w h image -> blocks w 4 * blocks h 4 * raw <= zlen data ->
  dec data w h image = dec (firstn (Z.to_nat (blocks w 4 * blocks h 4 * raw)) data) w h image.
Proof. exact (image_ignores_rest m raw bd dec data w h image). Qed.
Example C03_trailing : decode_bc1 Wrapping (two_bc1 ++ [1; 2; 3]) 5 3 (repeat 7 16) = decode_bc1 Wrapping two_bc1 5 3 (repeat 7 16).
Proof. vm_compute. reflexivity. Qed.
Print Assumptions C03_frame.
Print Assumptions C03_ignores_trailing_data.

(** ** C04: each block is decoded on its own *)
Theorem C04_locality m raw bd dec data1 data2 w h image1 image2 image1' image2' :
  In (raw, bd, dec) (formats m) -> sane raw data1 w h image1 -> sane raw data2 w h image2 ->
  dec data1 w h image1 = Ok (Done, image1') -> dec data2 w h image2 = Ok (Done, image2') ->
  forall bx by_, block_bytes raw (by_ * blocks w 4 + bx) data1 = block_bytes raw (by_ * blocks w 4 + bx) data2 ->
  forall x y, 0 <= x < w -> 0 <= y < h -> x / 4 = bx -> y / 4 = by_ ->
    znth image1' (y * w + x) = znth image2' (y * w + x).
Proof. exact (image_local m raw bd dec data1 data2 w h image1 image2 image1' image2'). Qed.
(** BC4 writes one byte of each reused buffer word: the first block differs, the
    second agrees. *)
Example C04_bc4 : exists i1 i2,
  decode_bc4 Checked ([9; 200; 0xFF; 1; 2; 3; 4; 5] ++ [7; 3; 1; 2; 3; 4; 5; 6]) 8 4 (repeat 0 32) = Ok (Done, i1) /\
  decode_bc4 Checked ([254; 0; 0; 0; 0; 3; 4; 5] ++ [7; 3; 1; 2; 3; 4; 5; 6]) 8 4 (repeat 1 32) = Ok (Done, i2) /\
  znth i1 0 <> znth i2 0 /\ znth i1 5 = znth i2 5.
Proof. do 2 eexists. split; [vm_compute; reflexivity|]. split; [vm_compute; reflexivity|]. vm_compute. split; [discriminate|auto]. Qed.
Print Assumptions C04_locality.

(** ** C05: oversized dimensions *)
(** Full statement, for all sizes a usize can hold. *)
Definition C05_statement : Prop := forall m raw bd dec data w h image,
  In (raw, bd, dec) (formats m) -> bytes data -> zlen data < 2 ^ 63 -> 4 * zlen image < 2 ^ 63 -> 0 <= w < 2 ^ 64 -> 0 <= h < 2 ^ 64 ->
  zlen data < blocks w 4 * blocks h 4 * raw -> exists e, dec data w h image = Ok (Failed e, image).
(** Holds as long as the products computed by the check fit in a usize; what is
    missing are larger dimensions, for which the claim is false (below). *)
Theorem C05_oversized_rejected_partial m raw bd dec data w h image :
  In (raw, bd, dec) (formats m) -> sane raw data w h image ->
  zlen data < blocks w 4 * blocks h 4 * raw ->
  dec data w h image = Ok (Failed "Not enough data to decode image!", image).
Proof. exact (fun H S => proj1 (image_cases m raw bd dec data w h image H S)). Qed.
(** No data at all for a 2^34 x 2^34 picture: every format panics in both builds. *)
Theorem C05_oversized_refuted m raw bd dec :
  In (raw, bd, dec) (formats m) ->
  dec [] (2 ^ 34) (2 ^ 34) [] = Panic /\ 0 < blocks (2 ^ 34) 4 * blocks (2 ^ 34) 4 * raw.
Proof. exact (fun H => conj (huge_panics m raw bd dec H) (huge_need m raw bd dec H)). Qed.
Theorem C05_statement_refuted : ~ C05_statement.
Proof.
  intros H. destruct (H Checked 8 (decode_bc1_block Checked) (decode_bc1 Checked) [] (2 ^ 34) (2 ^ 34) []) as (e & E);
    [left; reflexivity|constructor|reflexivity|reflexivity|lia|lia|reflexivity|].
  rewrite (proj1 (C05_oversized_refuted Checked 8 (decode_bc1_block Checked) (decode_bc1 Checked) (or_introl eq_refl))) in E. discriminate E.
Qed.
(** Exactly what happens for every width and height a usize can hold (a slice
    has fewer than 2^63 bytes): sizes up to the data's are the ordinary case of
    C01-C04; needs below 2^64 are rejected; beyond, a checking build panics and a
    wrapping build compares the wrapped products, then runs out of data. *)
Theorem C05_sizes_code m raw bd dec data w h image :
  In (raw, bd, dec) (formats m) -> bytes data -> zlen data < 2 ^ 63 -> 4 * zlen image < 2 ^ 63 ->
  0 <= w < 2 ^ 64 -> 0 <= h < 2 ^ 64 ->
  let need := blocks w 4 * blocks h 4 * raw in
  (need <= zlen data -> sane raw data w h image) /\
  (zlen data < need < 2 ^ 64 -> dec data w h image = Ok (Failed "Not enough data to decode image!", image)) /\
  (2 ^ 64 <= need ->
     dec data w h image =
     match m with
     | Checked => Panic
     | Wrapping =>
         if zlen data <? need mod 2 ^ 64 then Ok (Failed "Not enough data to decode image!", image)
         else if zlen image <? (w * h) mod 2 ^ 64 then Ok (Failed "Image buffer is too small!", image)
         else Panic
     end).
Proof. exact (sizes_code m raw bd dec data w h image). Qed.
(** A wrapping build rejects 2^34 x (2^34 + 4) but by the wrapped number. *)
Example C05_wrapped : 2 ^ 64 <= blocks (2 ^ 34) 4 * blocks (2 ^ 34 + 4) 4 * 8 /\
  (blocks (2 ^ 34) 4 * blocks (2 ^ 34 + 4) 4 * 8) mod 2 ^ 64 = 2 ^ 35 /\
  decode_bc1 Wrapping two_bc1 (2 ^ 34) (2 ^ 34 + 4) [7] = Ok (Failed "Not enough data to decode image!", [7]).
Proof. split; [vm_compute; discriminate|]. split; vm_compute; reflexivity. Qed.
Example C05_large : sane 16 [] (2 ^ 31 - 1) (2 ^ 31 - 1) [] /\ zlen (@nil Z) < blocks (2 ^ 31 - 1) 4 * blocks (2 ^ 31 - 1) 4 * 16.
Proof. split; [|reflexivity]. apply small_dims; try lia; try apply Forall_nil. reflexivity. Qed.
Print Assumptions C05_oversized_rejected_partial.
Print Assumptions C05_oversized_refuted.
Print Assumptions C05_statement_refuted.
Print Assumptions C05_sizes_code.

(** ** C11: block functions write 16 texels only *)
(** Full statement, for every format of C01; BC6 is in PropBc6. *)
Definition C11_statement : Prop := forall m raw bd dec, In (raw, bd, dec) (formats m) -> block_confined raw bd.
(** Holds for BC1, BC1A, BC2, ATC RGB4, BC7 and all of ETC and EAC; missing: BC3, BC4,
    BC5 and ATC RGBA8, for which the claim is false (below). *)
Theorem C11_confined_partial m :
  block_confined 8 (decode_bc1_block m) /\ block_confined 8 (decode_bc1a_block m) /\
  block_confined 16 (decode_bc2_block m) /\ block_confined 8 (decode_atc_rgb4_block m) /\
  block_confined 8 (decode_etc1_block m) /\ block_confined 8 (decode_etc2_rgb_block m) /\
  block_confined 8 (decode_etc2_rgba1_block m) /\ block_confined 16 (decode_etc2_rgba8_block m) /\
  block_confined 8 (decode_eacr_block m) /\ block_confined 8 (decode_eacr_signed_block m) /\
  block_confined 16 (decode_eacrg_block m) /\ block_confined 16 (decode_eacrg_signed_block m) /\
  block_confined 16 (decode_bc7_block m).
Proof. exact (confined_all m). Qed.
Definition over_block : list Z := [200; 10; 1; 2; 3; 4; 5; 6; 200; 10; 1; 2; 3; 4; 5; 6].
(** One block, an output slice of 17 words: the 17th changes. *)
Theorem C11_confined_refuted m :
  (exists out, decode_bc3_block m over_block (repeat 0 17) = Ok out /\ znth out 16 <> 0) /\
  (exists out, decode_bc4_block m over_block (repeat 0 17) = Ok out /\ znth out 16 <> 0) /\
  (exists out, decode_bc5_block m over_block (repeat 0 17) = Ok out /\ znth out 16 <> 0) /\
  (exists out, decode_atc_rgba8_block m over_block (repeat 0 17) = Ok out /\ znth out 16 <> 0).
Proof.
  split; [|split; [|split]]; destruct m; (eexists; split; [vm_compute; reflexivity|vm_compute; discriminate]).
Qed.
Theorem C11_statement_refuted : ~ C11_statement.
Proof.
  intros H. assert (In (16, decode_bc3_block Checked, decode_bc3 Checked) (formats Checked)) as I by (cbn [formats In]; auto 20).
  destruct (H Checked 16 _ _ I over_block (repeat 0 17)) as (out & E & _ & T);
    [repeat constructor; unfold is_byte; lia|vm_compute; discriminate|vm_compute; discriminate|repeat constructor; unfold is_u32; lia|].
  destruct (proj1 (C11_confined_refuted Checked)) as (out' & E' & N). rewrite E in E'. inversion E'; subst out'. apply N. apply T. vm_compute. split; [discriminate|reflexivity].
Qed.
(** Exactly what those four do to a word past the block: one or two channels are
    overwritten with the first end point, the others stay. *)
Theorem C11_overrun_code m data outbuf : bytes data -> 16 <= zlen data -> 16 <= zlen outbuf -> Forall is_u32 outbuf ->
  exists o3 o4 o5 oa,
    decode_bc3_block m data outbuf = Ok o3 /\ decode_bc4_block m data outbuf = Ok o4 /\
    decode_bc5_block m data outbuf = Ok o5 /\ decode_atc_rgba8_block m data outbuf = Ok oa /\
    forall t, 16 <= t < zlen outbuf ->
      let p := znth outbuf t in
      (red (znth o3 t) = red p /\ green (znth o3 t) = green p /\ blue (znth o3 t) = blue p /\ alpha (znth o3 t) = znth data 0) /\
      (red (znth o4 t) = znth data 0 /\ green (znth o4 t) = green p /\ blue (znth o4 t) = blue p /\ alpha (znth o4 t) = alpha p) /\
      (red (znth o5 t) = znth data 0 /\ green (znth o5 t) = znth data 8 /\ blue (znth o5 t) = blue p /\ alpha (znth o5 t) = alpha p) /\
      (red (znth oa t) = red p /\ green (znth oa t) = green p /\ blue (znth oa t) = blue p /\ alpha (znth oa t) = znth data 0).
Proof. exact (overrun_code m data outbuf). Qed.
Example C11_overrun m : exists out, decode_bc4_block m over_block (repeat 0x11223344 18) = Ok out /\ znth out 17 = 0x11C83344.
Proof. destruct m; eexists; (split; [vm_compute; reflexivity|vm_compute; auto]). Qed.
Example C11_bc1_keeps_tail m : exists out, decode_bc1_block m over_block (repeat 5 18) = Ok out /\ znth out 16 = 5 /\ znth out 17 = 5.
Proof. destruct m; eexists; (split; [vm_compute; reflexivity|vm_compute; auto]). Qed.
Print Assumptions C11_confined_partial.
Print Assumptions C11_confined_refuted.
Print Assumptions C11_statement_refuted.
Print Assumptions C11_overrun_code.
