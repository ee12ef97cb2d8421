(** * C76: which pictures a format can store *)
From Verif Require Import Base BaseLemmas ModelColor SpecImage SpecBc SpecBc7 ModelBc ModelBc7 ModelAstc SpecAstc SpecFormats ProofBcImage SpecCut ProofCut SpecEncode ProofEncode ProofEncodeBc ProofEncodeSolid
  PropBc PropBc7 PropAstc PropCut.

(** The decoders of BC1 to BC5 show exactly the pictures made of blocks with the
    colours between two end points: all of them, and no others. *)
Theorem C76_bc1 m : stores_exactly 8 u16_pair bc1_colour (decode_bc1 m).
Proof. exact (bc1_stores _ (C06_bc1_image_exact m)). Qed.
Theorem C76_bc1a m : stores_exactly 8 u16_pair bc1a_colour (decode_bc1a m).
Proof. exact (bc1a_stores _ (C07_bc1a_image_exact m)). Qed.
Theorem C76_bc2 m : stores_exactly 16 u16_pair bc2_colour (decode_bc2 m).
Proof. exact (bc2_stores _ (C08_bc2_image_exact m)). Qed.
Theorem C76_bc3 m : stores_exactly 16 bc3_ends bc3_colour (decode_bc3 m).
Proof. exact (bc3_stores _ (C09_bc3_image_exact m)). Qed.
Theorem C76_bc4 m : stores_exactly 8 byte_pair bc4_colour (decode_bc4 m).
Proof. exact (bc4_stores _ (C10_bc4_image_exact m)). Qed.
Theorem C76_bc5 m : stores_exactly 16 bc5_ends bc5_colour (decode_bc5 m).
Proof. exact (bc5_stores _ (C10_bc5_image_exact m)). Qed.
(** ATC with the darkened colour of the code (C17). *)
Theorem C76_atc_rgb m : stores_exactly 8 u16_pair (atc_rgb_colour atc_dark_code) (decode_atc_rgb4 m).
Proof. exact (atc_rgb_stores _ _ (C17_atc_rgb_image_code m)). Qed.
Theorem C76_atc_rgba m : stores_exactly 16 bc3_ends (atc_rgba_colour atc_dark_code) (decode_atc_rgba8 m).
Proof. exact (atc_rgba_stores _ _ (C18_atc_rgba_image_exact m)). Qed.

(** BC7 and ASTC can store every picture of solid blocks, of any colour and alpha. *)
Theorem C76_bc7_solid m w h pic : 0 <= w < 2 ^ 64 -> 0 <= h < 2 ^ 64 -> blocks w 4 * blocks h 4 * 16 < 2 ^ 63 -> 4 * (w * h) < 2 ^ 63 -> solid_blocks 4 4 w h pic ->
  exists data, bytes data /\ zlen data = blocks w 4 * blocks h 4 * 16 /\
    forall image, w * h <= zlen image -> 4 * zlen image < 2 ^ 63 -> exists image', decode_bc7 m data w h image = Ok (Done, image') /\ shows image' w h pic.
Proof.
  intros Hw Hh HZ HA HS. apply (store 4 4 16 (fun _ => True) bc7_texel _ w h pic (decodes_all _ _ _ _ _ (C12_bc7_image_exact m)) ltac:(lia) ltac:(lia) ltac:(lia) Hw Hh HZ HA).
  apply solid_fits; [lia|lia|exact HS|]. intros r g b a R G B A. exists (to_bytes 16 (solid7 r g b a)).
  split; [apply to_bytes_bytes|]. split; [unfold zlen; rewrite to_bytes_len; reflexivity|]. split; [exact I|]. intros t Ht. apply solid7_texel; assumption.
Qed.
Theorem C76_astc_solid m bw bh w h pic : 2 <= bw -> 2 <= bh -> bw * bh <= 144 ->
  0 <= w < 2 ^ 64 -> 0 <= h < 2 ^ 64 -> blocks w bw * blocks h bh * 16 < 2 ^ 63 -> 4 * (w * h) < 2 ^ 63 -> solid_blocks bw bh w h pic ->
  exists data, bytes data /\ zlen data = blocks w bw * blocks h bh * 16 /\
    forall image, w * h <= zlen image -> 4 * zlen image < 2 ^ 63 -> exists image', decode_astc m data w h bw bh image = Ok (Done, image') /\ shows image' w h pic.
Proof.
  intros H1 H2 H3 Hw Hh HZ HA HS. apply (store bw bh 16 _ _ _ w h pic (astc_decodes m bw bh H1 H2 H3) ltac:(lia) ltac:(lia) ltac:(lia) Hw Hh HZ HA).
  apply solid_fits; [lia|lia|exact HS|]. intros r g b a R G B A. exists (solid_astc r g b a).
  split; [apply solid_astc_bytes; assumption|]. split; [reflexivity|]. split; [apply solid_astc_good; assumption|]. intros t Ht. apply solid_astc_texel; assumption.
Qed.

(** A picture of 5x3 pixels that BC1 can store: white with a black column. *)
Definition bars (x y : Z) : Z := if x =? 4 then rgba 0 0 0 255 else rgba 255 255 255 255.
Example C76_ex m : storable u16_pair bc1_colour 5 3 bars /\
  exists data image', zlen data = 16 /\ decode_bc1 m data 5 3 (repeat 7 15) = Ok (Done, image') /\ shows image' 5 3 bars /\ znth image' 3 <> znth image' 4.
Proof.
  assert (storable u16_pair bc1_colour 5 3 bars) as S.
  { intros bx by_ _ _ _ _. exists (65535, 0). split; [split; unfold is_u16; cbn; lia|]. intros x y _ _ _ _. unfold bars.
    destruct (x =? 4); [exists 1|exists 0]; (split; [lia|vm_compute; reflexivity]). }
  split; [exact S|]. destruct (C76_bc1 m 5 3 bars ltac:(lia) ltac:(lia) ltac:(vm_compute; reflexivity) ltac:(lia)) as [P _].
  destruct (P S) as (data & _ & L & D). destruct (D (repeat 7 15)) as (image' & E & W); [vm_compute; discriminate|vm_compute; reflexivity|].
  exists data, image'. split; [rewrite L; reflexivity|]. split; [exact E|]. split; [exact W|].
  pose proof (W 3 0 ltac:(lia) ltac:(lia)) as W3. pose proof (W 4 0 ltac:(lia) ltac:(lia)) as W4. change (0 * 5 + 3) with 3 in W3. change (0 * 5 + 4) with 4 in W4. rewrite W3, W4. discriminate.
Qed.
(** A green picture is the picture of no BC4 data. *)
Example C76_ex_none m data image image' : bytes data -> 4 * zlen image < 2 ^ 63 -> decode_bc4 m data 6 6 image = Ok (Done, image') -> ~ shows image' 6 6 (fun _ _ => rgba 0 5 0 255).
Proof.
  intros B H4 E S. destruct (C76_bc4 m 6 6 (fun _ _ => rgba 0 5 0 255) ltac:(lia) ltac:(lia) ltac:(vm_compute; reflexivity) ltac:(lia)) as [_ P].
  destruct (P data image image' B H4 E S 1 1) as (a & _ & C); try lia. destruct (C 5 5) as (r & _ & F); try lia. unfold rgba in F. lia.
Qed.
(** A picture of 16x3 pixels, each block with its own colour and alpha. *)
Definition tiles (x y : Z) : Z := rgba (37 + x / 4) (200 - 51 * (x / 4)) (101 + x / 4) (3 * (x / 4)).
Lemma C76_tiles : solid_blocks 4 4 16 3 tiles.
Proof.
  intros bx by_ Hx Hy. exists (if bx <? 4 then rgba (37 + bx) (200 - 51 * bx) (101 + bx) (3 * bx) else 0). split.
  - destruct (Z.ltb_spec bx 4); [unfold rgba; lia|lia].
  - intros x y Ix Iy Lx Ly. destruct (Z.ltb_spec bx 4) as [L|L]; [|lia]. unfold tiles. replace (x / 4) with bx by (Z.to_euclidean_division_equations; lia). reflexivity.
Qed.
Example C76_ex_bc7 m : exists data image', zlen data = 64 /\ decode_bc7 m data 16 3 (repeat 7 48) = Ok (Done, image') /\ shows image' 16 3 tiles /\ znth image' 0 = rgba 37 200 101 0 /\ znth image' 15 = rgba 40 47 104 9.
Proof.
  destruct (C76_bc7_solid m 16 3 tiles ltac:(lia) ltac:(lia) ltac:(vm_compute; reflexivity) ltac:(lia) C76_tiles) as (data & _ & L & D).
  destruct (D (repeat 7 48)) as (image' & E & W); [vm_compute; discriminate|vm_compute; reflexivity|]. exists data, image'. split; [rewrite L; reflexivity|]. split; [exact E|]. split; [exact W|].
  split; [exact (W 0 0 ltac:(lia) ltac:(lia))|exact (W 15 0 ltac:(lia) ltac:(lia))].
Qed.
Example C76_ex_astc m : exists data image', zlen data = 64 /\ decode_astc m data 16 3 4 4 (repeat 7 48) = Ok (Done, image') /\ shows image' 16 3 tiles /\ znth image' 0 = rgba 37 200 101 0 /\ znth image' 15 = rgba 40 47 104 9.
Proof.
  destruct (C76_astc_solid m 4 4 16 3 tiles ltac:(lia) ltac:(lia) ltac:(lia) ltac:(lia) ltac:(lia) ltac:(vm_compute; reflexivity) ltac:(lia) C76_tiles) as (data & _ & L & D).
  destruct (D (repeat 7 48)) as (image' & E & W); [vm_compute; discriminate|vm_compute; reflexivity|]. exists data, image'. split; [rewrite L; reflexivity|]. split; [exact E|]. split; [exact W|].
  split; [exact (W 0 0 ltac:(lia) ltac:(lia))|exact (W 15 0 ltac:(lia) ltac:(lia))].
Qed.

Print Assumptions C76_bc1.
Print Assumptions C76_bc1a.
Print Assumptions C76_bc2.
Print Assumptions C76_bc3.
Print Assumptions C76_bc4.
Print Assumptions C76_bc5.
Print Assumptions C76_atc_rgb.
Print Assumptions C76_atc_rgba.
Print Assumptions C76_bc7_solid.
Print Assumptions C76_astc_solid.
