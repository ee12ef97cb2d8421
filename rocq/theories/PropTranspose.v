(** * C81: compressed pictures with exchanged axes *)
From Verif Require Import Base BaseLemmas ModelColor SpecImage SpecFormats SpecBc SpecEtc ModelBc ModelEtc SpecCut SpecTranspose ProofTranspose ProofTransposeEtc PropImage PropBc PropEtc.

Theorem C81_bc1 m : transposes 8 tr_colour (decode_bc1 m).
Proof. apply (tr_image 8 bc1_texel); [lia|apply C06_bc1_image_exact|exact tr_bc1]. Qed.
Theorem C81_bc1a m : transposes 8 tr_colour (decode_bc1a m).
Proof. apply (tr_image 8 bc1a_texel); [lia|apply C07_bc1a_image_exact|exact tr_bc1a]. Qed.
Theorem C81_bc2 m : transposes 16 (tr_halves tr_alpha tr_colour) (decode_bc2 m).
Proof. apply (tr_image 16 bc2_texel); [lia|apply C08_bc2_image_exact|exact tr_bc2]. Qed.
Theorem C81_bc3 m : transposes 16 (tr_halves tr_ramp tr_colour) (decode_bc3 m).
Proof. apply (tr_image 16 bc3_texel); [lia|apply C09_bc3_image_exact|exact tr_bc3]. Qed.
Theorem C81_bc4 m : transposes 8 tr_ramp (decode_bc4 m).
Proof. apply (tr_image 8 bc4_texel); [lia|apply C10_bc4_image_exact|exact tr_bc4]. Qed.
Theorem C81_bc5 m : transposes 16 (tr_halves tr_ramp tr_ramp) (decode_bc5 m).
Proof. apply (tr_image 16 bc5_texel); [lia|apply C10_bc5_image_exact|exact tr_bc5]. Qed.
Theorem C81_atc_rgb m : transposes 8 tr_colour (decode_atc_rgb4 m).
Proof. apply (tr_image 8 (atc_rgb4_texel atc_dark_code)); [lia|apply C17_atc_rgb_image_code|apply tr_atc]. Qed.
Theorem C81_atc_rgba m : transposes 16 (tr_halves tr_ramp tr_colour) (decode_atc_rgba8 m).
Proof. apply (tr_image 16 (atc_rgba8_texel atc_dark_code)); [lia|apply C18_atc_rgba_image_exact|apply tr_atca]. Qed.

Theorem C81_etc1 m : transposes 8 tr_etc1 (decode_etc1 m).
Proof. apply (tr_image 8 etc1_wrap_texel); [lia|apply C19_etc1_image_exact|exact tr_etc1_ok]. Qed.
Theorem C81_etc2_rgb m : transposes 8 tr_etc2 (decode_etc2_rgb m).
Proof. apply (tr_image 8 (fun b => etc2_texel b 0)); [lia|apply C20_etc2_rgb_image_exact|exact tr_etc2_ok]. Qed.
Theorem C81_etc2_rgba1 m : transposes 8 tr_etc2a (decode_etc2_rgba1 m).
Proof. apply (tr_image 8 etc2a_code_texel); [lia|apply C22_etc2_rgba1_image_code|exact tr_etc2a_ok]. Qed.
Theorem C81_etc2_rgba8 m : transposes 16 (tr_halves tr_eac tr_etc2) (decode_etc2_rgba8 m).
Proof. apply (tr_image 16 etc2_rgba8_texel); [lia|apply C23_etc2_rgba8_image_exact|exact tr_rgba8_ok]. Qed.

(** A planar and a differential ETC2 block beside each other, 7 pixels wide, 3 high. *)
Definition wide_etc2 : list Z := [0x31; 0x47; 0xFA; 0x1B; 0xC4; 0x55; 0xA7; 0x1F; 0x81; 0x41; 0x22; 0x5B; 0x07; 0x55; 0xAA; 0x3F].
Example C81_ex m : exists image' other', sized 4 4 8 wide_etc2 7 3 (repeat 7 21) /\ decode_etc2_rgb m wide_etc2 7 3 (repeat 7 21) = Ok (Done, image') /\
  decode_etc2_rgb m (tr_data 8 tr_etc2 2 1 wide_etc2) 3 7 (repeat 9 21) = Ok (Done, other') /\
  (forall x y, 0 <= x < 7 -> 0 <= y < 3 -> znth other' (x * 3 + y) = znth image' (y * 7 + x)) /\
  (let w := etc_word wide_etc2 0 in etc_diff w = true /\ overflows w 0 = false /\ overflows w 1 = false /\ overflows w 2 = true) /\
  (let w := etc_word (skipn 8 wide_etc2) 0 in etc_diff w = true /\ overflows w 0 = false /\ overflows w 1 = false /\ overflows w 2 = false) /\
  znth image' 1 <> znth image' 7 /\ znth image' 5 <> znth image' 11.
Proof.
  assert (sized 4 4 8 wide_etc2 7 3 (repeat 7 21)) as S by (split; [repeat constructor; unfold is_byte; lia|vm_compute; intuition discriminate]).
  assert (exists image', decode_etc2_rgb m wide_etc2 7 3 (repeat 7 21) = Ok (Done, image') /\ znth image' 1 <> znth image' 7 /\ znth image' 5 <> znth image' 11) as (image' & E & N) by (destruct m; eexists; (split; [vm_compute; reflexivity|vm_compute; split; discriminate])).
  destruct (C81_etc2_rgb m wide_etc2 7 3 (repeat 7 21) image' (repeat 9 21) S E ltac:(vm_compute; discriminate) ltac:(vm_compute; reflexivity)) as (other' & E' & P).
  exists image', other'. split; [exact S|]. split; [exact E|]. split; [exact E'|]. split; [exact P|]. split; [vm_compute; auto|]. split; [vm_compute; auto|exact N].
Qed.

Print Assumptions C81_bc1.
Print Assumptions C81_bc1a.
Print Assumptions C81_bc2.
Print Assumptions C81_bc3.
Print Assumptions C81_bc4.
Print Assumptions C81_bc5.
Print Assumptions C81_atc_rgb.
Print Assumptions C81_atc_rgba.
Print Assumptions C81_etc1.
Print Assumptions C81_etc2_rgb.
Print Assumptions C81_etc2_rgba1.
Print Assumptions C81_etc2_rgba8.
